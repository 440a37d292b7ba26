(** Model of what map and optimize make of their inputs before the workers start: input directory, file sizes,
    weights, agreement of several nodes.
    Source: src/litdata/processing/functions.py 59-97, 284-316, 452-500,
    src/litdata/processing/data_processor.py 365-393, 1079-1090, 1125-1141, src/litdata/utilities/broadcast.py 125-153,
    src/litdata/streaming/resolver.py 347-354. *)
From Coq Require Import String NArith ZArith.
From Verif Require Import Base Names_Model Size_Model Paths_Model Assign_Model Distrib_Model.
Local Open Scope list_scope.
Local Open Scope nat_scope.

(** The leaves of an input, in the order of [tree_flatten]: strings and others. *)
Inductive leaf := Text (s : str) | Other (n : nat).
Definition item := list leaf.

(** What there is at a path.  Simplification: a relative path and its resolution have the same entry. *)
Inductive found := Missing | Folder (size : Z) | File (size : Z).
Definition machine := str -> found.
Definition exists_at (fs : machine) (p : str) : bool := match fs p with Missing => false | _ => true end.
Definition size_at (fs : machine) (p : str) : Z := match fs p with Missing => 0 | Folder n | File n => n end%Z.

(** data_processor.py 365-379: [_get_num_bytes]. *)
Fixpoint num_bytes (fs : machine) (i : item) : res Z :=
  match i with
  | [] => Ok 0%Z
  | Other _ :: i' => num_bytes fs i'
  | Text s :: i' =>
      if exists_at fs s then
        if (size_at fs s =? 0)%Z then Err RuntimeError
        else bind (num_bytes fs i') (fun n => Ok (size_at fs s + n)%Z)
      else num_bytes fs i'
  end.

(** data_processor.py 382-393: [_get_item_filesizes]; the threads do not matter, the results are asked for in order. *)
Fixpoint item_filesizes (fs : machine) (items : list item) : res (list Z) :=
  match items with
  | [] => Ok []
  | i :: items' => bind (num_bytes fs i) (fun n => bind (item_filesizes fs items') (fun l => Ok (n :: l)))
  end.

(** data_processor.py 1125-1141: the shares of the workers of a node.  [dir]: [input_dir.path]; an input may be a batch of
    inputs, whose leaves are those of its elements. *)
Definition shares (perm : nat -> nat -> list nat) (nodes rank nw : nat) (fs : machine) (items : list item)
    (weights : option (list Z)) (reorder_files : bool) (dir : option str) : res (list (list item)) :=
  match weights with
  | Some _ => distribute perm nodes rank nw items weights None
  | None =>
      match dir with
      | Some (_ :: _) =>
          if reorder_files then bind (item_filesizes fs items) (fun sizes => distribute perm nodes rank nw items None (Some sizes))
          else distribute perm nodes rank nw items None None
      | _ => distribute perm nodes rank nw items None None
      end
  end.

(** functions.py 59-61: [_is_remote_file]: the scheme is what stands before the first colon.  Simplification: control characters,
    which urlparse removes, are kept. *)
Definition colon : N := 58%N.
Definition lower (c : N) : N := if ((65 <=? c) && (c <=? 90))%N then (c + 32)%N else c.
Definition is_remote_file (p : str) : bool :=
  match split colon p with
  | scheme :: _ :: _ => existsb (fun x => if list_eq_dec N.eq_dec (map lower scheme) (codes x) then true else false) ["s3"; "gs"]%string
  | _ => false
  end.

(** functions.py 64-71: [_get_indexed_paths] (the values, in order). *)
Definition paths_of (fs : machine) (i : item) : list str :=
  flat_map (fun l => match l with Text s => if exists_at fs s || is_remote_file s then [s] else [] | Other _ => [] end) i.

(** [os.path.dirname]: without its trailing slashes, unless it consists of slashes. *)
Fixpoint strip_slashes (r : str) : str := match r with [] => [] | c :: r' => if (c =? slash)%N then strip_slashes r' else r end.
Fixpoint after_slash (r : str) : str := match r with [] => [] | c :: r' => if (c =? slash)%N then r else after_slash r' end.
Definition dirname (p : str) : str :=
  let head := after_slash (rev p) in
  match strip_slashes head with [] => rev head | h => rev h end.

(** functions.py 74-97: [_get_input_dir]; [resolve]: [Path(p).resolve()], [studio]: [_IS_IN_STUDIO]. *)
Definition first4 (p : str) : str := join [slash] (fold_left join (firstn 4 (split slash p)) []).
Definition get_input_dir (fs : machine) (resolve : str -> str) (studio : bool) (inputs : list item) : res (option str) :=
  match inputs with
  | [] => Err IndexError
  | i0 :: rest =>
      match paths_of fs i0 with
      | path :: _ =>
          if is_remote_file path then Ok (Some (dirname path))
          else
            let a := resolve path in
            if studio || starts (codes "/teamspace") a then
              Ok (Some (first4 (if contains (codes "/.project") a then path else a)))
            else Ok None
      | [] =>
          match rest with
          | [] => Ok None
          | i1 :: _ => match paths_of fs i1 with [] => Ok None | _ => Err ValueError end
          end
      end
  end.

(** functions.py 284-316 (map): the inputs are grouped after the input directory was found; 452-500
    (optimize): the same, but the weights are not handed on.  [resolve_dir]: the path that [_resolve_dir] gives. *)
Inductive call := Map | Optimize.
Definition processed (c : call) (perm : nat -> nat -> list nat) (nodes rank nw : nat) (fs : machine) (resolve : str -> str) (studio : bool)
    (resolve_dir : option str -> option str) (inputs : list item) (weights : option (list Z)) (reorder_files : bool)
    (batch_size : nat) (input_dir : option str) : res (list (list item)) :=
  bind (match input_dir with Some (_ :: _) => Ok input_dir | _ => get_input_dir fs resolve studio inputs end) (fun dir =>
  let items := match batch_inputs batch_size inputs with Some l => map (@concat leaf) l | None => inputs end in
  shares perm nodes rank nw fs items (match c with Map => weights | Optimize => None end) reorder_files (resolve_dir dir)).

(** ** Several nodes *)

(** broadcast.py 93-107, 125-141: the map of the platform: the first value that is set under a key stays. *)
Definition shared := list (string * str).
Definition set_and_get (m : shared) (key : string) (v : str) : shared * str :=
  match find (fun x => if string_dec (fst x) key then true else false) m with
  | Some x => (m, snd x)
  | None => (m ++ [(key, v)], v)
  end.

(** broadcast.py 144-153: [broadcast_object]; [app]: whether LIGHTNING_APP_EXTERNAL_URL is set. *)
Definition broadcast (app : bool) (m : shared) (key : string) (v : str) : shared * str :=
  if app then set_and_get m key v else (m, v).

(** resolver.py 347-354: [_resolve_time_template]: the pattern between the first braces is replaced by the time of the call.  The match
    that is asked for before: "{%" somewhere, and "}" at the end.  Simplification: paths without newline. *)
Definition lbrace : N := 123%N.
Definition rbrace : N := 125%N.
Definition resolve_time (strftime : str -> str) (path : str) : str :=
  if contains [lbrace; 37%N] path && ends [rbrace] path then
    match split lbrace path with
    | _ :: b :: _ =>
        let pattern := hd [] (split rbrace b) in
        replace (lbrace :: pattern ++ [rbrace]) (strftime pattern) path
    | _ => path
    end
  else path.

(** data_processor.py 1079-1090: the directories with which a node goes on. *)
Definition node_dirs (app : bool) (m : shared) (input_dir output_dir : str) : shared * (str * str) :=
  let '(m, i) := broadcast app m "input_dir" input_dir in
  let '(m, o) := broadcast app m "output_dir" output_dir in
  (m, (i, o)).

(** The nodes of one or several calls, in the order in which they get to the platform (the two requests of a node may be
    separated by others'; [requests] below has them one by one). *)
Definition request (app : bool) (st : shared * list str) (r : string * str) : shared * list str :=
  let '(m, got) := broadcast app (fst st) (fst r) (snd r) in (m, snd st ++ [got]).
Definition requests (app : bool) (m : shared) (rs : list (string * str)) : shared * list str :=
  fold_left (request app) rs (m, []).
