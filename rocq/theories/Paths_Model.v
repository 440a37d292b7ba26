(** Model of the paths of input files, of their copies in the cache, of the files
    that are deleted and of the names under which outputs are uploaded.
    Source: src/litdata/processing/data_processor.py 123-293, 395-415, 646-690, 1318-1335,
    src/litdata/processing/utilities.py 262-274. *)
From Coq Require Import String NArith.
From Verif Require Import Base Names_Model Size_Model.
Local Open Scope list_scope.
Local Open Scope nat_scope.

(** [s.replace(old, new)]: the leftmost, non-overlapping occurrences, all of them.
    Simplification: [old] is not empty (an input directory is an absolute path, a
    temporary directory has a name). *)
Fixpoint replace_from (old new : str) (skip : nat) (s : str) : str :=
  match s with
  | [] => []
  | c :: s' =>
      match skip with
      | S k => replace_from old new k s'
      | O => if starts old s then new ++ replace_from old new (length old - 1) s' else c :: replace_from old new 0 s'
      end
  end.
Definition replace (old new s : str) : str := replace_from old new 0 s.

Definition slash : N := 47%N.

(** [os.path.join(a, b)]. *)
Definition join (a b : str) : str :=
  if starts [slash] b then b
  else match a with [] => b | _ => if ends [slash] a then a ++ b else a ++ slash :: b end.

(** [os.path.basename(p)]. *)
Definition basename (p : str) : str := last (split slash p) [].

Section Paths.
  (** [input_dir.path] (absolute, symbolic links resolved), [cache_data_dir],
      [Path(element).resolve()], [os.path.isfile]. *)
  Variables (input_dir cache_dir : str) (resolve : str -> str) (isfile : str -> bool).

  (** data_processor.py 666-690: the strings of one input, flattened: the paths that will
      be downloaded and removed, and the strings that the user function gets.
      Simplifications: leaves that are not strings are not modelled (they are passed
      through); the studio, where a string starting with the input directory counts as
      a file without a look at the disk and paths of the studio itself are not moved,
      is not modelled. *)
  Definition local_path (p : str) : str := replace input_dir cache_dir p.
  Definition item_paths (leaves : list str) : res (list str) :=
    match filter isfile leaves with
    | [] => Err ValueError
    | fs => Ok (map resolve fs)
    end.
  Definition item_given (leaves : list str) : list str :=
    map (fun e => if isfile e then local_path (resolve e) else e) leaves.

  (** data_processor.py 195-203: the file that the remover deletes for a path of an input
      ([if input_dir] is true of every [Dir]). *)
  Definition removed (p : str) : str := if negb (starts cache_dir p) then local_path p else p.

  (** The disk: the content of each file. *)
  Definition disk := str -> option N.
  Definition put (d : disk) (p : str) (c : option N) : disk :=
    fun q => if list_eq_dec N.eq_dec q p then c else d q.

  (** What happens to the disk while a job runs.
      [Cleanup]: data_processor.py 1318-1335 ([rmtree] of the directory of downloaded
      files; the one of chunks is not modelled).
      [Fetch p from]: data_processor.py 154-176: a downloader fetches the file for the
      path [p], by a download of content [c] ([from = Some c]) or by a copy from the path
      itself ([from = None]); a copy of a file that does not exist, or onto itself,
      raises, the disk stays.
      [Drop p]: data_processor.py 194-203. *)
  Inductive event := Cleanup | Fetch (p : str) (from : option N) | Drop (p : str).
  Definition under (dir p : str) : bool := starts (dir ++ [slash]) p.
  Definition happen (d : disk) (e : event) : disk :=
    match e with
    | Cleanup => fun q => if under cache_dir q then None else d q
    | Fetch p (Some c) => put d (local_path p) (Some c)
    | Fetch p None => match d p with Some c => put d (local_path p) (Some c) | None => d end
    | Drop p => put d (removed p) None
    end.
  Definition happens (d : disk) (es : list event) : disk := fold_left happen es d.
  Definition path_of (e : event) : option str :=
    match e with Cleanup => None | Fetch p _ => Some p | Drop p => Some p end.
End Paths.

(** data_processor.py 239-273: where an uploader puts a local file.  [dir] is
    [output_dir.url] for remote directories, else [output_dir.path]. *)
Definition target (chunks_dir dir : str) (tmpdir : option str) (local : str) : str :=
  let local := if starts chunks_dir local then local else join chunks_dir local in
  let out := if contains (codes ".checkpoints") local then join dir (codes ".checkpoints") else dir in
  let out := match tmpdir with
             | None => join out (basename local)
             | Some t => join out (skipn 1 (replace t [] local))
             end in
  remove_uuid out.

(** data_processor.py 226-293: one uploader: the files of its queue, in order, each with
    its target and its content.  [fails j] says whether upload number [j] of this queue
    raises.  To a remote directory the exception is printed and the next file is
    taken; to a local directory it ends the process. *)
Fixpoint uploader (remote : bool) (fails : nat -> bool) (j : nat) (queue : list (str * N)) : list (str * N) :=
  match queue with
  | [] => []
  | f :: queue' =>
      if fails j then (if remote then uploader remote fails (S j) queue' else [])
      else f :: uploader remote fails (S j) queue'
  end.

(** data_processor.py 566-573: the worker joins its uploaders and does not look at how
    they ended.  The output directory after the uploads [ws] of all uploaders, in the
    order in which they happened. *)
Definition store (ws : list (str * N)) (out : disk) : disk := fold_left (fun d w => put d (fst w) (Some (snd w))) ws out.
