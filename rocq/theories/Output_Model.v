(** Model of what optimize and map do to an output directory before they start.
    Source: src/litdata/streaming/resolver.py 232-329, src/litdata/streaming/fs_provider.py
    60-224, src/litdata/processing/data_processor.py 1336-1358, src/litdata/processing/functions.py 457-459. *)
From Coq Require Import String NArith.
From Verif Require Import Base Names_Model Size_Model Paths_Model.
Local Open Scope list_scope.
Local Open Scope nat_scope.

Inductive mode := NoMode | Append | Overwrite.

(** ** Remote directories
    A bucket is the list of the keys of its objects, in the order in which they are
    listed.  A directory is the path part of its url without the leading slash, with a
    trailing slash if the user wrote one. *)
Inductive provider := S3 | GCP.
Definition mem (k : str) (l : list str) : bool := existsb (fun x => if list_eq_dec N.eq_dec k x then true else false) l.

(** [s.rstrip("/")]. *)
Fixpoint lstrip_slash (s : str) : str :=
  match s with c :: s' => if (c =? slash)%N then lstrip_slash s' else s | [] => [] end.
Definition rstrip_slash (s : str) : str := rev (lstrip_slash (rev s)).

(** fs_provider.py 107, 191: the objects with a prefix: on S3 one page of [limit] objects
    (1000: [list_objects_v2] is called once), on GCP all. *)
Definition listed (p : provider) (limit : nat) (prefix : str) (keys : list str) : list str :=
  let found := filter (starts prefix) keys in
  match p with S3 => firstn limit found | GCP => found end.

(** fs_provider.py 121-129, 215-224: [is_empty]. *)
Definition is_empty (p : provider) (dir : str) (keys : list str) : bool :=
  let prefix := match p with S3 => rstrip_slash dir ++ [slash] | GCP => dir end in
  negb (existsb (starts prefix) keys).

(** fs_provider.py 102-109, 185-196: [delete_file_or_directory]. *)
Definition delete (p : provider) (limit : nat) (path : str) (keys : list str) : list str :=
  let gone := listed p limit path keys in filter (fun k => negb (mem k gone)) keys.

(** fs_provider.py 111-119, 198-213: [exists].  [broken]: the request fails for another
    reason than a missing object. *)
Definition exists_key (broken : bool) (key : str) (keys : list str) : res bool :=
  if broken then Err GenericException else Ok (mem key keys).

(** resolver.py 259-329 for a remote directory: the objects that are left. *)
Definition check_remote (p : provider) (limit : nat) (md : mode) (use_checkpoint broken : bool) (dir : str) (keys : list str)
  : res (list str) :=
  match md with
  | Append => Ok keys
  | _ =>
      if is_empty p dir keys then Ok keys
      else
        let has_index := match exists_key broken (rstrip_slash dir ++ slash :: codes "index.json") keys with Ok _ => true | Err _ => false end in
        match md with
        | NoMode => if has_index then Err RuntimeError else if use_checkpoint then Ok keys else Ok (delete p limit dir keys)
        | _ => Ok (delete p limit dir keys)
        end
  end.

(** resolver.py 232-256: [_assert_dir_is_empty] for a remote directory
    (map(error_when_not_empty=True)). *)
Definition check_empty (p : provider) (dir : str) (keys : list str) : res unit :=
  if is_empty p dir keys then Ok tt else Err RuntimeError.
(** resolver.py 238-239: and for a local directory with these files. *)
Definition check_empty_local (files : list str) : res unit := Ok tt.

(** ** Local directories
    The names of the files in it, and whether it has a directory of checkpoints.
    resolver.py 277-306. *)
Record folder := Folder { fd_files : list str; fd_checkpoints : bool }.
Definition index_name : str := codes "index.json".
Definition check_local (md : mode) (use_checkpoint : bool) (d : option folder) : res (option folder) :=
  match md, d with
  | Append, _ => Ok d
  | _, None => Ok None
  | _, Some f =>
      match md with
      | NoMode =>
          if mem index_name (fd_files f) then Err RuntimeError
          else if use_checkpoint then Ok d
          else Ok (Some (Folder (filter (fun n => negb (ends (codes ".bin") n)) (fd_files f)) false))
      | _ =>
          Ok (Some (Folder (filter (fun n => negb (ends (codes ".bin") n))
                      (filter (fun n => negb (mem n [index_name])) (fd_files f))) false))
      end
  end.

(** functions.py 457-459: every node does this when it starts; nodes do not wait for each
    other.  [Start]: a node starts; [Upload n]: some node uploads a file. *)
Inductive node_event := Start | Upload (name : str).
Fixpoint nodes_run (md : mode) (use_checkpoint : bool) (es : list node_event) (d : option folder) : res (option folder) :=
  match es with
  | [] => Ok d
  | Start :: es' => bind (check_local md use_checkpoint d) (nodes_run md use_checkpoint es')
  | Upload n :: es' =>
      let f := match d with Some f => f | None => Folder [] false end in
      nodes_run md use_checkpoint es' (Some (Folder (fd_files f ++ [n]) (fd_checkpoints f)))
  end.
