(** Model of the cache directories of remote datasets: how they are named, when they are emptied, and
    what is read from them.
    Source: src/litdata/utilities/dataset_utilities.py 41-75, 127-211, 229-256, 304-313,
    src/litdata/streaming/dataset.py 213-242, src/litdata/streaming/resolver.py 41-82.

    Simplifications: processes take turns, one call at a time; a cache root is an identifier (roots do not
    lie in one another); a directory that exists and is empty is not distinguished from one that does not exist;
    deletions by the reader are left out (a deleted file is fetched again like one that was never fetched). *)
From Coq Require Import String NArith.
From Verif Require Import Base Names_Model Size_Model Paths_Model.
Local Open Scope list_scope.
Local Open Scope nat_scope.

(** Files of a directory by name. *)
Definition folder := str -> option (list N).
Definition index_name : str := codes "index.json".

(** A [StreamingDataset] after [__init__]: where its files are looked for and where they come from; the
    index that it has read. *)
Record handle := Handle { h_root : nat; h_key : str; h_stamp : str; h_url : str; h_index : list N }.

(** The remote directories, the cache directories (root, hash of the url, timestamp), the open datasets. *)
Record world := World { store : str -> folder; cache : nat -> str -> list (str * folder); handles : list handle }.

Section Fresh.
(** md5 (its hexadecimal digest), and the field "updated_at" of an index file. *)
Context (hash : str -> str) (updated_at : list N -> option str).

(** dataset_utilities.py 141-169: [_read_updated_at], with 195-196. *)
Definition stamp_of (url : str) (index : list N) : str :=
  let s := match updated_at index with Some s => s | None => codes "0" end in
  if list_eq_dec N.eq_dec s (codes "0") then hash url else s.

(** dataset_utilities.py 172-183: [_clear_cache_dir_if_updated], with [os.makedirs] of line 204. *)
Definition clear_if_updated (dirs : list (str * folder)) (stamp : str) : list (str * folder) :=
  match dirs with
  | [(s, d)] => if list_eq_dec N.eq_dec s stamp then dirs else [(stamp, fun _ => None)]
  | _ => [(stamp, fun _ => None)]
  end.

Fixpoint find_dir (dirs : list (str * folder)) (stamp : str) : option folder :=
  match dirs with
  | [] => None
  | (s, d) :: dirs' => if list_eq_dec N.eq_dec s stamp then Some d else find_dir dirs' stamp
  end.
Definition put (d : folder) (name : str) (data : list N) : folder :=
  fun q => if list_eq_dec N.eq_dec q name then Some data else d q.
Fixpoint put_dir (dirs : list (str * folder)) (stamp : str) (d : folder) : list (str * folder) :=
  match dirs with
  | [] => []
  | (s, d') :: dirs' => if list_eq_dec N.eq_dec s stamp then (s, d) :: dirs' else (s, d') :: put_dir dirs' stamp d
  end.
Definition set_cache (c : nat -> str -> list (str * folder)) (root : nat) (key : str) (dirs : list (str * folder)) :=
  fun r k => if (r =? root) && (if list_eq_dec N.eq_dec k key then true else false) then dirs else c r k.

(** dataset_utilities.py 41-75 and 186-211: [StreamingDataset(url, cache_dir, index_path)].  [given]: the content of the
    file given as [index_path]. *)
Definition open_dataset (w : world) (root : nat) (url : str) (given : option (list N)) : res (handle * world) :=
  match (match given with Some x => Some x | None => store w url index_name end) with
  | None => Err FileNotFoundError
  | Some index =>
      let stamp := stamp_of url index in
      let dirs := clear_if_updated (cache w root (hash url)) stamp in
      match find_dir dirs stamp with
      | None => Err FileNotFoundError
      | Some d =>
          let d := match d index_name with Some _ => d | None => put d index_name index end in
          match d index_name with
          | None => Err ValueError
          | Some i =>
              let h := Handle root (hash url) stamp url i in
              Ok (h, World (store w) (set_cache (cache w) root (hash url) (put_dir dirs stamp d)) (handles w ++ [h]))
          end
      end
  end.

(** downloader.py 63-72 and the [download_file] methods: a file that is in the cache directory is
    used, another one is fetched from the url.  Without its directory the file cannot be created. *)
Definition read_file (w : world) (h : handle) (name : str) : res (list N * world) :=
  match find_dir (cache w (h_root h) (h_key h)) (h_stamp h) with
  | None => Err FileNotFoundError
  | Some d =>
      match d name with
      | Some data => Ok (data, w)
      | None =>
          match store w (h_url h) name with
          | None => Err FileNotFoundError
          | Some data =>
              Ok (data, World (store w)
                (set_cache (cache w) (h_root h) (h_key h) (put_dir (cache w (h_root h) (h_key h)) (h_stamp h) (put d name data)))
                (handles w))
          end
      end
  end.

(** Somebody replaces the dataset at a url, opens a dataset, or reads a file of an open one; a call that
    raises changes nothing. *)
Inductive event := Publish (url : str) (files : folder) | Open (root : nat) (url : str) (given : option (list N)) | Read (n : nat) (name : str).
Definition publish (w : world) (url : str) (files : folder) : world :=
  World (fun u => if list_eq_dec N.eq_dec u url then files else store w u) (cache w) (handles w).
Definition step (w : world) (e : event) : world :=
  match e with
  | Publish url files => publish w url files
  | Open root url given => match open_dataset w root url given with Ok (_, w') => w' | Err _ => w end
  | Read n name =>
      match nth_error (handles w) n with
      | Some h => match read_file w h name with Ok (_, w') => w' | Err _ => w end
      | None => w
      end
  end.
Fixpoint steps (w : world) (es : list event) : world :=
  match es with [] => w | e :: es' => steps (step w e) es' end.

End Fresh.

(** dataset_utilities.py 127-138: [_should_replace_path]. *)
Definition should_replace_path (path : str) : bool :=
  match path with
  | [] => true
  | _ => existsb (fun p => starts (codes p) path)
           ["/teamspace/datasets/"; "/teamspace/s3_connections/"; "/teamspace/s3_folders/"; "/teamspace/gcs_folders/"; "/teamspace/gcs_connections/"]%string
  end.

(** resolver.py 57-82: [_resolve_dir] of an absolute path that exists: the path, and the url if the platform knows one.
    [platform] stands for the four functions that ask the platform ([_resolve_studio] etc.). *)
Definition in_folder (p : string) (path : str) : bool :=
  starts (codes p) path && (3 <? length (split slash path)).
Definition resolve_path (platform : str -> res str) (path : str) : res (str * option str) :=
  if starts (codes "/teamspace/studios/this_studio") path then Ok (path, None)
  else if in_folder "/teamspace/studios" path || in_folder "/teamspace/s3_connections" path
          || in_folder "/teamspace/s3_folders" path || in_folder "/teamspace/datasets" path
       then bind (platform path) (fun url => Ok (path, Some url))
       else Ok (path, None).

(** dataset_utilities.py 41-75: opening the dataset in a local directory; [local]: the files of the
    directories of this machine, [remote]: of the urls.  The cache directory is new.  Result: the index that is used. *)
Definition open_path (platform : str -> res str) (local remote : str -> folder) (path : str) : res (list N) :=
  bind (resolve_path platform path) (fun x =>
  let d := if should_replace_path (fst x) then (fun _ => None) else local (fst x) in
  match d index_name with
  | Some i => Ok i
  | None =>
      match snd x with
      | Some url => match remote url index_name with Some i => Ok i | None => Err FileNotFoundError end
      | None => Err ValueError
      end
  end).
