(** Model of the files of a cache directory with compressed chunks: where a chunk is
    decompressed, when it is downloaded, what a deletion leaves and how the size is taken.
    Source: src/litdata/streaming/config.py 104-175 and 236-269, src/litdata/streaming/downloader.py
    63-72, src/litdata/streaming/item_loader.py 305-322, src/litdata/streaming/reader.py 130-158 and
    475-516.

    Simplifications: one process; a download that is asked for puts the whole file in its
    place (Crash_Model.v and Share_Model.v have crashes and several processes); counter files are left
    out (Locks_Model.v), so a deletion that is asked for is carried out. *)
From Coq Require Import String NArith.
From Verif Require Import Base Names_Model Size_Model Paths_Model.
Local Open Scope list_scope.
Local Open Scope nat_scope.

(** The dataset as opened by [ChunksConfig]: cache directory, compression, whether there is a remote
    directory, rank and number of each chunk, and the stored files.  [u_dir p]: the directory of
    the path [p] exists. *)
Record unzip := Unzip {
  u_cache : str;
  u_comp : option str;
  u_remote : bool;
  u_chunks : list (nat * nat);
  u_store : nat -> list N;
  u_decompress : list N -> res (list N);
  u_dir : str -> bool
}.

Definition files := str -> option (list N).
Definition set_file (d : files) (p : str) (v : option (list N)) : files :=
  fun q => if list_eq_dec N.eq_dec q p then v else d q.

(** config.py 126-128: [local_chunkpath] of chunk [i]. *)
Definition chunk_file (c : unzip) (i : nat) : str :=
  match nth_error (u_chunks c) i with
  | Some (r, k) => join (u_cache c) (chunk_name (u_comp c) r k)
  | None => []
  end.

(** config.py 153 and 252-253: the path from which the chunk is read. *)
Definition read_path (c : unzip) (i : nat) : str :=
  match u_comp c with
  | Some comp => replace (dot :: comp) [] (chunk_file c i)
  | None => chunk_file c i
  end.

(** config.py 149-168: [try_decompress]. *)
Definition unpack (c : unzip) (i : nat) (d : files) : res files :=
  match u_comp c with
  | None => Ok d
  | Some _ =>
      match d (read_path c i) with
      | Some _ => Ok d
      | None =>
          match d (chunk_file c i) with
          | None => Err FileNotFoundError
          | Some data =>
              let d := if u_remote c then set_file d (chunk_file c i) None else d in
              bind (u_decompress c data) (fun data =>
              if u_dir c (read_path c i) then Ok (set_file d (read_path c i) (Some data)) else Err FileNotFoundError)
          end
      end
  end.

(** config.py 124-147: [download_chunk_from_index]; the second component lists the downloads. *)
Definition request (c : unzip) (i : nat) (s : files * list nat) : res (files * list nat) :=
  let '(d, log) := s in
  match d (chunk_file c i) with
  | Some _ => bind (unpack c i d) (fun d => Ok (d, log))
  | None =>
      if u_remote c
      then bind (unpack c i (set_file d (chunk_file c i) (Some (u_store c i)))) (fun d => Ok (d, log ++ [i]))
      else Ok (d, log)
  end.

(** reader.py 142 with item_loader.py 305-322: [delete]. *)
Definition delete (c : unzip) (i : nat) (s : files * list nat) : files * list nat :=
  (set_file (fst s) (read_path c i) None, snd s).

Inductive event := Request (i : nat) | Delete (i : nat).
Definition handle (c : unzip) (s : files * list nat) (e : event) : res (files * list nat) :=
  match e with Request i => request c i s | Delete i => Ok (delete c i s) end.
Fixpoint handle_all (c : unzip) (s : files * list nat) (es : list event) : res (files * list nat) :=
  match es with [] => Ok s | e :: es' => bind (handle c s e) (fun s => handle_all c s es') end.

(** reader.py 475-516: [_get_folder_size] of a list of files with their sizes; [known]:
    [filename_to_size_map] (config.py 104-109). *)
Fixpoint known_size (known : list (str * nat)) (name : str) : option nat :=
  match known with
  | [] => None
  | (k, n) :: known' => if list_eq_dec N.eq_dec name k then Some n else known_size known' name
  end.
Definition file_size (known : list (str * nat)) (f : str * nat) : nat :=
  match known_size known (fst f) with
  | Some n => n
  | None =>
      if existsb (fun x => ends (codes x) (fst f)) [".cnt"; ".lock"; ".json"; ".zstd.bin"]%string then 0
      else if contains (codes ".bin") (fst f) then snd f
      else 0
  end.
Definition folder_size (known : list (str * nat)) (dir : list (str * nat)) : nat := sum (map (file_size known) dir).
(** config.py 105-109.  Simplification: without compression the suffix that is replaced is ".None", which no
    chunk name contains; a later entry with the same name would replace an earlier one, here the first one counts
    (chunk names are distinct). *)
Definition size_map (comp : option str) (chunks : list ((nat * nat) * nat)) : list (str * nat) :=
  map (fun x => (replace (dot :: match comp with Some s => s | None => codes "None" end) []
                   (chunk_name comp (fst (fst x)) (snd (fst x))), snd x)) chunks.
