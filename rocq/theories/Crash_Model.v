(** Downloading and decompressing one chunk, with crashes: streaming/config.py 124-168 and
    streaming/downloader.py.  Modelled stores: the local one (LocalDownloader 230-245; HFDownloader
    248-289 moves its file the same way) and Azure (195-227).  S3 and GCP hand the path to a library.
    Locks are left out here (one process); Share_Model.v has several. *)
From Verif Require Import Base.

(** [File]: the path of the chunk as named in the index; [Tmp]: the same with ".tmp" appended
    (downloader.py 241); [Target]: the name without the compression suffix (config.py 153). *)
Inductive path := File | Tmp | Target.
Definition path_eqb (p q : path) : bool := match p, q with File, File | Tmp, Tmp | Target, Target => true | _, _ => false end.
Definition fs := path -> option (list nat).
Definition set (s : fs) (p : path) (v : option (list nat)) : fs := fun q => if path_eqb q p then v else s q.

(** Effects on files.  A write reaches the file piece by piece. *)
Inductive op := Create (p : path) | Append (p : path) (bs : list nat) | Rename (p q : path) | Remove (p : path).
Definition apply (s : fs) (o : op) : fs :=
  match o with
  | Create p => set s p (Some [])
  | Append p bs => set s p (match s p with Some d => Some (d ++ bs) | None => Some bs end)
  | Rename p q => match s p with Some d => set (set s p None) q (Some d) | None => s end
  | Remove p => set s p None
  end.
Definition run (s : fs) (os : list op) : fs := fold_left apply os s.

Inductive store := Local | Azure.
Definition exists_ (s : fs) (p : path) : bool := match s p with Some _ => true | None => false end.

Section R.
(** [cut] says in which pieces a write reaches the file. *)
Context (cut : list nat -> list (list nat)).

Definition write_file (p : path) (data : list nat) : list op := Create p :: map (Append p) (cut data).

(** downloader.py 238-243 (Local), 213-227 (Azure). *)
Definition download (st : store) (remote : list nat) (s : fs) : list op :=
  if exists_ s File then []
  else match st with
       | Local => write_file Tmp remote ++ [Rename Tmp File]
       | Azure => write_file File remote
       end.

(** config.py 149-168: [try_decompress] of a downloaded chunk; [dec = None]: no compression.  The
    decompressor raises on data it does not understand. *)
Definition try_decompress (dec : option (list nat -> option (list nat))) (s : fs) : list op * option exn :=
  match dec with
  | None => ([], None)
  | Some d =>
      if exists_ s Target then ([], None)
      else match s File with
           | None => ([], Some FileNotFoundError)
           | Some data =>
               match d data with
               | None => ([Remove File], Some GenericException)
               | Some out => (Remove File :: write_file Target out, None)
               end
           end
  end.

(** config.py 124-147: [download_chunk_from_index] of a remote dataset (the counter file is the
    subject of Locks_Model.v). *)
Definition fetch (st : store) (dec : option (list nat -> option (list nat))) (remote : list nat) (s : fs) : list op * option exn :=
  let ops := download st remote s in
  let '(ops2, e) := try_decompress dec (run s ops) in (ops ++ ops2, e).

(** Successive attempts, the [i]-th one stopped by a crash after [nth i ks] effects (not at all if the
    number is large). *)
Definition attempt (st : store) (dec : option (list nat -> option (list nat))) (remote : list nat) (s : fs) (k : nat) : fs :=
  run s (firstn k (fst (fetch st dec remote s))).
Definition attempts (st : store) (dec : option (list nat -> option (list nat))) (remote : list nat) (s : fs) (ks : list nat) : fs :=
  fold_left (attempt st dec remote) ks s.
End R.

Definition empty_cache : fs := fun _ => None.

(** item_loader.py 167 and 178: a reader opens the chunk file once it exists and has at least
    [chunk_bytes] bytes; chunk_bytes is the size of the uncompressed file (writer.py 272, 289). *)
Definition reader_accepts (s : fs) (p : path) (chunk_bytes : nat) : bool :=
  match s p with Some d => chunk_bytes <=? length d | None => false end.
