(** What the properties about compressed chunks say. *)
From Coq Require Import String NArith.
From Verif Require Import Base Names_Model Size_Model Paths_Model Unzip_Model.
Local Open Scope list_scope.
Local Open Scope nat_scope.

(** Names of compressors: "zstd", "zstd:4", ...; not the beginning of "bin". *)
Definition comp_ok (comp : str) : Prop := ~ In slash comp /\ starts comp (codes "bin") = false.

(** The name of a directory: not empty, no slash at its end. *)
Definition dir_name (p : str) : Prop := p <> [] /\ ends [slash] p = false.

(** Inside a directory. *)
Definition inside (dir p : str) : Prop := exists name, p = dir ++ slash :: name.

(** A dataset: the directory exists, different chunks have different names, and each stored file
    is the chunk itself or, with compression, can be decompressed to it. *)
Definition dataset_ok (c : unzip) (chunk : nat -> list N) : Prop :=
  dir_name (u_cache c) /\ NoDup (u_chunks c) /\
  (forall name, ~ In slash name -> u_dir c (u_cache c ++ slash :: name) = true) /\
  match u_comp c with
  | None => forall i, i < length (u_chunks c) -> u_store c i = chunk i
  | Some comp => comp_ok comp /\ forall i, i < length (u_chunks c) -> u_decompress c (u_store c i) = Ok (chunk i)
  end.

(** The cache directory before the run: of a remote dataset nothing, of a local one the stored files,
    which are all that is there under the names in question. *)
Definition cache_ok (c : unzip) (d : files) : Prop :=
  forall i, i < length (u_chunks c) ->
    d (chunk_file c i) = (if u_remote c then None else Some (u_store c i)) /\
    (u_comp c <> None -> d (read_path c i) = None).

(** Requests and deletions of existing chunks. *)
Definition about (e : event) : nat := match e with Request i | Delete i => i end.
Definition events_ok (c : unzip) (es : list event) : Prop := Forall (fun e => about e < length (u_chunks c)) es.

Fixpoint count (i : nat) (l : list nat) : nat := match l with [] => 0 | j :: l' => (if i =? j then 1 else 0) + count i l' end.

(** How often a chunk is deleted. *)
Definition deletions (i : nat) (es : list event) : nat :=
  length (filter (fun e => match e with Delete j => i =? j | Request _ => false end) es).
