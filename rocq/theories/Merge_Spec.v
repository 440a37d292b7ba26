(** What the properties about merging say. *)
From Verif Require Import Base Names_Model Merge_Model.
From Coq Require Import NArith Sorted.
Local Open Scope list_scope.
Local Open Scope nat_scope.

(** The writers of one cache directory, by rank, in increasing order; their ranks are
    written with the same number of digits (at most ten workers, for instance). *)
Definition by_rank {A} (ws : list (nat * A)) : Prop := StronglySorted lt (map fst ws).
Definition same_width {A} (ws : list (nat * A)) : Prop :=
  forall r r', In r (map fst ws) -> In r' (map fst ws) -> length (dec r) = length (dec r').

(** All chunks, the ones of the first worker first. *)
Definition in_order {chunk config} (ws : list (nat * index chunk config)) : list chunk :=
  flat_map (fun w => i_chunks (snd w)) ws.

(** The directory of the workers' index files, listed in any order. *)
Definition listing {chunk config} (ws : list (nat * index chunk config)) (files : list (str * index chunk config)) : Prop :=
  Permutation files (map (fun w => (worker_index (fst w), snd w)) ws).

(** The chunks of a dataset: their entries without the names, and their files. *)
Definition contents {format rest info} (d : dataset format rest info) : list (info * option (list N)) :=
  map (fun c => (snd c, d_files d (fst c))) (d_chunks d).

(** The samples, for any way of reading a chunk with the configuration of the dataset. *)
Definition samples {format rest info sample}
    (read : format -> option str -> rest -> info * option (list N) -> list sample) (d : dataset format rest info) : list sample :=
  flat_map (read (d_format d) (d_compression d) (d_rest d)) (contents d).

(** Every file of the index exists. *)
Definition complete {format rest info} (d : dataset format rest info) : Prop :=
  Forall (fun c => d_files d (fst c) <> None) (d_chunks d).
