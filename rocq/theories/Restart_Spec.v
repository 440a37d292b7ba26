(** What the properties about interrupted runs say. *)
From Verif Require Import Base Format_Model Writer_Model Writer_Spec Restart_Model.

(** The file of the chunk with entry [i] exists, holds exactly the samples [g], and the
    entry describes it. *)
Definition holds (c : wcfg) (files : nat -> option bytes) (g : list item) (i : info) : Prop :=
  g <> [] /\ exists file, files (f_index i) = Some file /\
    chunk_of c (f_index i) (Chunk (f_index i) file (f_bytes i) (f_size i) (f_dim i) g).

(** The index lists files that hold, in order, exactly the samples [xs]. *)
Definition dataset_of (c : wcfg) (files : nat -> option bytes) (index : list info) (xs : list item) : Prop :=
  exists groups, concat groups = xs /\ Forall2 (holds c files) groups index /\ NoDup (map f_index index).
