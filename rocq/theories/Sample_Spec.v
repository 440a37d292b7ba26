(** What the properties about samples say. *)
From Verif Require Import Base Format_Model Codec_Model Codec_Spec Tree_Model Tree_Spec.
From Coq Require Import NArith ZArith.

(** A later sample looks like the first one: same structure, and each value is of
    the kind of the value in the same place of the first sample. *)
Definition like (first t : tree leaf) : Prop :=
  same_structure first t /\ Forall2 same_kind (leaves first) (leaves t).

(** A sample whose values can be stored. *)
Definition good_values (t : tree leaf) : Prop := Forall (fun l => valid l /\ storable l) (leaves t).
