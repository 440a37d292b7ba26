(** Vocabulary for the files of an input. *)
From Verif Require Import Base.

(** [l] is [m] with some elements left out, in the same order. *)
Inductive sublist {A} : list A -> list A -> Prop :=
| sublist_nil : sublist [] []
| sublist_take x l m : sublist l m -> sublist (x :: l) (x :: m)
| sublist_skip x l m : sublist l m -> sublist l (x :: m).
