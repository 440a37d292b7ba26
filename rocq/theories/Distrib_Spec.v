(** Vocabulary for the distribution of inputs. *)
From Verif Require Import Base.

(** All weights of the items put into a bin, given the weight of each item. *)
Fixpoint zsum (l : list Z) : Z := match l with [] => 0%Z | x :: l' => (x + zsum l')%Z end.

(** The lists handed to the workers of all nodes, node after node. *)
Definition all_nodes {A} (nodes : nat) (f : nat -> list (list A)) : list (list A) :=
  flat_map f (seq 0 nodes).

(** The sizes differ by at most one. *)
Definition even_sizes {A} (shares : list (list A)) : Prop :=
  forall s t, In s shares -> In t shares -> length s <= length t + 1.
