(** What the properties about the end of [optimize] on several nodes say. *)
From Coq Require Import String NArith.
From Verif Require Import Base Names_Model Merge_Model Merge_Spec.
Local Open Scope nat_scope.

(** The workers of every node, by rank, have left their index files in the node's cache directory; each node has
    at least one, and all have the same configuration. *)
Definition nodes_wrote {chunk config} (nodes : list (list (nat * index chunk config))) (dirs : list (list (str * index chunk config))) (c : config) : Prop :=
  Forall2 (fun ws files => by_rank ws /\ same_width ws /\ listing ws files /\ ws <> [] /\
                           Forall (fun w => i_config (snd w) = Some c) ws) nodes dirs.

(** In [schedule] every node but the last does two steps before the last one, in the rest of it, does as many as there are
    nodes and two more. *)
Definition enough_steps (num_nodes : nat) (first rest : list nat) : Prop :=
  (forall n, n < num_nodes - 1 -> 2 <= count_occ Nat.eq_dec first n) /\ num_nodes + 2 <= count_occ Nat.eq_dec rest (num_nodes - 1).

(** The index of a dataset with these chunks of all nodes, the first node's first. *)
Definition whole_index {chunk config} (nodes : list (list (nat * index chunk config))) (c : config) : index chunk config :=
  Index (flat_map in_order nodes) (Some c).
