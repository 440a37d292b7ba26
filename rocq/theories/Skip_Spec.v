(** Vocabulary for the properties about deleting shared chunks. *)
From Verif Require Import Base Assign_Model Assign_Spec.

(** Worker [w] reads chunk [c]. *)
Definition reads (wc : list (list nat)) (w c : nat) : Prop :=
  exists chunks, nth_error wc w = Some chunks /\ In c chunks.

(** At least two workers read chunk [c]. *)
Definition shared_by_two (wc : list (list nat)) (c : nat) : Prop :=
  exists w1 w2, w1 <> w2 /\ reads wc w1 c /\ reads wc w2 c.

(** [skip w c]: worker [w] is told not to delete [c].  Exactly one of the
    readers of a shared chunk is not told so; nobody is told so for other
    chunks, nor is a worker that does not read the chunk. *)
Definition exactly_one_deletes (wc : list (list nat)) (skip : nat -> nat -> Prop) : Prop :=
  (forall c, shared_by_two wc c ->
     exists w0, reads wc w0 c /\ forall w, reads wc w c -> (skip w c <-> w <> w0)) /\
  (forall w c, skip w c -> reads wc w c /\ shared_by_two wc c).

(** Of the batches [out] of a rank, each with the worker it comes from, the last
    one with a sample of chunk [c] comes from worker [w]. *)
Definition last_served (c : nat) (out : list (nat * list sample)) (w : nat) : Prop :=
  exists before b after, out = before ++ (w, b) :: after /\ In c (map fst b) /\
    forall w' b', In (w', b') after -> ~ In c (map fst b').
