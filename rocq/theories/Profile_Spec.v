(** Vocabulary for profiling: which calls of a worker count. *)
From Verif Require Import Base.

Definition success {B} (r : res B) : bool := match r with Ok _ => true | Err _ => false end.
(** How many of the results are batches. *)
Definition batches {B} (l : list (res B)) : nat := length (filter success l).
(** The calls, by their numbers, before which at least [a] and at most [b] batches were made. *)
Definition calls_between {B} (a b : nat) (l : list (res B)) : list nat :=
  filter (fun p => (a <=? batches (firstn p l)) && (batches (firstn p l) <=? b)) (seq 0 (length l)).
