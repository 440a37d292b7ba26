(** Vocabulary for the cache batch sampler. *)
From Verif Require Import Base.
From Verif Require Export Config_Spec.   (* [every] *)

(** The batches dataloader worker [w] of [nw] receives: torch hands batch [i] to
    worker [i mod nw]. *)
Definition received {A} (nw w : nat) (batches : list (list A)) : list (list A) := every nw w batches.

(** Full batches, then at most one shorter non-empty one, then only empty ones. *)
Definition full_but_last {A} (b : nat) (batches : list (list A)) : Prop :=
  exists full last k, batches = full ++ last ++ repeat [] k /\
    Forall (fun x => length x = b) full /\ length last <= 1 /\ Forall (fun x => 1 <= length x <= b) last.

(** All (sample index, chunk) pairs of the chunks with the given index ranges. *)
Definition chunk_samples (chunk : nat) (iv : nat * nat) : list (nat * nat) :=
  map (fun i => (i, chunk)) (seq (fst iv) (snd iv - fst iv)).
Definition all_samples (ivs : list (nat * nat)) : list (nat * nat) :=
  flat_map (fun p => chunk_samples (fst p) (snd p)) (combine (seq 0 (length ivs)) ivs).
