(** What is assumed about the samples of a dataset and about its files. *)
From Verif Require Import Base Format_Model Codec_Model Tree_Model Tree_Spec Sample_Spec Dataset_Model.
From Coq Require Import NArith.

(** Samples that one dataset can hold: there is a first one, its structure can be
    written to and read from the index, it has at least one value, every other sample looks like
    it, and every value can be stored. *)
Definition storable_samples (registered_w registered_r : nat -> bool) (ts : list (tree leaf)) : Prop :=
  match ts with
  | [] => False
  | t0 :: r => tree_valid t0 /\ tree_plain registered_w registered_r t0 /\ leaves t0 <> [] /\
               good_values t0 /\ Forall (fun t => like t0 t /\ good_values t) r
  end.

(** Every chunk is smaller than 4 GiB. *)
Definition small_chunks (x : written) : Prop := Forall (fun c => (N.of_nat (snd c) < two32)%N) (x_chunks x).

(** The samples at the given positions. *)
Definition at_positions {A} (l : list A) (is : list nat) (r : list A) : Prop :=
  Forall2 (fun i x => nth_error l i = Some x) is r.
