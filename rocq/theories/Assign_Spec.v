(** Vocabulary for the properties about distributing a dataset over workers.
    Independent of how the code computes the distribution. *)
From Verif Require Import Base Assign_Model.

(** A sample is identified by the chunk it is read from and its position. *)
Definition sample := (nat * nat)%type.

(** The samples denoted by one (chunk, interval) pair: the region of interest. *)
Definition samples_of (ci : nat * interval) : list sample :=
  map (fun i => (fst ci, i)) (seq (iv_rs (snd ci)) (iv_re (snd ci) - iv_rs (snd ci))).

(** All samples of a list of chunks, in order. *)
Definition dataset_samples (indexes : list nat) (ivs : list interval) : list sample :=
  flat_map samples_of (combine indexes ivs).

(** The samples a worker is assigned: its list of chunks and its list of intervals. *)
Definition worker_samples (w : list nat * list interval) : list sample :=
  dataset_samples (fst w) (snd w).

(** The workers' assignments, in worker order. *)
Definition workers (a : list (list nat) * list (list interval)) : list (list nat * list interval) :=
  combine (fst a) (snd a).

(** The workers of one rank. *)
Definition rank_workers (nw rank : nat) (a : list (list nat) * list (list interval)) :=
  firstn nw (skipn (rank * nw) (workers a)).

(** An interval whose region of interest lies inside the chunk. *)
Definition iv_wf (i : interval) : Prop :=
  iv_start i <= iv_rs i /\ iv_rs i <= iv_re i /\ iv_re i <= iv_end i.

(** The random generator returns a permutation of the positions. *)
Definition rng_ok (rng : rng_t) : Prop := forall key n, Permutation (rng key n) (seq 0 n).

(** [iv'] is a non-empty part of [iv] with the same chunk bounds. *)
Definition sub_interval (iv' iv : interval) : Prop :=
  iv_start iv' = iv_start iv /\ iv_end iv' = iv_end iv /\
  iv_rs iv <= iv_rs iv' /\ iv_rs iv' < iv_re iv' /\ iv_re iv' <= iv_re iv.

(** Every worker has as many chunks as intervals; there are [n] workers. *)
Definition shape_ok (n : nat) (a : list (list nat) * list (list interval)) : Prop :=
  length (fst a) = n /\ length (snd a) = n /\
  Forall (fun w => length (fst w) = length (snd w)) (workers a).
