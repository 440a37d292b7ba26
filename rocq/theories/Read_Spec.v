(** Vocabulary for the calls of the reader. *)
From Verif Require Import Base Iter_Model Prefetch_Model Read_Model.

(** The samples loaded, the chunks asked for and the chunks given back, in order. *)
Definition loaded (es : list ev) : list (nat * nat) := flat_map (fun e => match e with ELoad c i => [(c, i)] | _ => [] end) es.
Definition asked (es : list ev) : list nat := flat_map (fun e => match e with EReq cs => cs | _ => [] end) es.
Definition given_back (es : list ev) : list nat := flat_map (fun e => match e with EBack c => [c] | _ => [] end) es.

(** Whenever a sample is loaded, its chunk was asked for more often than it was given back. *)
Definition loads_held (es : list ev) : Prop := forall before c i after, es = before ++ ELoad c i :: after ->
  count_occ Nat.eq_dec (given_back before) c < count_occ Nat.eq_dec (asked before) c.

(** No schedule starves one of the two. *)
Definition fair (f : nat -> who) : Prop := forall w n, exists m, n <= m /\ f m = w.
Definition upto (f : nat -> who) (n : nat) : list who := map f (seq 0 n).

(** The events of one epoch of a worker that reads a remote dataset from the start: the dataset's
    iteration (Iter_Model.v) produces requests, and the reader serves them. *)
Definition epoch_of (shuf : shuf_t) (env : Assign_Model.denv) (nw wrank epoch : nat)
    (a : list (list nat) * list (list Assign_Model.interval)) (closes : bool) (es : list ev) : Prop :=
  exists s0 reqs s' st, iter_fresh env nw wrank epoch a = Ok s0 /\ Run shuf s0 reqs s' /\ reads true closes rd_init reqs = Ok (st, es).
