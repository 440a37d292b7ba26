(** Vocabulary for the properties about iterating and resuming a dataset. *)
From Verif Require Import Base Assign_Model Assign_Spec Iter_Model.

(** The sample a request asks for. *)
Definition req_sample (r : request) : sample := (rq_chunk r, rq_index r).

(** The order in which a worker should deliver: chunk after chunk, the positions
    of the chunk in the order the shuffler gives. [n] is the number of chunks of
    the worker, [k] the position of the first chunk of the list. *)
Fixpoint chunk_order (shuf : shuf_t) (n epoch k : nat) (cis : list (nat * interval)) : list sample :=
  match cis with
  | [] => []
  | (c, iv) :: cis' =>
      map (fun i => (c, i)) (shuf (seq (iv_rs iv) (iv_re iv - iv_rs iv)) n epoch k)
      ++ chunk_order shuf n epoch (S k) cis'
  end.

(** The whole sample stream of a worker in an epoch. *)
Definition stream (shuf : shuf_t) (epoch : nat) (w : list nat * list interval) : list sample :=
  chunk_order shuf (length (fst w)) epoch 0 (combine (fst w) (snd w)).

(** There are [n] workers, each with as many chunks as intervals, and no
    interval is empty. *)
Definition assignment_ok (n : nat) (a : list (list nat) * list (list interval)) : Prop :=
  shape_ok n a /\ Forall (fun w => Forall (fun iv => iv_rs iv < iv_re iv) (snd w)) (workers a).

(** The shuffler never adds or loses positions. *)
Definition shuf_ok (shuf : shuf_t) : Prop :=
  forall l n e k, Permutation (shuf l n e k) l.

(** Round-robin delivery: of the first [n] samples that a rank receives in whole
    batches of [B] from [nw] workers taking turns, how many are from worker [w]. *)
Definition turns (nw B n w : nat) : nat :=
  length (filter (fun j => (j / B) mod nw =? w) (seq 0 n)).

(** What worker [w] contributed to a list of deliveries. *)
Definition from_worker {A} (w : nat) (l : list (nat * A)) : list A :=
  map snd (filter (fun x => fst x =? w) l).
