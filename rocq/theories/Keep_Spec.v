(** What a worker does with a chunk in an epoch, and when it is using it. *)
From Verif Require Import Base Keep_Model.

Definition count (P : nat * act -> bool) (es : list (nat * act)) : nat := length (filter P es).
Definition is_get (c : nat) (a : act) : bool := match a with Get x => x =? c | _ => false end.
Definition is_give (c : nat) (a : act) : bool := match a with Give x => x =? c | _ => false end.
Definition is_remove (c : nat) (a : act) : bool := match a with Remove x => x =? c | _ => false end.
Definition gets (w c : nat) (es : list (nat * act)) : nat := count (fun e => (fst e =? w) && is_get c (snd e)) es.
Definition gives (w c : nat) (es : list (nat * act)) : nat := count (fun e => (fst e =? w) && is_give c (snd e)) es.

(** A worker is using a chunk: it fetched it and did not give it back. *)
Definition in_use (w c : nat) (es : list (nat * act)) : Prop := gives w c es < gets w c es.

(** Every worker fetches a chunk once and gives it back after that; the removals may stand anywhere. *)
Definition proper (es : list (nat * act)) : Prop :=
  forall pre post w c, es = pre ++ post -> gives w c pre <= gets w c pre <= 1.

(** The events of one worker; a schedule of given programs. *)
Definition of_worker (w : nat) (es : list (nat * act)) : list act := map snd (filter (fun e => fst e =? w) es).
Definition schedule (programs : list (list act)) (es : list (nat * act)) : Prop :=
  Forall (fun e => fst e < length programs) es /\
  forall w, w < length programs -> of_worker w es = nth w programs [].

Definition times (c : nat) (l : list nat) : nat := count_occ Nat.eq_dec l c.
