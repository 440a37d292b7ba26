(** Vocabulary for the end of a call. *)
From Verif Require Import Base Stops_Model.

(** No process of the worker is left. *)
Definition nothing_left (s : wst) : Prop :=
  (s_phase s = Ended \/ s_phase s = Killed) /\
  Forall (fun d => d = None) (s_down s) /\ Forall (fun h => h = None) (s_up s) /\ Forall (fun h => h = None) (s_rem s).

(** Steps that are all possible, one after the other; [n] of them, none by one of [others]. *)
Inductive steps (others : list actor) (work : nat -> res (list nat)) (last : res (list nat)) : nat -> wst -> wst -> Prop :=
| steps_none s : steps others work last 0 s s
| steps_one a n s s1 s2 : ~ In a others -> step work last a s = Some s1 -> steps others work last n s1 s2 -> steps others work last (S n) s s2.
