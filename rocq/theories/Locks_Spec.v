(** Vocabulary for the reference counts. *)
From Verif Require Import Base Locks_Model.

(** Workers that follow the protocol: they unregister only what they registered and the lock is
    always obtained in time. *)
Fixpoint disciplined (s : lstate) (sched : list (nat * lact)) : Prop :=
  match sched with
  | [] => True
  | (w, a) :: rest =>
      match a with
      | DecStart => In w (l_regs s)
      | IncTimeout | DecTimeout => False
      | _ => True
      end /\ disciplined (match lstep s w a with Some s' => s' | None => s end) rest
  end.

(** The step by which worker [w] removes the chunk file. *)
Definition removes (s : lstate) (w : nat) (a : lact) : Prop := a = Next /\ l_pcs s w = Del.
