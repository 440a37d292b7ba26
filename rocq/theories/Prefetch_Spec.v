(** Vocabulary for the prefetching thread. *)
From Verif Require Import Base Prefetch_Model.

(** A reader that starts with an empty cache, asks for no chunk twice, never asks for a forced
    download, gives back only chunks that were downloaded, each once, and ends once. *)
Fixpoint well_behaved (cfg : pcfg) (s : pstate) (acts : list pact) : Prop :=
  match acts with
  | [] => True
  | a :: rest =>
      match a with
      | Request cs => NoDup (p_req s ++ map Some cs)
      | GiveBack c => In c (p_done s) /\ ~ In c (p_back s)
      | Finish => ~ In None (p_req s)
      | Force _ => False
      | _ => True
      end /\ well_behaved cfg (pstep cfg s a) rest
  end.

(** No forced download is ever asked for. *)
Definition unforced (acts : list pact) : Prop := forall c, ~ In (Force c) acts.
