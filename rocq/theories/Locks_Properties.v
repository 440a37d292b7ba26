(** Reference counts: the properties. *)
From Verif Require Import Base Locks_Model Locks_Spec Locks_Proofs.

(** C34: in every interleaving in which workers follow the protocol, whenever nobody is inside
    the lock the counter file holds the number of registrations, and is absent when there are
    none. *)
Theorem C34_counter_is_number_of_holders present sched s : disciplined (l_init present) sched ->
  s = lrun (l_init present) sched -> l_lock s = None ->
  l_cnt s = match length (l_regs s) with 0 => None | n => Some (Some n) end.
Proof.
  intros D -> El. pose proof (lrun_inv sched _ (l_init_inv present) D) as HI. unfold LInv in HI. rewrite El in HI.
  destruct HI as [-> _]. destruct (l_regs _); reflexivity.
Qed.
Print Assumptions C34_counter_is_number_of_holders.

(** C34: a worker only ever decides to delete at a moment at which nobody is registered, although
    it reads the counter without the lock and the writers truncate it first. *)
Theorem C34_deletion_decided_when_unheld_partial present sched w : disciplined (l_init present) sched ->
  l_pcs (lrun (l_init present) sched) w = Del ->
  exists before rest, sched = before ++ (w, Check) :: rest /\ l_regs (lrun (l_init present) before) = [].
Proof. intros D HE. apply (removal_was_decided w sched _ (l_init_inv present) D); [discriminate|exact HE]. Qed.
Print Assumptions C34_deletion_decided_when_unheld_partial.

(** C34: if reading the counter and removing the file happen without a step of another worker in
    between, a file that disappears was held by nobody. *)
Theorem C34_undisturbed_delete_partial present sched w : disciplined (l_init present) sched ->
  l_pcs (lrun (l_init present) sched) w = Idle ->
  l_file (lrun (l_init present) sched) = true -> l_file (lrun (l_init present) (sched ++ [(w, Check); (w, Next)])) = false ->
  l_regs (lrun (l_init present) (sched ++ [(w, Check); (w, Next)])) = [].
Proof.
  intros D. assert (App : forall a b s, lrun s (a ++ b) = lrun (lrun s a) b).
  { induction a as [|[v x] a IH]; intros b s; [reflexivity|]. cbn [app lrun]. apply IH. }
  rewrite App. pose proof (lrun_inv sched _ (l_init_inv present) D) as HI. set (s := lrun (l_init present) sched) in *.
  intros Hi Hf. cbn [lrun]. cbn [lstep]. rewrite Hi. destruct (Nat.eqb_spec (remaining (l_cnt s)) 0) as [R|R].
  - cbn [with_ l_pcs l_lock]. rewrite set_pc_eq. cbn [with_ l_regs]. intros _. apply remaining_zero; assumption.
  - rewrite Hi. congruence.
Qed.
Print Assumptions C34_undisturbed_delete_partial.

Definition register (w : nat) := [(w, IncStart); (w, Next); (w, Next)].
Definition unregister (w : nat) := [(w, DecStart); (w, Next); (w, Next)].
Example C34_case :
  let sched := (1, IncStart) :: (1, Next) :: (2, Check) :: (1, Next) :: (1, Fetch) :: register 2 ++ unregister 1 in
  disciplined (l_init false) (sched ++ unregister 2) /\
  l_pcs (lrun (l_init false) sched) 2 = Idle /\ l_cnt (lrun (l_init false) sched) = Some (Some 1) /\
  l_file (lrun (l_init false) (sched ++ [(1, Check); (1, Next)])) = true /\
  l_file (lrun (l_init false) (sched ++ unregister 2 ++ [(1, Check); (1, Next)])) = false.
Proof.
  vm_compute. intuition auto.
Qed.

(** C34 is false when another worker registers between the reading of the counter and the removal:
    the chunk is deleted although worker 2 holds it. *)
Theorem C34_delete_while_held_refuted :
  exists sched, disciplined (l_init true) sched /\
    l_file (lrun (l_init true) sched) = false /\ l_regs (lrun (l_init true) sched) = [2].
Proof. exists ((1, Check) :: register 2 ++ [(1, Next)]). vm_compute. intuition auto. Qed.
Print Assumptions C34_delete_while_held_refuted.

(** C34 is false when a worker gives back a chunk it obtained by a forced download, which does not
    register it (config.py 140: [skip_lock]): the registration of another worker is used up, and
    the file is deleted under it, even without a race. *)
Theorem C34_forced_download_refuted :
  exists sched, l_file (lrun (l_init true) sched) = false /\ l_regs (lrun (l_init true) sched) = [2] /\
    sched = register 2 ++ unregister 1 ++ [(1, Check); (1, Next)].
Proof. eexists. split; [|split; [|reflexivity]]; reflexivity. Qed.
Print Assumptions C34_forced_download_refuted.

(** C70: a worker that stops without giving a chunk back (an interrupted epoch) keeps the chunk from
    being deleted for ever: whatever the other workers do, no one decides to delete it. *)
Theorem C70_interrupted_reader_keeps_chunks present sched1 sched2 w :
  disciplined (l_init present) (sched1 ++ sched2) -> In w (l_regs (lrun (l_init present) sched1)) ->
  Forall (fun va => fst va = w -> snd va <> DecStart /\ snd va <> DecTimeout) sched2 ->
  forall v, lstep (lrun (l_init present) (sched1 ++ sched2)) v Check = None \/
            lstep (lrun (l_init present) (sched1 ++ sched2)) v Check = Some (lrun (l_init present) (sched1 ++ sched2)).
Proof.
  intros D Hin F v. pose proof (lrun_inv _ _ (l_init_inv present) D) as HI.
  assert (App : forall a b s, lrun s (a ++ b) = lrun (lrun s a) b).
  { induction a as [|[u x] a IH]; intros b s; [reflexivity|]. cbn [app lrun]. apply IH. }
  assert (HR : In w (l_regs (lrun (l_init present) (sched1 ++ sched2)))).
  { rewrite App. apply lrun_stays; assumption. }
  set (s := lrun (l_init present) (sched1 ++ sched2)) in *. cbn [lstep].
  destruct (l_pcs s v); try (left; reflexivity).
  destruct (Nat.eqb_spec (remaining (l_cnt s)) 0) as [R|R]; [|right; reflexivity].
  rewrite (remaining_zero s HI R) in HR. destruct HR.
Qed.
Print Assumptions C70_interrupted_reader_keeps_chunks.

Example C70_case : let s := lrun (l_init true) (register 7 ++ register 1 ++ unregister 1) in
  disciplined (l_init true) (register 7 ++ register 1 ++ unregister 1) /\ l_cnt s = Some (Some 1) /\
  l_file (lrun s [(1, Check); (1, Next)]) = true.
Proof. vm_compute. intuition auto. Qed.

(** C70 is false: after worker 7 stopped in the middle of a chunk, no schedule of the other workers,
    of any length, lets any of them decide to delete it. *)
Theorem C70_later_epochs_delete_refuted : exists sched1, disciplined (l_init true) sched1 /\
  forall sched2, disciplined (l_init true) (sched1 ++ sched2) -> Forall (fun va => fst va <> 7) sched2 ->
  forall v, let s := lrun (l_init true) (sched1 ++ sched2) in lstep s v Check = None \/ lstep s v Check = Some s.
Proof.
  exists (register 7). split; [vm_compute; intuition auto|]. intros sched2 D F v.
  apply (C70_interrupted_reader_keeps_chunks true (register 7) sched2 7 D).
  - vm_compute. auto.
  - eapply Forall_impl; [|exact F]. intros a Ha E. contradiction.
Qed.
Print Assumptions C70_later_epochs_delete_refuted.
