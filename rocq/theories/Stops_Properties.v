(** The end of a call of [map] or [optimize]: the properties. *)
From Verif Require Import Base Stops_Model Stops_Spec Stops_Proofs Stops_Proofs2 Stops_Proofs3.

(** C200 (partial): a worker whose inputs are processed without exceptions and that is neither interrupted nor
    terminated because another worker failed comes to its end, whatever the order of the steps of its downloaders, uploaders, its remover and its own process:
    there is a number of steps no run exceeds, and a run that cannot go on has left no process.  Missing for the
    full property: interrupted and failing calls, for which it is false (below). *)
Theorem C200_finished_partial work last inputs uploaders remover :
  inputs <> [] -> (forall i, exists files, work i = Ok files) -> (exists files, last = Ok files) ->
  exists bound, forall n s', steps [Interrupt; Kill] work last n (started inputs uploaders remover) s' ->
    n <= bound /\
    ((forall a s'', ~ In a [Interrupt; Kill] -> step work last a s' <> Some s'') -> s_phase s' = Ended /\ nothing_left s').
Proof.
  intros Hne Hw Hl. exists (cost work last (started inputs uploaders remover)). intros n s' H.
  split; [pose proof (steps_bound work last [Interrupt; Kill] n _ _ (or_introl eq_refl) H); lia|]. intros Stuck.
  pose proof (steps_inv1 work last n _ _ Hw Hl H (started_inv1 work Hw inputs uploaders remover Hne)) as I1.
  destruct (s_phase s') eqn:Ep; try (destruct (no_deadlock work last Hw Hl s' I1) as (a & s2 & H1 & K1 & H2); [congruence|];
    refine (False_ind _ (Stuck a s2 _ H2)); intros [C|[C|[]]]; congruence).
  destruct I1 as (_ & _ & HP). rewrite Ep in HP. destruct HP as (D & U & R).
  split; [reflexivity|]. split; [left; exact Ep|]. split; [|split; [exact U|exact R]].
  apply none_live in D. rewrite forallb_forall in D. apply Forall_forall. intros d Hd. specialize (D d Hd). destruct d; [discriminate|reflexivity].
Qed.
Print Assumptions C200_finished_partial.

(** C200 (partial): without uploaders and remover, that is without an output directory and without deleting inputs, a
    worker comes to its end however it goes: inputs may fail, here or in another worker, and interrupts may come at any
    time.  After any steps no process is left or a process can make a step (the parent, if this worker has failed), and the number of steps that follow is bounded. *)
Theorem C200_alone_partial work last inputs l :
  inputs <> [] ->
  let s := run work last l (started inputs 0 false) in
  (nothing_left s \/ exists a s', a <> Interrupt /\ (a = Kill -> s_phase s = Failed) /\ step work last a s = Some s') /\
  exists bound, forall n s', steps [Interrupt] work last n s s' -> n <= bound.
Proof.
  intros Hne s. split.
  - destruct (run_alone work last l (started inputs 0 false) eq_refl eq_refl
      (or_introl (started_inv1 (work' work) (work_fine work) inputs 0 false Hne))) as (U & R & H).
    apply alone_goes_on; assumption.
  - exists (cost work last s). intros n s' H. pose proof (steps_bound work last [Interrupt] n _ _ (or_introl eq_refl) H). lia.
Qed.
Print Assumptions C200_alone_partial.

(** With uploaders, that is with an output directory, an interrupted worker that left its loop waits for ever: nobody
    tells the uploaders to end.  The same holds for the uploaders of a worker that failed, also after the parent
    terminated it, and of a worker terminated in its loop because another one failed. *)
Theorem C200_left_behind work last inputs uploaders remover l :
  1 <= uploaders ->
  let s := run work last l (started inputs uploaders remover) in
  s_phase s = Terminating true \/ s_phase s = Failed \/ s_phase s = Killed ->
  forall l', let s' := run work last l' s in
    s_phase s' <> Ended /\ length (s_up s') = uploaders /\ Forall (fun h => h <> None) (s_up s') /\ ~ nothing_left s'.
Proof.
  intros Hu s Hp l' s'.
  pose proof (run_up0 work last l _ (started_up0 inputs uploaders remover)) as H1. fold s in H1. destruct H1 as (I1 & L1 & _).
  cbn [started s_up] in L1. rewrite repeat_length in L1.
  pose proof (run_up0 work last l' s I1) as H2. fold s' in H2. destruct H2 as (I2 & L2 & S2).
  assert (Hne : s_up s <> []) by (intros C; apply (f_equal (@length _)) in C; cbn [length] in C; lia).
  specialize (S2 Hne Hp). specialize (I2 (or_intror S2)).
  assert (A : Forall (fun h => h <> None) (s_up s')).
  { eapply Forall_impl; [|exact I2]. intros h (q & -> & _). discriminate. }
  split; [destruct S2 as [C|[C|C]]; rewrite C; discriminate|]. split; [congruence|]. split; [exact A|].
  intros (_ & _ & U & _). assert (L3 : length (s_up s') = uploaders) by congruence. clear - Hu L3 A U. destruct (s_up s') as [|h r]; [cbn [length] in L3; lia|].
  pose proof (Forall_inv A) as A1. pose proof (Forall_inv U) as U1. exact (A1 U1).
Qed.
Print Assumptions C200_left_behind.

(** The same for the remover, also if there are no uploaders. *)
Theorem C200_remover_left_behind work last inputs uploaders l :
  let s := run work last l (started inputs uploaders true) in
  s_phase s = Terminating true \/ s_phase s = Failed \/ s_phase s = Killed ->
  forall l', let s' := run work last l' s in
    s_phase s' <> Ended /\ (exists q, s_rem s' = [Some q]) /\ ~ nothing_left s'.
Proof.
  intros s Hp l' s'.
  pose proof (run_rem work last l _ (started_rem inputs uploaders true)) as H1. fold s in H1. destruct H1 as (I1 & _).
  pose proof (run_lengths work last l (started inputs uploaders true)) as L1. fold s in L1. destruct L1 as (_ & L1). cbn [started s_rem length] in L1.
  pose proof (run_rem work last l' s I1) as H2. fold s' in H2. destruct H2 as (I2 & S2).
  pose proof (run_lengths work last l' s) as L2. fold s' in L2. destruct L2 as (_ & L2). rewrite L1 in L2.
  assert (Hne : s_rem s <> []) by (intros C; apply (f_equal (@length _)) in C; cbn [length] in C; lia).
  specialize (S2 Hne Hp). specialize (I2 (or_intror S2)).
  assert (A : exists q, s_rem s' = [Some q]).
  { clear - I2 L2. destruct (s_rem s') as [|h [|h' r]]; try discriminate L2. inversion I2 as [|? ? (q & -> & _) _]; subst. exists q. reflexivity. }
  split; [destruct S2 as [C|[C|C]]; rewrite C; discriminate|]. split; [exact A|].
  intros (_ & _ & _ & R). destruct A as (q & A). rewrite A in R. inversion R; subst. discriminate.
Qed.
Print Assumptions C200_remover_left_behind.
Example C200_remover_case :
  let s := run (fun _ => Err ValueError) (Ok []) [Downloader 0; Main; Kill; Downloader 0] (started [[7]] 0 true) in
  s_phase s = Killed /\ s_rem s = [Some []] /\ s_down s = [None].
Proof. vm_compute. repeat split; reflexivity. Qed.

(** C200 is false: one input, one uploader.  Interrupted while the input is processed, and failing at it. *)
Theorem C200_refuted :
  exists work last l1 l2,
    let s1 := run (fun _ => Ok work) (Ok last) l1 (started [[7; 8]] 1 false) in
    let s2 := run (fun _ => Err ValueError) (Ok last) l2 (started [[7; 8]] 1 false) in
    In Interrupt l1 /\ s_phase s1 = Terminating true /\
    (forall l, ~ nothing_left (run (fun _ => Ok work) (Ok last) l s1)) /\
    ~ In Interrupt l2 /\ s_phase s2 = Killed /\
    (forall l, ~ nothing_left (run (fun _ => Err ValueError) (Ok last) l s2)).
Proof.
  exists [0], [], [Downloader 0; Downloader 0; Interrupt; Main; Uploader 0], [Downloader 0; Main; Kill; Downloader 0; Downloader 0]. cbv zeta.
  split; [right; right; left; reflexivity|]. split; [vm_compute; reflexivity|]. split.
  { intros l. apply (C200_left_behind _ _ _ 1 false _ (le_n 1)). left. vm_compute. reflexivity. }
  split; [intros C; cbn in C; repeat (destruct C as [C|C]; [discriminate|]); exact C|]. split; [vm_compute; reflexivity|].
  intros l. apply (C200_left_behind _ _ _ 1 false _ (le_n 1)). right. right. vm_compute. reflexivity.
Qed.
Print Assumptions C200_refuted.

(** Two downloaders, two inputs, one uploader and a remover: all of them end. *)
Example C200_case :
  let s := run (fun i => Ok [0]) (Ok [0]) ([Downloader 0; Downloader 1; Main; Uploader 0; Downloader 1; Main; Downloader 0; Main; Remover 0; Main]
             ++ repeat (Uploader 0) 3 ++ [Main] ++ repeat (Remover 0) 5 ++ [Main; Main]) (started [[1]; [2]] 1 true) in
  s = Wst Ended 2 false [] [None; None] [None] [None].
Proof. vm_compute. reflexivity. Qed.
(** Interrupted without uploaders. *)
Example C200_interrupted_case :
  let s := run (fun i => Ok []) (Ok []) [Downloader 0; Interrupt; Main; Downloader 0; Downloader 0; Main] (started [[1; 2]] 0 false) in
  s = Wst Ended 0 false [Some 2; None] [None] [] [].
Proof. vm_compute. reflexivity. Qed.
(** Failing without uploaders. *)
Example C200_alone_case :
  let s := run (fun i => if i =? 2 then Err ValueError else Ok []) (Ok []) [Downloader 0; Main; Downloader 0; Interrupt; Main; Kill; Downloader 0; Downloader 0] (started [[1; 2; 3]] 0 false) in
  s = Wst Killed 0 true [Some 3; None] [None] [] [].
Proof. vm_compute. reflexivity. Qed.
(** At every moment of its loop a worker can be terminated because another one failed; with an output directory its
    uploaders then stay. *)
Theorem C200_other_failed work last inputs uploaders remover l :
  1 <= uploaders ->
  let s := run work last l (started inputs uploaders remover) in
  s_phase s = Loop ->
  exists s1, step work last Kill s = Some s1 /\ s_phase s1 = Killed /\ s_ready s1 = s_ready s /\
    forall l', let s' := run work last l' s1 in length (s_up s') = uploaders /\ Forall (fun h => h <> None) (s_up s') /\ ~ nothing_left s'.
Proof.
  intros Hu s Hp. assert (E : exists s1, step work last Kill s = Some s1 /\ s_phase s1 = Killed /\ s_ready s1 = s_ready s).
  { cbn [step]. rewrite Hp. eexists. split; [reflexivity|]. split; reflexivity. }
  destruct E as (s1 & E & P & Q). exists s1. split; [exact E|]. split; [exact P|]. split; [exact Q|].
  assert (R : run work last (l ++ [Kill]) (started inputs uploaders remover) = s1).
  { unfold run. rewrite fold_left_app. cbn [fold_left]. fold (run work last l (started inputs uploaders remover)). fold s. rewrite E. reflexivity. }
  intros l' s'. pose proof (C200_left_behind work last inputs uploaders remover (l ++ [Kill]) Hu) as H. cbv zeta in H. rewrite R in H.
  destruct (H (or_intror (or_intror P)) l') as (_ & H1). exact H1.
Qed.
Print Assumptions C200_other_failed.
(** Terminated in the loop because another worker failed: the uploader and the remover are left. *)
Example C200_other_case :
  let s := run (fun i => Ok [0]) (Ok []) [Downloader 0; Main; Kill; Main; Downloader 0; Uploader 0; Downloader 0; Remover 0; Remover 0] (started [[1; 2]] 1 true) in
  s = Wst Killed 0 false [Some 2; None] [None] [Some []] [Some []].
Proof. vm_compute. reflexivity. Qed.
