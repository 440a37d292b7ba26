(** C194: the room on the disk. *)
From Verif Require Import Base Disk_Model Disk_Spec Disk_Proofs.

(** C194: with the cache on the disk that is watched, in every interleaving: if all downloaders together, with the largest inputs, and all that the job writes
    need no more than the threshold, no write ever fails; and that much less than the threshold is the least that is ever free. *)
Theorem C194_room_partial j m free queues l s :
  j_root j = None -> inputs_up_to m j queues -> length queues * m + all_output j queues <= j_threshold j ->
  steps j (start free queues) l = Some s ->
  s_full s = false /\ (j_threshold j < free -> j_threshold j < s_free s + length queues * m + all_output j queues).
Proof.
  intros Hr Hm Hw H. destruct (le_lt_dec free (j_threshold j)) as [Hf|Hf].
  - destruct (nothing_steps j free l Hr Hf _ _ (nothing_start free queues) H) as (_ & _ & _ & _ & F & _). split; [exact F|lia].
  - assert (B0 : bound j (length queues) m (start free queues)).
    { split; [reflexivity|]. unfold start. cbn [s_dl s_free s_worked map sum]. rewrite held_start. lia. }
    destruct (bound_steps j queues m l Hr Hm Hw _ _ (inv_start j free queues) B0 H) as [F B]. split; [exact F|]. intros _.
    pose proof (inv_written _ _ _ (inv_steps j queues l _ _ (inv_start j free queues) H)) as W. rewrite map_app, sum_app_ in W. lia.
Qed.
Print Assumptions C194_room_partial.

(** C194: if, moreover, the inputs are removed and the job begins with more room than the threshold and what it writes, every run of it ends, whatever the
    interleaving: there are no more steps than the inputs and their files account for, and when none is left every input was worked on once and
    its files are gone. *)
Theorem C194_ends_partial j m free queues l s :
  j_root j = None -> j_remove j = true -> inputs_up_to m j queues -> length queues * m + all_output j queues <= j_threshold j ->
  j_threshold j + all_output j queues < free -> steps j (start free queues) l = Some s ->
  length l <= sum (map (fun i => 4 + 2 * length (j_sizes j i)) (concat queues)) /\
  (stuck j s -> all_worked queues s /\ s_full s = false /\ s_free s + all_output j queues = free).
Proof.
  intros Hr Hrm Hm Hw Hf H. split.
  { pose proof (mu_steps j l _ _ H) as M. rewrite mu_start in M. unfold cost in M. lia. }
  intros St. destruct (C194_room_partial j m free queues l s Hr Hm Hw H) as [F _].
  pose proof (inv_steps j queues l _ _ (inv_start j free queues) H) as I.
  destruct (used_steps j queues l Hrm _ _ (inv_start j free queues) H F) as [_ U]. rewrite used_start in U. change (s_free (start free queues)) with free in U.
  destruct (stuck_idle j s St) as (R & G & D). rewrite (idle_used j s R G D) in U.
  pose proof (inv_written _ _ _ I) as W. rewrite map_app, sum_app_ in W.
  assert (A : all_worked queues s).
  { apply (idle_all j queues s I R). eapply Forall_impl; [|exact D]. intros x [->|(q & i & -> & L)]; [reflexivity|]. rewrite Hr in L. lia. }
  split; [exact A|]. split; [exact F|]. unfold all_output. rewrite <- (sum_perm _ _ (Permutation_map (j_out j) A)). lia.
Qed.
Print Assumptions C194_ends_partial.

(** Two downloaders, three inputs of two files each; threshold 25, 32 free. *)
Definition ex_job := Job (fun i => [4; i + 2]) (fun _ => 1) 25 true None.
Definition ex_queues := [[0; 2]; [1]].
Definition ex_turns := [Down 0; Down 1; Down 0; Down 1; Down 0; Down 1; Down 1; Down 0; Down 1; Down 0; Work; Down 0; Remove; Remove; Work; Remove; Remove; Down 0; Down 0; Down 0; Down 0; Work; Remove; Remove].
Example C194_case : inputs_up_to 8 ex_job ex_queues /\ length ex_queues * 8 + all_output ex_job ex_queues <= 25 /\ 25 + all_output ex_job ex_queues < 32 /\
  match steps ex_job (start 32 ex_queues) (firstn 11 ex_turns) with Some s => s_free s = 18 /\ s_worked s = [1] | None => False end /\
  match steps ex_job (start 32 ex_queues) (firstn 12 ex_turns) with Some s => step ex_job s (Down 0) = None | None => False end /\
  match steps ex_job (start 32 ex_queues) ex_turns with Some s => s_free s = 29 /\ s_worked s = [1; 0; 2] /\ map (step ex_job s) [Down 0; Down 1; Work; Remove] = repeat None 4 | None => False end.
Proof.
  split. { intros i Hi. cbn in Hi. cbn. lia. }
  split; [vm_compute; lia|]. split; [vm_compute; lia|]. split; [vm_compute; auto|]. split; [vm_compute; reflexivity|]. vm_compute. auto.
Qed.

(** C194 is false on a disk with no more room than the threshold: the job waits for ever, however small its inputs. *)
Theorem C194_small_disk_refuted : exists j queues free, j_remove j = true /\ j_root j = None /\ sum (map (fun i => sum (j_sizes j i)) (concat queues)) + all_output j queues < free /\
  forall l s, steps j (start free queues) l = Some s -> s_worked s = [] /\ length l <= 1.
Proof.
  exists (Job (fun _ => [1]) (fun _ => 1) 25 true None), [[7]], 20. split; [reflexivity|]. split; [reflexivity|]. split; [vm_compute; lia|].
  intros l s H. split.
  - pose proof (nothing_steps (Job (fun _ => [1]) (fun _ => 1) 25 true None) 20 l eq_refl ltac:(cbn; lia) _ _ (nothing_start 20 [[7]]) H) as N. apply N.
  - destruct l as [|t [|t' l]]; [cbn; lia|cbn; lia|]. exfalso. cbn [steps] in H.
    destruct t as [[|d]| |]; [|destruct d; discriminate H|discriminate H|discriminate H]. cbn [step start s_dl map nth_error] in H.
    destruct t' as [[|d]| |]; [discriminate H|destruct d; discriminate H|discriminate H|discriminate H].
Qed.
Print Assumptions C194_small_disk_refuted.

(** C194 is false if the inputs are kept: the job waits for ever although all of them fit on the disk. *)
Theorem C194_kept_refuted : exists j m queues free l s, j_root j = None /\ inputs_up_to m j queues /\ length queues * m + all_output j queues <= j_threshold j /\
  j_threshold j + all_output j queues < free /\ sum (map (fun i => sum (j_sizes j i)) (concat queues)) < free /\
  steps j (start free queues) l = Some s /\ stuck j s /\ s_worked s = [0; 1] /\ concat queues = [0; 1; 2].
Proof.
  exists (Job (fun _ => [10]) (fun _ => 0) 25 false None), 10, [[0; 1; 2]], 40. exists (repeat (Down 0) 9 ++ [Work; Work]). eexists.
  split; [reflexivity|]. split; [intros i _; cbn; lia|]. split; [vm_compute; lia|]. split; [vm_compute; lia|]. split; [vm_compute; lia|].
  split; [vm_compute; reflexivity|]. split; [intros [[|[|d]]| |]; reflexivity|]. split; reflexivity.
Qed.
Print Assumptions C194_kept_refuted.

(** C194 is false if the cache is on another disk than [/]: the check looks at the wrong one, ... *)
Theorem C194_other_disk_refuted : exists j m root queues free l s, j_root j = Some root /\ inputs_up_to m j queues /\ length queues * m + all_output j queues <= j_threshold j /\
  steps j (start free queues) l = Some s /\ s_full s = true.
Proof.
  exists (Job (fun _ => [10]) (fun _ => 0) 25 true (Some 1000)), 10, 1000, [[0; 1]], 15. exists (repeat (Down 0) 7). eexists.
  split; [reflexivity|]. split; [intros i _; cbn; lia|]. split; [vm_compute; lia|]. split; vm_compute; reflexivity.
Qed.
Print Assumptions C194_other_disk_refuted.
(** ... or if the downloaders together need more than the threshold: all of them look before one of them copies; ... *)
Theorem C194_together_refuted : exists j m queues free l s, j_root j = None /\ inputs_up_to m j queues /\ m <= j_threshold j /\ all_output j queues = 0 /\
  steps j (start free queues) l = Some s /\ s_full s = true.
Proof.
  exists (Job (fun _ => [10]) (fun _ => 0) 25 true None), 10, [[0]; [1]; [2]], 26. exists [Down 0; Down 1; Down 2; Down 0; Down 1; Down 2; Down 0; Down 1; Down 2]. eexists.
  split; [reflexivity|]. split; [intros i _; cbn; lia|]. split; [cbn; lia|]. split; [reflexivity|]. split; vm_compute; reflexivity.
Qed.
Print Assumptions C194_together_refuted.
(** ... or by what the job itself writes, which is never checked. *)
Theorem C194_output_refuted : exists j m queues free l s, j_root j = None /\ inputs_up_to m j queues /\ length queues * m <= j_threshold j /\
  steps j (start free queues) l = Some s /\ s_full s = true.
Proof.
  exists (Job (fun _ => [1]) (fun _ => 30) 25 true None), 1, [[0]], 30. exists [Down 0; Down 0; Down 0; Down 0; Work]. eexists.
  split; [reflexivity|]. split; [intros i _; cbn; lia|]. split; [cbn; lia|]. split; vm_compute; reflexivity.
Qed.
Print Assumptions C194_output_refuted.
