(** Properties of loaders of combined datasets that are used again and again. *)
From Verif Require Import Base Iter_Model Iter_Spec Dict Combined_Model Combined_Spec Passes_Model.
From Verif Require Import Mixed_Model Mixed_Spec Mixed_Proofs Mixed_Proofs2 Mixed_Proofs3 Mixed_Proofs4.
From Coq Require Import QArith.
Local Open Scope nat_scope.

(** Two datasets with 3 and 4 samples (the epoch is part of the sample), chosen in turn. *)
Definition ex_rng (n : nat) (l : list nat) (ws : list Q) : nat := nth (n mod length l) l 0.
Definition ex_half := [(1#2)%Q; (1#2)%Q].
Definition ex_data (k e b w : nat) : list nat := map (fun i => 100 * e + 10 * (k + 1) + i) (seq 0 (3 + k)).
Definition ex_mix (all inproc : bool) : mcfg nat := MCfg ex_rng all Stratified ex_half 2 ex_data 7 1 1 inproc false.
Definition ex_src (x : nat) : nat := (x mod 100) / 10 - 1.
Lemma ex_ok all inproc : mcfg_ok (ex_mix all inproc).
Proof.
  unfold mcfg_ok, ex_mix. cbn [g_rng g_members g_ws g_nw g_B g_inproc length]. split.
  - intros n l ws H. unfold ex_rng. apply nth_In. apply Nat.mod_upper_bound. destruct l; [congruence|discriminate].
  - repeat (split; [solve [lia|reflexivity|repeat constructor]|]). reflexivity.
Qed.
Lemma ex_source all inproc : source (ex_mix all inproc) ex_src.
Proof.
  intros k e b w x Hk Hx. cbn [ex_mix g_members g_data] in *. unfold ex_data in Hx. apply in_map_iff in Hx. destruct Hx as (i & <- & Hi). apply in_seq in Hi.
  unfold ex_src. rewrite (Nat.mul_comm 100 e), <- Nat.add_assoc, Nat.add_comm, Nat.mod_add by lia.
  rewrite Nat.mod_small by lia. rewrite (Nat.mul_comm 10), Nat.add_comm, Nat.div_add by lia. rewrite (Nat.div_small i 10) by lia. lia.
Qed.

(** C138: after any loops, saves and loads (of states with as many datasets), a complete loop with
    [iterate_over_all] that is not itself the resumption of a loaded state - because no state was
    loaded, or because a complete loop came before - delivers each sample of each dataset exactly once. *)
Theorem C138_complete_loops_partial {A} (g : mcfg A) (whole : nat -> list A) ops st :
  mcfg_ok g -> g_all g = true -> splits g whole ->
  Forall (op_ok (g_members g)) ops -> m_ops g ops (m_init g) = Ok st ->
  Forall (fun o => ~ is_load o) ops \/ (exists before, ops = before ++ [Loop Whole]) ->
  exists out st', m_visit g Whole st = Ok (out, st') /\ Permutation (got out) (flat_map whole (seq 0 (g_members g))).
Proof.
  intros Hg Ha Hs Fo E Hl. assert (W : wf g st) by (apply (wf_ops g Hg ops (m_init g) st (wf_init g) Fo E)).
  apply (complete_mix g Hg st whole W); [|exact Ha|exact Hs]. destruct Hl as [Hl|(before & ->)].
  - exact (ops_no_load g Hg ops (m_init g) st Hl E eq_refl (wf_init g)).
  - rewrite ops_app in E. destruct (m_ops g before (m_init g)) as [s|]; [|discriminate]. cbn [bind m_ops m_op] in E.
    destruct (m_visit g Whole s) as [[out s']|] eqn:Ev; [|discriminate]. cbn [bind snd] in E. injection E as <-.
    exact (visit_restore g Whole s out s' Ev).
Qed.
Print Assumptions C138_complete_loops_partial.

(** A loop is stopped, its state saved and loaded, the resumed loop completed; then the loop over the
    next epoch is complete. *)
Example C138_case : exists o st,
  Forall (op_ok 2) [Loop (Part 2); Save; Load o; Loop Whole] /\
  bind (m_visit (ex_mix true false) (Part 2) (m_init (ex_mix true false))) (fun r => bind (m_save (ex_mix true false) (snd r)) (fun s => Ok (fst s))) = Ok o /\
  m_ops (ex_mix true false) [Loop (Part 2); Save; Load o; Loop Whole] (m_init (ex_mix true false)) = Ok st /\
  bind (m_visit (ex_mix true false) Whole st) (fun r => Ok (got (fst r))) = Ok [220; 210; 221; 211; 222; 212; 223].
Proof.
  eexists (MO _ _ _ _), _. split; [|split; [vm_compute; reflexivity|split; [vm_compute; reflexivity|vm_compute; reflexivity]]].
  repeat constructor.
Qed.

(** C139: a loop over datasets with one worker, stopped as often as one likes - a new loader loads the
    last saved state each time - delivers the same batches as a loop that is never stopped; as long as
    no dataset is exhausted when the last state is saved. *)
Theorem C139_stop_and_go_partial {A} (g g' : mcfg A) ops st full_out stf part stp o sto m ms :
  mcfg_ok g -> same_mix g g' -> g_nw g = 1 -> g_method g = Stratified -> (g_all g = true -> 2 <= g_members g) ->
  (g_all g = true -> forall k e, g_data g k e 1 0 = g_data g k e (g_B g) 0) ->
  (forall k e e', length (g_data g k e (g_B g) 0) = length (g_data g k e' (g_B g) 0)) ->
  Forall (fun o => ~ is_load o) ops -> m_ops g ops (m_init g) = Ok st ->
  m_visit g Whole st = Ok (full_out, stf) ->
  m_visit g (Part (m + sum ms)) st = Ok (part, stp) -> m_save g stp = Ok (o, sto) ->
  (forall k s, nth_error (o_members o) k = Some s -> sd_samples s < length (g_data g k (o_epoch o) (g_B g) 0)) ->
  1 <= m -> Forall (fun n => 1 <= n) ms -> (g_all g = true -> (m + sum ms) * g_B g < g_len g) ->
  exists first st1 o1 st2 rest, m_visit g (Part m) st = Ok (first, st1) /\ m_save g st1 = Ok (o1, st2) /\
    mrelay g' ms o1 = Ok rest /\ first ++ rest = full_out.
Proof.
  intros Hg Sm Hnw Hst H2 Hbs Hlen Fo E. apply (stop_and_go g g' st full_out stf part stp o sto m ms Hg Sm Hnw Hst H2 Hbs Hlen).
  exact (unloaded_ops g Hg ops (m_init g) st (unloaded_init g) Fo E).
Qed.
Print Assumptions C139_stop_and_go_partial.

Example C139_case :
  exists st first st1 o1 st2,
  m_ops (ex_mix true false) [Loop Whole] (m_init (ex_mix true false)) = Ok st /\
  m_visit (ex_mix true false) (Part 2) st = Ok (first, st1) /\ m_save (ex_mix true false) st1 = Ok (o1, st2) /\
  got first = [210; 220] /\ bind (mrelay (ex_mix true true) [1; 1] o1) (fun r => Ok (got r)) = Ok [211; 221; 212; 222; 223] /\
  bind (m_visit (ex_mix true false) Whole st) (fun r => Ok (got (fst r))) = Ok [210; 220; 211; 221; 212; 222; 223].
Proof. eexists _, _, _, _, _. repeat (apply conj; [vm_compute; reflexivity|]). vm_compute; reflexivity. Qed.

(** C139 is false when a dataset is exhausted: the resumed loop raises IndexError.  That is so with
    [iterate_over_all], although samples of the other datasets are left, ... *)
Theorem C139_stop_and_go_refuted :
  exists (g : mcfg nat) out st1 o st2 st3, mcfg_ok g /\ g_all g = true /\
    m_visit g (Part 6) (m_init g) = Ok (out, st1) /\ length (got out) = 6 /\ g_len g = 7 /\
    m_save g st1 = Ok (o, st2) /\ m_load g o (m_init g) = Ok st3 /\ m_visit g Whole st3 = Err IndexError.
Proof.
  exists (ex_mix true false). eexists _, _, (MO _ _ _ _), _, _. split; [apply ex_ok|]. split; [reflexivity|].
  repeat (apply conj; [vm_compute; reflexivity|]). vm_compute; reflexivity.
Qed.
Print Assumptions C139_stop_and_go_refuted.

(** ... and without it, for a state saved at the end of an epoch. *)
Theorem C139_end_of_epoch_refuted :
  exists (g : mcfg nat) out st1 o st2 st3, mcfg_ok g /\ g_all g = false /\
    m_visit g Whole (m_init g) = Ok (out, st1) /\ m_save g st1 = Ok (o, st2) /\ m_load g o (m_init g) = Ok st3 /\
    (exists next st4, m_visit g Whole st1 = Ok (next, st4) /\ length (got next) = 6) /\ m_visit g Whole st3 = Err IndexError.
Proof.
  exists (ex_mix false false). eexists _, _, (MO _ _ _ _), _, _. split; [apply ex_ok|]. split; [reflexivity|].
  repeat (apply conj; [vm_compute; reflexivity|]). split; [|vm_compute; reflexivity]. eexists _, _. split; vm_compute; reflexivity.
Qed.
Print Assumptions C139_end_of_epoch_refuted.

(** C140: a state saved after a loop that was not resumed, by a loader that never loaded a state and
    whose workers deliver their batches in turn, contains for every dataset the number of its samples
    that were delivered in this loop, and for every worker the numbers of those that it delivered; also
    the number of the epoch (one for each loop), the worker of the last batch and the loader's numbers
    of workers and samples in a batch. *)
Theorem C140_saved_counts_partial {A} (g : mcfg A) (src : A -> nat) ops st v out st' :
  mcfg_ok g -> source g src -> Forall (fun o => ~ is_load o) ops -> m_ops g ops (m_init g) = Ok st ->
  m_visit g v st = Ok (out, st') -> (forall j wb, nth_error out j = Some wb -> fst wb = j mod g_nw g) ->
  exists o st2, m_save g st' = Ok (o, st2) /\ o_epoch o = S (loops ops) /\ o_latest o = (length out - 1) mod g_nw g /\
    (forall k, k < g_members g -> exists s : sdict, nth_error (o_members o) k = Some s /\ sd_samples s = of_member src k (got out) /\
       sd_workers s = g_nw g /\ sd_batch s = g_B g /\ (g_inproc g = false -> sd_epoch s = o_epoch o)) /\
    (forall w c, dget w (o_counts o) = Some c -> forall k, k < g_members g -> nth_error c k = Some (of_member src k (concat (from_worker w out)))).
Proof.
  intros Hg Hs Fo E Ev Ht. pose proof (ops_epoch g ops (m_init g) st Fo E eq_refl) as Ep. cbn [m_init m_epoch Nat.add] in Ep.
  replace (S (loops ops)) with (m_epoch st + 1) by (rewrite Ep; apply Nat.add_1_r).
  apply (visit_counts g Hg src v st out st' Hs); [|exact Ev|exact Ht].
  exact (unloaded_ops g Hg ops (m_init g) st (unloaded_init g) Fo E).
Qed.
Print Assumptions C140_saved_counts_partial.

(** Without workers the epoch of a dataset that came to its end is one ahead of the loader's in the state. *)
Theorem C140_epoch_refuted :
  exists (g : mcfg nat) out st1 o st2 s, mcfg_ok g /\ g_inproc g = true /\
    m_visit g Whole (m_init g) = Ok (out, st1) /\ m_save g st1 = Ok (o, st2) /\ In s (o_members o) /\ sd_epoch s <> o_epoch o.
Proof.
  exists (ex_mix true true). eexists _, _, (MO _ _ _ _), _, _. split; [apply ex_ok|]. split; [reflexivity|].
  split; [vm_compute; reflexivity|]. split; [vm_compute; reflexivity|]. split; [left; reflexivity|]. vm_compute. discriminate.
Qed.
Print Assumptions C140_epoch_refuted.

Example C140_case :
  exists st out st1 o st2, m_ops (ex_mix true false) [Loop (Part 4); Save] (m_init (ex_mix true false)) = Ok st /\
    m_visit (ex_mix true false) (Part 5) st = Ok (out, st1) /\ m_save (ex_mix true false) st1 = Ok (o, st2) /\
    map ex_src (got out) = [0; 1; 0; 1; 0] /\ map sd_samples (o_members o) = [3; 2].
Proof. eexists _, _, _, _, _. repeat (apply conj; [vm_compute; reflexivity|]). vm_compute; reflexivity. Qed.

(** C140 is false after a state was loaded: the counts of that state are kept for later epochs.  One
    sample of each dataset was delivered in the last loop. *)
Theorem C140_saved_counts_refuted :
  exists (g : mcfg nat) o0 st0 out st1 o st2, mcfg_ok g /\ source g ex_src /\
    bind (m_visit g (Part 2) (m_init g)) (fun r => bind (m_save g (snd r)) (fun s => Ok (fst s))) = Ok o0 /\
    m_ops g [Load o0; Loop Whole] (m_init g) = Ok st0 /\
    m_visit g (Part 2) st0 = Ok (out, st1) /\ m_save g st1 = Ok (o, st2) /\
    map ex_src (got out) = [1; 0] /\ map sd_samples (o_members o) = [4; 5].
Proof.
  exists (ex_mix true false). eexists (MO _ _ _ _), _, _, _, (MO _ _ _ _), _. split; [apply ex_ok|]. split; [apply ex_source|].
  repeat (apply conj; [vm_compute; reflexivity|]). vm_compute; reflexivity.
Qed.
Print Assumptions C140_saved_counts_refuted.

(** C141: with workers, and for a state of a loop that was complete, the state that was loaded is not
    changed by the loops that follow. *)
Theorem C141_loaded_state_partial {A} (g : mcfg A) o st0 st ops st' :
  g_inproc g = false -> g_all g = true -> m_restore st0 = false -> g_len g <= sum (map (fun wc => sum (snd wc)) (o_counts o)) ->
  m_load g o st0 = Ok st -> Forall (fun o => ~ is_load o) ops -> m_ops g ops st = Ok st' ->
  m_given st' = Some (o_counts o).
Proof.
  intros Hi Ha R Hl E Fo Eo. unfold m_load in E. cbv zeta in E. destruct (negb _ && _); [discriminate|]. injection E as <-.
  rewrite (given_kept g Hi ops _ st' Fo) with (2 := Eo); [reflexivity|]. cbn [m_restore]. rewrite Ha.
  replace (sum (map (fun wc => sum (snd wc)) (o_counts o)) <? g_len g) with false by (symmetry; apply Nat.ltb_ge; exact Hl).
  rewrite Bool.andb_false_r. exact R.
Qed.
Print Assumptions C141_loaded_state_partial.

Example C141_case : exists st1 o st2 st st',
  m_ops (ex_mix true false) [Loop Whole] (m_init (ex_mix true false)) = Ok st1 /\ m_save (ex_mix true false) st1 = Ok (o, st2) /\
  m_load (ex_mix true false) o (m_init (ex_mix true false)) = Ok st /\ m_ops (ex_mix true false) [Loop (Part 2); Save; Loop Whole] st = Ok st' /\
  o_counts o = [(0, [3; 4])] /\ m_given st' = Some [(0, [3; 4])].
Proof. eexists _, (MO _ _ _ _), _, _, _. repeat (apply conj; [vm_compute; reflexivity|]). vm_compute; reflexivity. Qed.

(** C141 is false for a loop that was stopped: the loader goes on counting in the dict of the state
    that was loaded. *)
Theorem C141_loaded_state_refuted :
  exists (g : mcfg nat) o st out st', mcfg_ok g /\ g_inproc g = false /\
    bind (m_visit g (Part 2) (m_init g)) (fun r => bind (m_save g (snd r)) (fun s => Ok (fst s))) = Ok o /\
    m_load g o (m_init g) = Ok st /\ m_visit g (Part 3) st = Ok (out, st') /\
    o_counts o = [(0, [1; 1])] /\ m_given st' = Some [(0, [3; 2])].
Proof.
  exists (ex_mix true false). eexists (MO _ _ _ _), _, _, _. split; [apply ex_ok|]. split; [reflexivity|].
  repeat (apply conj; [vm_compute; reflexivity|]). vm_compute; reflexivity.
Qed.
Print Assumptions C141_loaded_state_refuted.

(** C142: without [force_override_state_dict] a state of another number of datasets is refused; with
    it, only a state of more datasets is refused. *)
Theorem C142_other_datasets_partial {A} (g : mcfg A) o st :
  (g_force g = false -> length (o_members o) <> g_members g -> m_load g o st = Err RuntimeError) /\
  (g_members g < length (o_members o) -> m_load g o st = Err RuntimeError) /\
  (g_force g = true -> length (o_members o) <= g_members g -> exists st', m_load g o st = Ok st').
Proof.
  unfold m_load. cbv zeta. split; [|split].
  - intros -> H. apply Nat.eqb_neq in H. rewrite H. reflexivity.
  - intros H. replace (length (o_members o) =? g_members g) with false by (symmetry; apply Nat.eqb_neq; lia).
    replace (g_members g <? length (o_members o)) with true by (symmetry; apply Nat.ltb_lt; exact H). rewrite Bool.orb_true_r. reflexivity.
  - intros -> H. replace (g_members g <? length (o_members o)) with false by (symmetry; apply Nat.ltb_ge; exact H).
    rewrite Bool.andb_false_r. eauto.
Qed.
Print Assumptions C142_other_datasets_partial.

Example C142_case : m_load (MCfg ex_rng true Stratified ex_half 2 ex_data 7 1 1 false false) (MO 1 0 [(0, [1])] [SD 1 1 1 1]) (m_init (ex_mix true false)) = Err RuntimeError
  /\ m_load (MCfg ex_rng true Stratified ex_half 2 ex_data 7 1 1 false true) (MO 1 0 [(0, [1; 1; 0])] [SD 1 1 1 1; SD 1 1 1 1; SD 0 1 1 1]) (m_init (ex_mix true false)) = Err RuntimeError.
Proof. split; vm_compute; reflexivity. Qed.

(** C142 is false of what comes after: the loop raises IndexError as soon as a dataset is chosen that
    the saved state does not have. *)
Theorem C142_other_datasets_refuted :
  exists (g g' : mcfg nat) out st1 o st2 st3, mcfg_ok g /\ mcfg_ok g' /\ g_force g' = true /\ g_members g = 2 /\ g_members g' = 3 /\
    m_visit g (Part 2) (m_init g) = Ok (out, st1) /\ m_save g st1 = Ok (o, st2) /\
    m_load g' o (m_init g') = Ok st3 /\ m_visit g' Whole st3 = Err IndexError.
Proof.
  exists (ex_mix true false), (MCfg ex_rng true Stratified [(1#3)%Q; (1#3)%Q; (1#3)%Q] 3 ex_data 12 1 1 false true).
  eexists _, _, (MO _ _ _ _), _, _. split; [apply ex_ok|]. split.
  { unfold mcfg_ok. cbn [g_rng g_members g_ws g_nw g_B g_inproc length]. split; [apply (proj1 (ex_ok true false))|].
    repeat (split; [solve [lia|reflexivity|repeat constructor]|]). reflexivity. }
  repeat (apply conj; [vm_compute; reflexivity|]). vm_compute; reflexivity.
Qed.
Print Assumptions C142_other_datasets_refuted.

(** C143: with the per-stream batching method and without [iterate_over_all], every batch of every loop
    - also of one that resumes a loaded state - has the samples of one dataset only. *)
Theorem C143_stream_batches_partial {A} (g : mcfg A) (src : A -> nat) ops st v out st' :
  mcfg_ok g -> source g src -> g_all g = false -> g_method g = PerStream ->
  Forall (op_ok (g_members g)) ops -> m_ops g ops (m_init g) = Ok st -> m_visit g v st = Ok (out, st') ->
  forall w batch, In (w, batch) out -> exists k, forall x, In x batch -> src x = k.
Proof.
  intros Hg Hs Ha Hp Fo E Ev w batch Hin. pose proof (wf_ops g Hg ops (m_init g) st (wf_init g) Fo E) as W.
  destruct (stream_batches g Hg src Ha Hp v st out st' W (ops_bs g Ha ops (m_init g) st E eq_refl) Hs Ev (w, batch) Hin) as (k & F).
  exists k. intros x Hx. rewrite Forall_forall in F. exact (F x Hx).
Qed.
Print Assumptions C143_stream_batches_partial.

Example C143_case :
  let g := MCfg ex_rng false PerStream ex_half 2 (fun k e b w => map (fun i => 100 * e + 10 * (k + 1) + i) (seq 0 (5 + k))) 11 1 2 false false in
  exists st1 o st2 st st', m_ops g [Loop (Part 1)] (m_init g) = Ok st1 /\ m_save g st1 = Ok (o, st2) /\
    m_ops g [Load o] (m_init g) = Ok st /\ m_visit g Whole st = Ok ([(0, [112; 113]); (0, [120; 121]); (0, [114])], st').
Proof. cbv zeta. eexists _, (MO _ _ _ _), _, _, _. repeat (apply conj; [vm_compute; reflexivity|]). vm_compute; reflexivity. Qed.

(** C143 is false with [iterate_over_all] for a resumed loop, even if no dataset is exhausted: loading
    the state asks for the length of the combined dataset, which sets its batch size to 1. *)
Theorem C143_stream_batches_refuted :
  exists (g : mcfg nat) st1 o st2 st out st', mcfg_ok g /\ source g ex_src /\ g_all g = true /\ g_method g = PerStream /\ g_B g = 2 /\
    m_ops g [Loop (Part 1)] (m_init g) = Ok st1 /\ m_save g st1 = Ok (o, st2) /\
    m_ops g [Load o] (m_init g) = Ok st /\ m_visit g (Part 1) st = Ok (out, st') /\ map (fun wb => map ex_src (snd wb)) out = [[0; 1]].
Proof.
  exists (MCfg ex_rng true PerStream ex_half 2 ex_data 7 1 2 false false). eexists _, (MO _ _ _ _), _, _, _, _. split.
  { destruct (ex_ok true false) as (K1 & K2 & K3 & K4 & K5 & _ & K7). exact (conj K1 (conj K2 (conj K3 (conj K4 (conj K5 (conj (le_S _ _ (le_n 1)) K7)))))). }
  split; [exact (ex_source true false)|]. repeat (apply conj; [vm_compute; reflexivity|]). vm_compute; reflexivity.
Qed.
Print Assumptions C143_stream_batches_refuted.

(** C144: an epoch after a resumed one has the same samples as in a run that was never stopped, ... *)
Theorem C144_later_epochs_partial {A} (g : mcfg A) (whole : nat -> list A) ops before1 before2 st1 st2 :
  mcfg_ok g -> g_all g = true -> splits g whole ->
  Forall (fun o => ~ is_load o) before1 -> m_ops g before1 (m_init g) = Ok st1 ->
  before2 = ops ++ [Loop Whole] -> Forall (op_ok (g_members g)) before2 -> m_ops g before2 (m_init g) = Ok st2 ->
  exists out1 out2 st1' st2', m_visit g Whole st1 = Ok (out1, st1') /\ m_visit g Whole st2 = Ok (out2, st2') /\ Permutation (got out1) (got out2).
Proof.
  intros Hg Ha Hs F1 E1 -> F2 E2.
  destruct (C138_complete_loops_partial g whole before1 st1 Hg Ha Hs) as (out1 & st1' & V1 & P1);
    [|exact E1|left; exact F1|]. { eapply Forall_impl; [|exact F1]. intros [v| |o] H; cbn; auto. cbn in H. tauto. }
  destruct (C138_complete_loops_partial g whole _ st2 Hg Ha Hs F2 E2) as (out2 & st2' & V2 & P2); [right; eauto|].
  exists out1, out2, st1', st2'. split; [exact V1|]. split; [exact V2|]. rewrite P1, P2. reflexivity.
Qed.
Print Assumptions C144_later_epochs_partial.

(** ... but not the same batches: the counts of the loaded state are still used to advance the random
    generator.  Epoch 2 of the run that was stopped in epoch 1 and of the run that was not (this is also
    a case for the theorem above): *)
Theorem C144_later_epochs_refuted :
  exists (g : mcfg nat) o st1 st2, mcfg_ok g /\ g_all g = true /\
    bind (m_visit g (Part 2) (m_init g)) (fun r => bind (m_save g (snd r)) (fun s => Ok (fst s))) = Ok o /\
    m_ops g [Loop Whole] (m_init g) = Ok st1 /\ m_ops g [Load o; Loop Whole] (m_init g) = Ok st2 /\
    bind (m_visit g Whole st1) (fun r => Ok (got (fst r))) = Ok [210; 220; 211; 221; 212; 222; 223] /\
    bind (m_visit g Whole st2) (fun r => Ok (got (fst r))) = Ok [220; 210; 221; 211; 222; 212; 223].
Proof.
  exists (ex_mix true false). eexists (MO _ _ _ _), _, _. split; [apply ex_ok|]. split; [reflexivity|].
  repeat (apply conj; [vm_compute; reflexivity|]). vm_compute; reflexivity.
Qed.
Print Assumptions C144_later_epochs_refuted.
