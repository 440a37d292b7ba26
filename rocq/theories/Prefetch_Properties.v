(** Prefetching: the properties. *)
From Verif Require Import Base Prefetch_Model Prefetch_Spec Prefetch_Proofs Prefetch_Proofs2.

(** C35: in every interleaving the chunks downloaded through the queue are those requested, in that
    order, and at most [max_pre_download] more than the reader has given back. *)
Theorem C35_in_order_and_bounded cfg acts : let s := prun cfg p_init acts in
  (exists rest, p_req s = map Some (p_done s) ++ rest) /\ length (p_done s) <= length (p_back s) + c_pre cfg.
Proof.
  cbv zeta. pose proof (book_run cfg acts _ (book_init cfg)) as HB. split.
  - destruct (b_req _ _ HB) as (mid & _ & E). eexists. exact E.
  - pose proof (b_pre _ _ HB) as P. pose proof (b_back _ _ HB) as E. rewrite <- E, app_length. lia.
Qed.
Print Assumptions C35_in_order_and_bounded.

Definition ex_cfg : pcfg := {| c_max := 3; c_pre := 2; c_when_processed := false; c_size := fun c => 1 + c mod 2 |}.
Definition ex_acts : list pact :=
  [Request [4; 7; 2; 5]; Thread; Thread; Thread; Thread; Thread; Thread; Thread; Thread; GiveBack 4; Thread; Thread; Thread; Thread].
Example C35_case : let s := prun ex_cfg p_init ex_acts in
  p_done s = [4; 7; 2] /\ p_back s = [4] /\ p_tried s = [4] /\ p_present s = [7; 2].
Proof. vm_compute. auto. Qed.

(** C36: with a cache limit, as long as the reader has not ended and no forced download is pending,
    the next requested chunk is downloaded after a bounded number of steps of the thread whenever
    downloads (forced ones counted too) exceed the chunks given back by less than [max_pre_download]. *)
Theorem C36_next_chunk_arrives_partial cfg acts c rest : let s := prun cfg p_init acts in
  c_max cfg <> 0 -> ~ In None (p_req s) -> p_force s = [] -> p_dl s = Some c :: rest ->
  length (p_done s) + length (p_forced s) < length (p_back s) + c_pre cfg ->
  exists n, n <= 3 * (length (p_del s) + 1) /\ p_done (threads cfg s n) = p_done s ++ [c].
Proof.
  cbv zeta. intros HM Hn Hf Hd Hlt. pose proof (book_run cfg acts _ (book_init cfg)) as HB.
  apply (progress cfg HM _ _ c rest eq_refl Hd Hf).
  - destruct (b_ctr _ _ HB) as [C|[C _]]; [|congruence]. pose proof (b_back _ _ HB) as E.
    apply (f_equal (@length nat)) in E. rewrite app_length in E. rewrite C. lia.
  - apply running. exact Hn.
Qed.
Print Assumptions C36_next_chunk_arrives_partial.

Example C36_case : let s := prun ex_cfg p_init ex_acts in
  p_dl s = [Some 5] /\ p_done (threads ex_cfg (pstep ex_cfg s (GiveBack 7)) 6) = [4; 7; 2; 5].
Proof. vm_compute. auto. Qed.

(** Without a cache limit ([max_cache_size=0]) chunks given back are not counted, so no
    more than [max_pre_download] chunks are ever downloaded through the queue. *)
Theorem C36_no_cache_limit cfg acts : c_max cfg = 0 -> length (p_done (prun cfg p_init acts)) <= c_pre cfg.
Proof.
  intros HM. assert (G : let s := prun cfg p_init acts in (Z.of_nat (length (p_done s)) <= p_ctr s)%Z /\ length (p_done s) <= c_pre cfg); [|apply G].
  assert (H : (Z.of_nat (length (p_done p_init)) <= p_ctr p_init)%Z /\ length (p_done p_init) <= c_pre cfg) by (cbn; lia).
  revert H. generalize p_init. induction acts as [|a acts IH]; intros s [H1 H2]; [auto|]. cbn [prun fold_left]. apply IH.
  destruct a; cbn [pstep rstep p_done p_ctr]; auto. unfold tstep. rewrite HM. cbn [Nat.eqb].
  destruct (p_loc s); try (cbn; auto; fail).
  - destruct (p_force s); cbn; split; lia.
  - destruct (Z.ltb_spec (p_ctr s) (Z.of_nat (c_pre cfg))); [|cbn; auto]. destruct (p_dl s) as [|[c|] r]; cbn; auto.
    rewrite app_length. cbn [length]. split; lia.
Qed.
Print Assumptions C36_no_cache_limit.

Definition unlimited : pcfg := {| c_max := 0; c_pre := 2; c_when_processed := false; c_size := fun _ => 1 |}.

(** C36 is false without a cache limit: the reader has read and given back everything downloaded, and
    yet the third requested chunk never arrives. *)
Theorem C36_no_cache_limit_refuted : exists acts, let s := prun unlimited p_init acts in
  well_behaved unlimited p_init acts /\ p_req s = map Some [0; 1; 2] /\ p_back s = p_done s /\ forall n, ~ In 2 (p_done (threads unlimited s n)).
Proof.
  exists [Request [0; 1; 2]; Thread; Thread; Thread; Thread; Thread; GiveBack 0; GiveBack 1]. cbv zeta.
  set (acts := [Request _; _; _; _; _; _; _; _]). split; [|split; [reflexivity|split; [reflexivity|]]].
  - cbn. repeat split; auto; try tauto; try (intros [H|H]; congruence). repeat constructor; cbn; intuition congruence.
  - intros n. destruct (stalled unlimited n (prun unlimited p_init acts)) as [E _].
    + vm_compute. discriminate.
    + reflexivity.
    + right. reflexivity.
    + vm_compute. auto.
    + rewrite E. vm_compute. intuition congruence.
Qed.
Print Assumptions C36_no_cache_limit_refuted.

(** C36 is false after one forced download, with the default of two chunks in advance: the forced chunk
    is counted twice and given back once.  However many more chunks the reader forces, reads and gives
    back, the thread downloads none of the requested ones any more. *)
Theorem C36_after_forced_download_refuted : exists trace : nat -> nat -> list pact, forall m n,
  let s := prun drift_cfg p_init (trace m n) in p_dl s = map Some (seq 1 m) /\ p_back s = seq 0 n /\ p_force s = [] /\
  forall j, p_done (threads drift_cfg s j) = [0] /\ ~ In (S n) (p_present (threads drift_cfg s j)).
Proof.
  exists drift_trace. intros m n. cbv zeta. split; [|split; [|split]].
  - apply drift_facts.
  - apply (drift_stalls m n 0).
  - apply drift_facts.
  - intros j. destruct (drift_stalls m n j) as (A & _ & B). split; assumption.
Qed.
Print Assumptions C36_after_forced_download_refuted.

Example C36_after_forced_download_case : let s := prun drift_cfg p_init (drift_trace 5 2) in
  p_req s = map Some [0; 1; 2; 3; 4; 5] /\ p_dl s = map Some [1; 2; 3; 4; 5] /\ p_forced s = [0; 1; 2] /\ p_ctr s = 2%Z.
Proof. vm_compute. auto. Qed.

(** C71: in every interleaving, deletion is attempted on the chunks the reader gave back, oldest first,
    each as often as it was given back; a downloaded chunk that was never given back is not deleted. *)
Theorem C71_only_consumed_chunks_deleted cfg acts : let s := prun cfg p_init acts in
  (exists rest, p_back s = p_tried s ++ rest) /\
  (forall c, In c (p_done s) \/ In c (p_forced s) -> ~ In c (p_back s) -> In c (p_present s)).
Proof.
  cbv zeta. pose proof (book_run cfg acts _ (book_init cfg)) as HB. split; [|exact (b_held _ _ HB)].
  pose proof (b_back _ _ HB) as E. rewrite <- E, <- app_assoc. eexists. reflexivity.
Qed.
Print Assumptions C71_only_consumed_chunks_deleted.

Example C71_case : let s := prun ex_cfg p_init (ex_acts ++ [GiveBack 7]) in
  p_back s = [4; 7] /\ p_tried s = [4] /\ p_done s = [4; 7; 2] /\ p_present s = [7; 2].
Proof. vm_compute. repeat split. Qed.

(** C72: a well-behaved reader, alone with an initially empty cache folder: when deletion depends on
    the folder size, the folder never holds more than [max_cache_size] plus [max_pre_download]
    chunks; when chunks are deleted as soon as processed (the dataset is larger than the cache) it
    holds at most [max_pre_download] chunks, if that is at most two (the default). *)
Theorem C72_cache_size_bound_partial cfg smax acts : c_max cfg <> 0 -> (forall c, c_size cfg c <= smax) -> well_behaved cfg p_init acts ->
  let size := folder_size cfg (p_present (prun cfg p_init acts)) in
  (c_when_processed cfg = false -> size <= c_max cfg + c_pre cfg * smax) /\
  (c_when_processed cfg = true -> c_pre cfg <= 2 -> size <= c_pre cfg * smax).
Proof. intros HM Hs Hw. exact (folder_bound cfg smax Hs HM acts Hw). Qed.
Print Assumptions C72_cache_size_bound_partial.

Example C72_case : well_behaved ex_cfg p_init ex_acts /\ folder_size ex_cfg (p_present (prun ex_cfg p_init ex_acts)) = 3.
Proof.
  split; [|reflexivity]. cbn. repeat split; auto; try (intros [H|H]; congruence); try tauto.
  repeat constructor; cbn; intuition congruence.
Qed.

(** C72 is false with deletion as soon as processed and four chunks in advance: if the reader is never
    behind, the counter stays below the threshold and nothing is ever deleted, whatever the limit. *)
Theorem C72_cache_grows_refuted : c_max fast_cfg = 1 /\ forall n, exists acts, well_behaved fast_cfg p_init acts /\
  folder_size fast_cfg (p_present (prun fast_cfg p_init acts)) = S n /\ p_back (prun fast_cfg p_init acts) = seq 0 n.
Proof. split; [reflexivity|]. intros n. exists (fast_trace n). apply fast_trace_grows. Qed.
Print Assumptions C72_cache_grows_refuted.
