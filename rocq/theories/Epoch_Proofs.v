From Verif Require Import Base Assign_Model Assign_Spec Assign_Proofs Shuffle_Proofs.
From Verif Require Import Iter_Model Iter_Spec Iter_Proofs Loader_Order_Model Resume_Proofs.

Lemma nth_error_skipn {A} (l : list A) k i : nth_error (skipn k l) i = nth_error l (k + i).
Proof.
  revert l; induction k as [|k IH]; intros l; [reflexivity|].
  destruct l as [|x l]; [destruct i; reflexivity|]. apply IH.
Qed.

(** [len(dataset)] is what the rank's workers yield. *)
Theorem len_is_yielded rng shuffle env seed dl nw B epoch ivs a :
  rng_ok rng -> 1 <= nw -> 1 <= B -> global_rank env < world_size env ->
  shuffle_assign rng shuffle env seed dl nw B epoch ivs = Ok a ->
  exists L runs, get_len rng shuffle env seed dl nw B epoch ivs = Ok L /\ length runs = nw /\
    (forall w reqs, nth_error runs w = Some reqs ->
       exists s0 s', iter_fresh env nw w epoch a = Ok s0 /\ Run (shuffle_call rng shuffle seed) s0 reqs s') /\
    L = sum (map (@length request) runs).
Proof.
  intros Hrng Hnw HB Hr Ha.
  assert (Haok : assignment_ok (world_size env * nw) a) by (eapply shuffle_assign_ok; eauto; lia).
  set (shuf := shuffle_call rng shuffle seed).
  assert (Hshuf : shuf_ok shuf) by (apply shuffle_call_ok; exact Hrng).
  assert (Hwl : length (workers a) = world_size env * nw) by (apply workers_length, Haok).
  set (r := global_rank env) in *.
  assert (Hrw : r * nw + nw <= length (workers a)) by (rewrite Hwl; nia).
  unfold get_len. rewrite Ha. cbn [bind]. fold r.
  destruct (list_choice (fun i reqs => exists s0 s' iv,
      iter_fresh env nw i epoch a = Ok s0 /\ Run shuf s0 reqs s' /\
      nth_error (snd a) (r * nw + i) = Some iv /\ length reqs = sum (map iv_size iv)) nw) as (runs & Hl & Hruns).
  { intros i Hi. destruct (nth_error (workers a) (r * nw + i)) as [w|] eqn:Ew; [|apply nth_error_None in Ew; lia].
    destruct (fresh_run shuf env nw i epoch a _ w Hshuf Haok Ew) as (s0 & reqs & s' & H1 & H2 & H3 & _).
    destruct (workers_nth _ _ _ Ew) as [_ E2].
    exists reqs, s0, s', (snd w). split; [exact H1|]. split; [exact H2|]. split; [exact E2|].
    rewrite <- (map_length req_sample), H3.
    destruct (assignment_ok_worker _ _ _ _ Haok Ew) as [Hlw _]. apply stream_length; auto. }
  eexists; exists runs. split; [reflexivity|]. split; [exact Hl|]. split.
  { intros w reqs E. destruct (Hruns w reqs E) as (s0 & s' & iv & H1 & H2 & _). eauto. }
  assert (E : map (@length request) runs = map (fun l => sum (map iv_size l)) (firstn nw (skipn (r * nw) (snd a)))).
  { apply nth_error_ext. intros i. rewrite !nth_error_map.
    destruct (nth_error runs i) as [reqs|] eqn:Er.
    - assert (Hi : i < nw) by (rewrite <- Hl; apply nth_error_Some; congruence).
      destruct (Hruns i reqs Er) as (_ & _ & iv & _ & _ & E1 & E2).
      rewrite firstn_skipn_nth, E1 by exact Hi. cbn [option_map]. f_equal; exact E2.
    - apply nth_error_None in Er.
      rewrite (proj2 (nth_error_None (firstn nw _) i)); [reflexivity|]. rewrite firstn_length. lia. }
  rewrite E. clear. induction (firstn nw (skipn (r * nw) (snd a))) as [|x l IH]; [reflexivity|].
  cbn [flat_map map sum]. rewrite sum_app, IH. reflexivity.
Qed.

Lemma full_shuffle_env rng W r1 r2 nodes seed dl nw B epoch ivs :
  full_shuffle_assign rng (Env W r1 nodes) seed dl nw B epoch ivs =
  full_shuffle_assign rng (Env W r2 nodes) seed dl nw B epoch ivs.
Proof. reflexivity. Qed.

(** All samples of an epoch over all ranks and workers. *)
Theorem runs_of_assignment shuf W nw epoch nodes a :
  shuf_ok shuf -> assignment_ok (W * nw) a -> 1 <= nw ->
  exists runs, length runs = W * nw /\
    (forall r i, r < W -> i < nw ->
       exists reqs s0 s', nth_error runs (r * nw + i) = Some reqs /\
         iter_fresh (Env W r nodes) nw i epoch a = Ok s0 /\ Run shuf s0 reqs s') /\
    Permutation (map req_sample (concat runs)) (flat_map worker_samples (workers a)).
Proof.
  intros Hshuf Haok Hnw. assert (Hwl : length (workers a) = W * nw) by (apply workers_length, Haok).
  destruct (list_choice (fun k reqs => exists s0 s' w,
      iter_fresh (Env W (k / nw) nodes) nw (k mod nw) epoch a = Ok s0 /\ Run shuf s0 reqs s' /\
      nth_error (workers a) k = Some w /\ map req_sample reqs = stream shuf epoch w) (W * nw)) as (runs & Hl & Hruns).
  { intros k Hk. destruct (nth_error (workers a) k) as [w|] eqn:Ew; [|apply nth_error_None in Ew; lia].
    assert (Ek : k / nw * nw + k mod nw = k) by (rewrite Nat.mul_comm; symmetry; apply Nat.div_mod; lia).
    destruct (fresh_run shuf (Env W (k / nw) nodes) nw (k mod nw) epoch a _ w Hshuf Haok) as (s0 & reqs & s' & H1 & H2 & H3 & _).
    { cbn [global_rank]. rewrite Ek. exact Ew. }
    exists reqs, s0, s', w. auto. }
  exists runs. split; [exact Hl|]. split.
  - intros r i Hr Hi. destruct (nth_error runs (r * nw + i)) as [reqs|] eqn:E; [|apply nth_error_None in E; nia].
    destruct (Hruns _ _ E) as (s0 & s' & w & H1 & H2 & _).
    replace ((r * nw + i) / nw) with r in H1 by (apply (Nat.div_unique _ nw r i); lia).
    replace ((r * nw + i) mod nw) with i in H1 by (apply (Nat.mod_unique _ nw r i); lia).
    exists reqs, s0, s'. auto.
  - assert (E : map (map req_sample) runs = map (stream shuf epoch) (workers a)).
    { apply nth_error_ext. intros i. rewrite !nth_error_map.
      destruct (nth_error runs i) as [reqs|] eqn:Er.
      - destruct (Hruns _ _ Er) as (_ & _ & w & _ & _ & E1 & E2). rewrite E1. cbn [option_map]. f_equal; exact E2.
      - apply nth_error_None in Er. rewrite (proj2 (nth_error_None (workers a) i)) by lia. reflexivity. }
    rewrite concat_map, E, <- flat_map_concat_map. apply Permutation_flat_map_ext.
    intros w _. apply stream_perm; exact Hshuf.
Qed.

Theorem epoch_permutation rng W seed nw B epoch ivs :
  rng_ok rng -> 1 <= W -> 1 <= nw -> 1 <= B ->
  exists a runs, (forall r, full_shuffle_assign rng (Env W r 1) seed false nw B epoch ivs = Ok a) /\
    (forall r i, r < W -> i < nw ->
       exists reqs s0 s', nth_error runs (r * nw + i) = Some reqs /\
         iter_fresh (Env W r 1) nw i epoch a = Ok s0 /\ Run (shuffle_call rng true seed) s0 reqs s') /\
    length runs = W * nw /\
    Permutation (map req_sample (concat runs)) (dataset_samples (seq 0 (length ivs)) ivs).
Proof.
  intros Hrng HW Hnw HB.
  destruct (full_shuffle_first rng (Env W 0 1) seed false nw B epoch ivs Hrng (or_intror eq_refl)) as (p & Hp & Hfs).
  cbn [world_size] in Hfs.
  destruct (assign_no_drop W nw B p (map (fun i => nth i ivs dIv) p) HW Hnw HB) as (a & Ha & Hsh & Hsam & _).
  { rewrite map_length; reflexivity. }
  assert (Haok : assignment_ok (W * nw) a).
  { eapply assign_assignment_ok; eauto. rewrite map_length; reflexivity. }
  destruct (runs_of_assignment (shuffle_call rng true seed) W nw epoch 1 a) as (runs & H1 & H2 & H3).
  { apply shuffle_call_ok; exact Hrng. } { exact Haok. } { exact Hnw. }
  exists a, runs. split; [|split; [exact H2|split; [exact H1|]]].
  - intros r. rewrite (full_shuffle_env rng W r 0). rewrite Hfs. exact Ha.
  - rewrite H3, Hsam. apply dataset_samples_perm; exact Hp.
Qed.

(** * The loader's bookkeeping *)

Lemma l_batches_eq nw B n s :
  l_batches nw B n s =
  LS (l_epoch s) (l_samples s + n * B) (l_cycle s + n)
     (match n with 0 => l_latest s | S n' => (l_cycle s + n') mod nw end) (l_restore s).
Proof.
  revert s; induction n as [|n IH]; intros s; cbn [l_batches].
  - destruct s; cbn. f_equal; lia.
  - rewrite IH. unfold l_batch; cbn [l_epoch l_samples l_cycle l_latest l_restore].
    f_equal; try lia. destruct n as [|n]; [rewrite Nat.add_0_r; reflexivity|]. f_equal. lia.
Qed.

Theorem load_restores nw B m len s :
  1 <= nw -> 1 <= B -> 1 <= m -> m * B < len -> l_restore s = false ->
  let saved := l_save (l_batches nw B m (l_iter s)) in
  let s2 := l_iter (l_load len saved l_init) in
  l_epoch s2 = l_epoch s + 1 /\ l_samples s2 = m * B /\
  (forall j, task_worker nw (l_latest s2) (l_restore s2) j = task_worker nw 0 false (m + j)) /\
  (forall k, 1 <= k -> l_save (l_batches nw B k s2) = l_save (l_batches nw B (m + k) (l_iter s))).
Proof.
  intros Hnw HB Hm Hlen Hs. cbn zeta.
  assert (E1 : l_iter s = LS (l_epoch s + 1) 0 0 0 false) by (unfold l_iter; rewrite Hs; reflexivity).
  rewrite E1.
  assert (E2 : l_save (l_batches nw B m (LS (l_epoch s + 1) 0 0 0 false)) =
               LSaved (l_epoch s + 1) (m * B) ((m - 1) mod nw)).
  { rewrite l_batches_eq. unfold l_save; cbn [l_epoch l_samples l_cycle l_latest l_restore Nat.add].
    destruct m as [|m']; [lia|]. replace (S m' - 1) with m' by lia. reflexivity. }
  rewrite E2.
  assert (E3 : l_iter (l_load len (LSaved (l_epoch s + 1) (m * B) ((m - 1) mod nw)) l_init) =
               LS (l_epoch s + 1) (m * B) ((m - 1) mod nw + 1) ((m - 1) mod nw + 1) true).
  { unfold l_load; cbn [s_epoch s_samples s_latest l_cycle l_init Nat.add l_restore].
    replace ((0 <? m * B) && (m * B <? len)) with true; [reflexivity|].
    symmetry. apply andb_true_intro. split; apply Nat.ltb_lt; nia. }
  rewrite E3. cbn [l_epoch l_samples l_latest l_restore].
  split; [reflexivity|]. split; [reflexivity|]. split.
  - intros j.
    pose proof (resumed_tasks_eq nw m (S j) Hnw Hm) as H.
    apply (f_equal (fun l => nth_error l j)) in H. unfold tasks in H.
    rewrite !nth_error_map, nth_error_seq in H by lia. cbn [option_map Nat.add] in H.
    injection H as H. rewrite H. unfold task_worker at 1. cbn [andb]. rewrite Nat.sub_0_r. reflexivity.
  - intros k Hk. rewrite !l_batches_eq. unfold l_save; cbn [l_epoch l_samples l_cycle l_latest l_restore].
    destruct k as [|k]; [lia|]. replace (m + S k) with (S (m + k)) by lia. f_equal; [lia|].
    replace ((m - 1) mod nw + 1 + k) with ((m - 1) mod nw + (1 + k)) by lia.
    rewrite Nat.add_mod_idemp_l by (clear -Hnw; lia). replace (m - 1 + (1 + k)) with (0 + (m + k)) by lia. reflexivity.
Qed.

(** * len(dataloader) *)

Lemma ceil_mult B q x : 1 <= B -> (B * q + x + B - 1) / B = q + (x + B - 1) / B.
Proof.
  intros HB. replace (B * q + x + B - 1) with (x + B - 1 + q * B) by lia.
  rewrite Nat.div_add by lia. lia.
Qed.

Lemma sum_ceil_one_ragged B (l : list nat) k x :
  1 <= B -> (forall i y, nth_error l i = Some y -> exists q, y = B * q + (if i =? k then x else 0)) ->
  sum (map (fun y => (y + B - 1) / B) l) = (sum l + B - 1) / B.
Proof.
  intros HB. assert (H0 : (0 + B - 1) / B = 0) by (apply Nat.div_small; lia).
  revert k; induction l as [|y l IH]; intros k H; cbn [map sum]; [rewrite H0; reflexivity|].
  destruct (H 0 y eq_refl) as [q Hq]. destruct (Nat.eqb_spec 0 k) as [<-|Hk].
  - (* the ragged one comes first: all others are multiples *)
    assert (Hs : exists q', sum l = B * q' /\ sum (map (fun y => (y + B - 1) / B) l) = q').
    { assert (Hl : forall i y, nth_error l i = Some y -> exists q, y = B * q).
      { intros i y' Hi. destruct (H (S i) y' Hi) as [q' Hq']. exists q'. cbn in Hq'. lia. }
      clear -HB Hl H0. induction l as [|z l IH]; [exists 0; cbn; lia|].
      destruct (Hl 0 z eq_refl) as [q1 E1]. destruct IH as (q' & E2 & E3); [intros i y Hi; exact (Hl (S i) y Hi)|].
      exists (q1 + q'). cbn [map sum]. rewrite E3, E1, E2. split; [lia|].
      replace (B * q1 + B - 1) with (B * q1 + 0 + B - 1) by lia. rewrite ceil_mult, H0 by exact HB. lia. }
    destruct Hs as (q' & E1 & E2). rewrite E2, Hq, E1.
    replace (B * q + x + B * q' + B - 1) with (B * (q + q') + x + B - 1) by lia.
    rewrite !ceil_mult by exact HB. lia.
  - rewrite (IH (k - 1)).
    + replace y with (B * q) by lia.
      replace (B * q + sum l + B - 1) with (B * q + sum l + B - 1) by lia.
      rewrite ceil_mult by exact HB. replace (B * q + B - 1) with (B * q + 0 + B - 1) by lia.
      rewrite ceil_mult, H0 by exact HB. lia.
    + intros i y' Hi. destruct (H (S i) y' Hi) as [q' Hq']. exists q'. rewrite Hq'.
      destruct (Nat.eqb_spec (S i) k), (Nat.eqb_spec i (k - 1)); lia.
Qed.

Theorem loader_len rng shuffle env seed dl nw B epoch ivs a :
  rng_ok rng -> 1 <= nw -> 1 <= B -> global_rank env < world_size env ->
  shuffle_assign rng shuffle env seed dl nw B epoch ivs = Ok a ->
  let shuf := shuffle_call rng shuffle seed in
  let streams := map (stream shuf epoch) (rank_workers nw (global_rank env) a) in
  exists L, get_len rng shuffle env seed dl nw B epoch ivs = Ok L /\
    sum (map (fun s => length (pieces B s)) streams) = (L + B - 1) / B.
Proof.
  intros Hrng Hnw HB Hr Ha shuf streams.
  assert (Haok : assignment_ok (world_size env * nw) a) by (eapply shuffle_assign_ok; eauto; lia).
  assert (Hshuf : shuf_ok shuf) by (apply shuffle_call_ok; exact Hrng).
  unfold get_len. rewrite Ha. cbn [bind]. eexists; split; [reflexivity|].
  set (r := global_rank env) in *. set (W := world_size env) in *.
  assert (Hwl : length (workers a) = W * nw) by (apply workers_length, Haok).
  assert (E1 : map (fun s => length (pieces B s)) streams =
               map (fun y => (y + B - 1) / B) (map (fun w => length (worker_samples w)) (rank_workers nw r a))).
  { unfold streams. rewrite !map_map. apply map_ext. intros w. rewrite pieces_length by exact HB.
    f_equal. f_equal. f_equal. apply Permutation_length, stream_perm; exact Hshuf. }
  destruct (shuffle_assign_from_assign _ _ _ _ _ _ _ _ _ _ Ha) as (idx & ivs' & Hl & Has). fold W in Has.
  destruct (assign_counts W nw B dl idx ivs') as (a' & extra & Ha' & Hex & _ & Hc); try assumption; try lia.
  rewrite Has in Ha'. injection Ha' as <-. cbn zeta in Hc.
  set (q := length (dataset_samples idx ivs') / B / W) in *.
  rewrite E1.
  rewrite (sum_ceil_one_ragged B _ (q mod nw) (if r =? W - 1 then extra else 0) HB).
  - f_equal. f_equal. f_equal.
    assert (E2 : forall ws : list (list nat * list interval),
               Forall (fun w => length (fst w) = length (snd w)) ws ->
               sum (map (fun w => length (worker_samples w)) ws) = sum (flat_map (map iv_size) (map snd ws))).
    { induction 1 as [|w ws Hw _ IH]; [reflexivity|]. cbn [map sum flat_map]. rewrite sum_app, IH.
      unfold worker_samples at 1. rewrite dataset_samples_length by exact Hw. reflexivity. }
    rewrite E2.
    + unfold rank_workers. rewrite <- firstn_map, <- skipn_map. unfold workers.
      destruct Haok as [(Hl1 & Hl2 & _) _]. rewrite map_snd_combine by lia. reflexivity.
    + destruct Haok as [(_ & _ & HF) _]. unfold rank_workers.
      apply Forall_forall. intros w Hw. rewrite Forall_forall in HF. apply HF.
      rewrite <- (firstn_skipn (r * nw)). apply in_or_app; right.
      rewrite <- (firstn_skipn nw). apply in_or_app; left; exact Hw.
  - intros i y Hy. rewrite nth_error_map in Hy. unfold rank_workers in Hy.
    assert (Hi : i < nw).
    { destruct (Nat.lt_ge_cases i nw) as [H|H]; [exact H|].
      rewrite (proj2 (nth_error_None (firstn nw _) i)) in Hy; [discriminate|]. rewrite firstn_length; lia. }
    rewrite firstn_skipn_nth in Hy by exact Hi.
    destruct (Hc r i Hr Hi) as (w & Ew & El). rewrite Ew in Hy. cbn [option_map] in Hy. injection Hy as <-.
    rewrite El. eexists. f_equal. destruct (r =? W - 1), (i =? q mod nw); reflexivity.
Qed.
