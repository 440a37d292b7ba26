(** Property theorems on iterating and resuming. *)
From Verif Require Import Base Assign_Model Assign_Spec Iter_Model Iter_Spec Loader_Order_Model Validate_Model Validate_Spec.
From Verif Require Import Iter_Proofs Resume_Proofs Epoch_Proofs Validate_Proofs.

Definition id_rng : rng_t := fun _ n => seq 0 n.
Definition rev_rng : rng_t := fun _ n => rev (seq 0 n).
Definition ex_iv3 := [Iv 0 0 4 4; Iv 4 4 9 9; Iv 9 9 15 15].

(** C04: [len(dataset)] is the number of samples the rank's workers yield. *)
Theorem C04_len_is_number_yielded rng shuffle env seed dl nw B epoch ivs a :
  rng_ok rng -> 1 <= nw -> 1 <= B -> global_rank env < world_size env ->
  shuffle_assign rng shuffle env seed dl nw B epoch ivs = Ok a ->
  exists L runs, get_len rng shuffle env seed dl nw B epoch ivs = Ok L /\ length runs = nw /\
    (forall w reqs, nth_error runs w = Some reqs ->
       exists s0 s', iter_fresh env nw w epoch a = Ok s0 /\ Run (shuffle_call rng shuffle seed) s0 reqs s') /\
    L = sum (map (@length request) runs).
Proof. exact (len_is_yielded rng shuffle env seed dl nw B epoch ivs a). Qed.
Print Assumptions C04_len_is_number_yielded.

Example C04_case : rng_ok rev_rng /\
  exists a, shuffle_assign rev_rng true (Env 2 1 1) 3 false 2 2 4 ex_iv3 = Ok a /\
            get_len rev_rng true (Env 2 1 1) 3 false 2 2 4 ex_iv3 = Ok 9.
Proof.
  split; [intros k n; apply Permutation_sym, Permutation_rev|].
  eexists; split; vm_compute; reflexivity.
Qed.

(** C05: a shuffled epoch on one node yields a permutation of the dataset. *)
Theorem C05_shuffled_epoch_permutation rng W seed nw B epoch ivs :
  rng_ok rng -> 1 <= W -> 1 <= nw -> 1 <= B ->
  exists a runs, (forall r, full_shuffle_assign rng (Env W r 1) seed false nw B epoch ivs = Ok a) /\
    (forall r i, r < W -> i < nw ->
       exists reqs s0 s', nth_error runs (r * nw + i) = Some reqs /\
         iter_fresh (Env W r 1) nw i epoch a = Ok s0 /\ Run (shuffle_call rng true seed) s0 reqs s') /\
    length runs = W * nw /\
    Permutation (map req_sample (concat runs)) (dataset_samples (seq 0 (length ivs)) ivs).
Proof. exact (epoch_permutation rng W seed nw B epoch ivs). Qed.
Print Assumptions C05_shuffled_epoch_permutation.

Example C05_case : rng_ok rev_rng /\ length (dataset_samples (seq 0 3) ex_iv3) = 15.
Proof. split; [intros k n; apply Permutation_sym, Permutation_rev|reflexivity]. Qed.

(** C08: a worker yields its assignment, chunk by chunk, then stops; the run is unique. *)
Theorem C08_worker_yields_assignment shuf env nw wrank epoch a n w :
  shuf_ok shuf -> assignment_ok n a -> nth_error (workers a) (global_rank env * nw + wrank) = Some w ->
  exists s0 reqs s', iter_fresh env nw wrank epoch a = Ok s0 /\ Run shuf s0 reqs s' /\
    (forall reqs2 s2, Run shuf s0 reqs2 s2 -> reqs2 = reqs /\ s2 = s') /\
    map req_sample reqs = stream shuf epoch w /\
    Permutation (map req_sample reqs) (worker_samples w) /\ d_epoch s' = epoch + 1.
Proof.
  intros Hs Ha Hw. destruct (fresh_run shuf env nw wrank epoch a n w Hs Ha Hw)
    as (s0 & reqs & s' & H1 & H2 & H3 & H4 & _).
  exists s0, reqs, s'. split; [exact H1|]. split; [exact H2|]. split.
  { intros reqs2 s2 H. exact (Run_det _ _ _ _ _ _ H H2). }
  split; [exact H3|]. split; [rewrite H3; apply stream_perm; exact Hs|exact H4].
Qed.
Print Assumptions C08_worker_yields_assignment.

Definition ex_a := ([[2]; [2; 0]], [[Iv 9 9 12 15]; [Iv 9 12 15 15; Iv 0 0 4 4]]).
Example C08_case : assignment_ok 2 ex_a /\ shuf_ok (shuffle_call rev_rng true 5) /\
  map (fun w => stream (shuffle_call rev_rng true 5) 1 w) (workers ex_a) =
  [[(2, 11); (2, 10); (2, 9)]; [(2, 14); (2, 13); (2, 12); (0, 3); (0, 2); (0, 1); (0, 0)]].
Proof.
  split; [repeat split; repeat constructor|]. split; [|reflexivity].
  apply shuffle_call_ok. intros k n; apply Permutation_sym, Permutation_rev.
Qed.

(** C09: only the final request is marked last; the chunk list is sent with the
    first request and is the list of the chunks still to be read. *)
Theorem C09_markers shuf env nw wrank epoch a n w :
  shuf_ok shuf -> assignment_ok n a -> nth_error (workers a) (global_rank env * nw + wrank) = Some w ->
  exists s0 reqs s', iter_fresh env nw wrank epoch a = Ok s0 /\ Run shuf s0 reqs s' /\
    map req_sample reqs = stream shuf epoch w /\
    forall k r, nth_error reqs k = Some r ->
      rq_last r = (k =? length reqs - 1) /\ rq_download r = if k =? 0 then Some (fst w) else None.
Proof. exact (fresh_markers shuf env nw wrank epoch a n w). Qed.
Print Assumptions C09_markers.

(** C09 for a resumed worker: the list starts at the chunk of the first request. *)
Theorem C09_markers_resumed shuf env W nw wrank st a w :
  shuf_ok shuf -> assignment_ok (W * nw) a -> global_rank env < W -> wrank < nw -> 1 <= sd_batch st ->
  sd_workers st = nw -> nth_error (workers a) (global_rank env * nw + wrank) = Some w ->
  turns nw (sd_batch st) (sd_samples st) wrank < length (worker_samples w) ->
  exists s0 reqs s' k0 c0, resume shuf env nw wrank st a = Ok s0 /\ Run shuf s0 reqs s' /\
    option_map rq_chunk (nth_error reqs 0) = Some c0 /\ nth_error (fst w) k0 = Some c0 /\
    forall k r, nth_error reqs k = Some r ->
      rq_last r = (k =? length reqs - 1) /\ rq_download r = if k =? 0 then Some (skipn k0 (fst w)) else None.
Proof. exact (resume_markers shuf env W nw wrank st a w). Qed.
Print Assumptions C09_markers_resumed.

Example C09_case : exists s0, resume (shuffle_call rev_rng true 5) (Env 1 0 1) 2 1 (SD 8 2 2 1) ex_a = Ok s0 /\
  exists r s1, next (shuffle_call rev_rng true 5) s0 = (Yield r, s1) /\
               rq_chunk r = 0 /\ rq_index r = 2 /\ rq_download r = Some [0].
Proof.
  eexists; split; [vm_compute; reflexivity|]. eexists; eexists; split; [vm_compute; reflexivity|]. auto.
Qed.

(** C10: after [m] batches were collected round-robin from the workers and no
    worker has run dry, resuming from the saved counter makes every worker
    yield exactly what it had not delivered yet, and (for [m >= 1]) the batches
    collected afterwards continue the interrupted sequence. *)
Theorem C10_resume_continues rng shuffle env seed dl nw B epoch ivs a m :
  rng_ok rng -> 1 <= nw -> 1 <= B -> global_rank env < world_size env ->
  shuffle_assign rng shuffle env seed dl nw B epoch ivs = Ok a ->
  let shuf := shuffle_call rng shuffle seed in
  let streams := map (stream shuf epoch) (rank_workers nw (global_rank env) a) in
  let sent := fst (serve (tasks nw 0 false m) (map (pieces B) streams)) in
  (forall w s, nth_error streams w = Some s -> length (concat (from_worker w sent)) < length s) ->
  length sent = m /\
  exists resumed, length resumed = nw /\
    (forall w reqs, nth_error resumed w = Some reqs ->
       exists s0 s' s, resume shuf env nw w (SD (length sent * B) nw B epoch) a = Ok s0 /\
         Run shuf s0 reqs s' /\ d_epoch s' = epoch + 1 /\
         nth_error streams w = Some s /\ concat (from_worker w sent) ++ map req_sample reqs = s) /\
    (1 <= m -> forall n,
       fst (serve (tasks nw 0 false (m + n)) (map (pieces B) streams)) =
       sent ++ fst (serve (tasks nw ((m - 1) mod nw + 1) true n)
                          (map (fun reqs => pieces B (map req_sample reqs)) resumed))).
Proof. exact (resume_continues rng shuffle env seed dl nw B epoch ivs a m). Qed.
Print Assumptions C10_resume_continues.

Example C10_case : exists a, shuffle_assign rev_rng true (Env 1 0 1) 3 false 2 2 1 ex_iv3 = Ok a /\
  let streams := map (stream (shuffle_call rev_rng true 3) 1) (rank_workers 2 0 a) in
  let sent := fst (serve (tasks 2 0 false 5) (map (pieces 2) streams)) in
  map (@length _) streams = [8; 7] /\
  map (fun w => length (concat (from_worker w sent))) [0; 1] = [6; 4].
Proof. eexists; split; [vm_compute; reflexivity|]. vm_compute. split; reflexivity. Qed.

(** C11 (violated): one rank, two workers, three samples, batch size 1.  After
    two batches the second worker has nothing left, the loader restores
    (2 < 3), and the second worker raises IndexError. *)
Theorem C11_resume_never_fails_refuted :
  exists nw B ivs a m L,
    1 <= nw /\ 1 <= B /\
    shuffle_assign id_rng false (Env 1 0 1) 0 false nw B 1 ivs = Ok a /\
    get_len id_rng false (Env 1 0 1) 0 false nw B 1 ivs = Ok L /\
    let shuf := shuffle_call id_rng false 0 in
    let streams := map (stream shuf 1) (rank_workers nw 0 a) in
    length (fst (serve (tasks nw 0 false m) (map (pieces B) streams))) = m /\
    m * B <= L /\
    l_restore (l_load L (l_save (l_batches nw B m (l_iter l_init))) l_init) = true /\
    resume shuf (Env 1 0 1) nw 1 (SD (m * B) nw B 1) a = Err IndexError.
Proof.
  exists 2, 1, [Iv 0 0 3 3]. eexists; exists 2, 3. split; [lia|]. split; [lia|].
  split; [vm_compute; reflexivity|]. split; [vm_compute; reflexivity|]. cbn zeta.
  split; [vm_compute; reflexivity|]. split; [lia|]. split; vm_compute; reflexivity.
Qed.
Print Assumptions C11_resume_never_fails_refuted.

(** C11, exactly when a worker's resume fails: iff it has nothing left. *)
Theorem C11_resume_fails_iff_partial shuf env W nw wrank st a w :
  shuf_ok shuf -> assignment_ok (W * nw) a -> global_rank env < W -> wrank < nw -> 1 <= sd_batch st ->
  sd_workers st = nw -> nth_error (workers a) (global_rank env * nw + wrank) = Some w ->
  (resume shuf env nw wrank st a = Err IndexError <->
   length (worker_samples w) <= turns nw (sd_batch st) (sd_samples st) wrank).
Proof. exact (resume_fails_iff shuf env W nw wrank st a w). Qed.
Print Assumptions C11_resume_fails_iff_partial.

(** Worker 0 has three samples: it can be resumed after two of its own, not after all three. *)
Example C11_resume_fails_iff_case : let shuf := shuffle_call rev_rng true 5 in
  option_map (fun w => length (worker_samples w)) (nth_error (workers ex_a) 0) = Some 3 /\
  turns 2 1 4 0 = 2 /\ (exists s, resume shuf (Env 1 0 1) 2 0 (SD 4 2 1 1) ex_a = Ok s) /\
  turns 2 1 5 0 = 3 /\ resume shuf (Env 1 0 1) 2 0 (SD 5 2 1 1) ex_a = Err IndexError.
Proof. cbv zeta. split; [reflexivity|]. split; [reflexivity|]. split; [eexists; vm_compute; reflexivity|]. split; vm_compute; reflexivity. Qed.

(** C12: the counts reconstructed from a state dict. *)
Theorem C12_replay_counts n B nw :
  1 <= nw -> 1 <= B ->
  exists idx, replay_sampling n B nw = Ok idx /\ length idx = nw /\ sum idx = n /\
    forall w x, nth_error idx w = Some x -> x = turns nw B n w.
Proof. exact (replay_accounts n B nw). Qed.
Print Assumptions C12_replay_counts.

Theorem C12_replay_position ivs i c o :
  replay_walk ivs i = (c, o) -> i <= sum (map iv_size ivs) ->
  sum (map iv_size (firstn c ivs)) + o = i /\
  (i < sum (map iv_size ivs) -> exists iv, nth_error ivs c = Some iv /\ o < iv_size iv).
Proof. exact (replay_position ivs i c o). Qed.
Print Assumptions C12_replay_position.

Example C12_case : replay_sampling 17 2 3 = Ok [6; 6; 5] /\ replay_walk ex_iv3 7 = (1, 3).
Proof. split; reflexivity. Qed.

(** C13: without override a state is accepted iff it agrees; with override the
    recorded values are replaced and only the sample count is still checked. *)
Theorem C13_state_validation replace cache_dir cur st :
  (agrees replace cache_dir cur st /\ v_samples st <= c_len cur ->
   validate false replace cache_dir cur st = Ok st) /\
  (~ (agrees replace cache_dir cur st /\ v_samples st <= c_len cur) ->
   validate false replace cache_dir cur st = Err ValueError) /\
  (c_len cur < v_samples st -> validate true replace cache_dir cur st = Err ValueError) /\
  (v_samples st <= c_len cur ->
   exists st', validate true replace cache_dir cur st = Ok st' /\
     v_shuffle st' = c_shuffle cur /\ v_workers st' = c_workers cur /\
     (v_path st' = c_path cur \/ (v_path st' = v_path st /\ resolved replace cache_dir st = c_path cur)) /\
     v_url st' = c_url cur /\ v_seed st' = c_seed cur /\
     (forall t, c_loader cur = Some t -> v_loader st' = t) /\ v_drop st' = c_drop cur /\
     v_samples st' = v_samples st /\ v_batch st' = v_batch st /\ v_world st' = v_world st).
Proof.
  destruct (validate_strict replace cache_dir cur st) as [H1 H2].
  destruct (validate_force replace cache_dir cur st) as [H3 H4]. auto.
Qed.
Print Assumptions C13_state_validation.

Definition ex_cur := VC 2 4 (Some 1) None (Some (Some 7)) false 42 2 true 100.
Example C13_case :
  agrees (fun _ => false) (fun d _ => d) ex_cur (VS 60 2 4 (Some 1) None None (Some 7) false 42 2 true) /\
  ~ agrees (fun _ => false) (fun d _ => d) ex_cur (VS 60 2 4 (Some 1) None None (Some 7) true 42 2 true).
Proof.
  split; [repeat split; cbn; congruence|]. intros (_ & _ & _ & _ & _ & _ & H). discriminate H.
Qed.

(** C33 and C53: restoring into a new dataloader in the middle of an epoch asks
    the workers in the order of the uninterrupted run; the states saved after
    one or more further batches are those of the uninterrupted run. *)
Theorem C33_resumed_worker_order nw B m len s :
  1 <= nw -> 1 <= B -> 1 <= m -> m * B < len -> l_restore s = false ->
  let saved := l_save (l_batches nw B m (l_iter s)) in
  let s2 := l_iter (l_load len saved l_init) in
  forall j, task_worker nw (l_latest s2) (l_restore s2) j = task_worker nw 0 false (m + j).
Proof.
  intros H1 H2 H3 H4 H5. destruct (load_restores nw B m len s H1 H2 H3 H4 H5) as (_ & _ & H & _). exact H.
Qed.
Print Assumptions C33_resumed_worker_order.

Example C33_case :
  let s2 := l_iter (l_load 20 (l_save (l_batches 3 2 4 (l_iter l_init))) l_init) in
  map (task_worker 3 (l_latest s2) (l_restore s2)) (seq 0 6) = [1; 2; 0; 1; 2; 0].
Proof. reflexivity. Qed.

Theorem C53_saved_state_after_resume nw B m len s :
  1 <= nw -> 1 <= B -> 1 <= m -> m * B < len -> l_restore s = false ->
  let saved := l_save (l_batches nw B m (l_iter s)) in
  let s2 := l_iter (l_load len saved l_init) in
  l_epoch s2 = l_epoch s + 1 /\ l_samples s2 = m * B /\
  forall k, 1 <= k -> l_save (l_batches nw B k s2) = l_save (l_batches nw B (m + k) (l_iter s)).
Proof.
  intros H1 H2 H3 H4 H5. destruct (load_restores nw B m len s H1 H2 H3 H4 H5) as (Ha & Hb & _ & Hc). auto.
Qed.
Print Assumptions C53_saved_state_after_resume.

Example C53_case :
  let s2 := l_iter (l_load 20 (l_save (l_batches 3 2 4 (l_iter l_init))) l_init) in
  l_save (l_batches 3 2 2 s2) = LSaved 1 12 2.
Proof. reflexivity. Qed.

(** C53: a state saved before the first loop makes a new loader begin as without it. *)
Theorem C53_fresh nw B len :
  let s2 := l_iter (l_load len (l_save l_init) l_init) in
  l_epoch s2 = 1 /\ (forall j, task_worker nw (l_latest s2) (l_restore s2) j = task_worker nw 0 false j) /\
  forall k, l_save (l_batches nw B k s2) = l_save (l_batches nw B k (l_iter l_init)).
Proof. repeat split; reflexivity. Qed.
Print Assumptions C53_fresh.
Example C53_fresh_case :
  l_save l_init = LSaved 0 0 0 /\ l_save (l_batches 2 3 4 (l_iter (l_load 20 (l_save l_init) l_init))) = LSaved 1 12 1.
Proof. split; reflexivity. Qed.

(** C56 (violated): a state saved right after loading one, before any batch,
    differs from the loaded one and makes the loader resume at another worker;
    loading into a loader that was already used records wrong worker positions. *)
Theorem C56_save_after_load_refuted :
  (exists nw B m len,
    let saved := l_save (l_batches nw B m (l_iter l_init)) in
    let again := l_save (l_load len saved l_init) in
    let s2 := l_iter (l_load len saved l_init) in
    let s3 := l_iter (l_load len again l_init) in
    m * B < len /\ again <> saved /\ l_restore s3 = true /\
    task_worker nw (l_latest s2) (l_restore s2) 0 <> task_worker nw (l_latest s3) (l_restore s3) 0) /\
  (exists nw B m len used k,
    let saved := l_save (l_batches nw B m (l_iter l_init)) in
    m * B < len /\ l_restore used = false /\ 1 <= k /\
    (exists j, used = l_batches nw B j (l_iter l_init)) /\
    l_save (l_batches nw B k (l_iter (l_load len saved used))) <>
    l_save (l_batches nw B (m + k) (l_iter l_init))).
Proof.
  split.
  - exists 3, 1, 1, 20. cbn zeta. split; [lia|]. split; [vm_compute; discriminate|].
    split; [reflexivity|]. vm_compute. discriminate.
  - exists 3, 1, 1, 20, (l_batches 3 1 2 (l_iter l_init)), 1. cbn zeta. split; [lia|]. split; [reflexivity|].
    split; [lia|]. split; [exists 2; reflexivity|]. vm_compute. discriminate.
Qed.
Print Assumptions C56_save_after_load_refuted.

(** C54: [len(dataloader)] is the number of batches the rank receives. *)
Theorem C54_loader_len rng shuffle env seed dl nw B epoch ivs a :
  rng_ok rng -> 1 <= nw -> 1 <= B -> global_rank env < world_size env ->
  shuffle_assign rng shuffle env seed dl nw B epoch ivs = Ok a ->
  let shuf := shuffle_call rng shuffle seed in
  let streams := map (stream shuf epoch) (rank_workers nw (global_rank env) a) in
  exists L, get_len rng shuffle env seed dl nw B epoch ivs = Ok L /\
    sum (map (fun s => length (pieces B s)) streams) = (L + B - 1) / B.
Proof. exact (loader_len rng shuffle env seed dl nw B epoch ivs a). Qed.
Print Assumptions C54_loader_len.

Example C54_case : exists a, shuffle_assign rev_rng true (Env 3 2 1) 3 false 2 2 1 ex_iv3 = Ok a /\
  map (fun s => length (pieces 2 s)) (map (stream (shuffle_call rev_rng true 3) 1) (rank_workers 2 2 a)) = [3; 1] /\
  get_len rev_rng true (Env 3 2 1) 3 false 2 2 1 ex_iv3 = Ok 7.
Proof. eexists; split; [vm_compute; reflexivity|]. vm_compute. split; reflexivity. Qed.

(** C55 (violated): the recorded batch size and world size are not compared. *)
Theorem C55_other_batch_or_world_size_rejected_refuted :
  exists cur st, v_samples st <= c_len cur /\ v_batch st <> c_batch cur /\ v_world st <> c_world cur /\
    validate false (fun _ => false) (fun d _ => d) cur st = Ok st.
Proof.
  exists ex_cur, (VS 60 2 8 (Some 1) None None (Some 7) false 42 4 true).
  split; [cbn; lia|]. split; [discriminate|]. split; [discriminate|]. reflexivity.
Qed.
Print Assumptions C55_other_batch_or_world_size_rejected_refuted.
