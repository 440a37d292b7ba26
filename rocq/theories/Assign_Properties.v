(** Property theorems on the distribution of samples over ranks and workers. *)
From Verif Require Import Base Assign_Model Assign_Spec Assign_Proofs Shuffle_Proofs.

(** A dataset of three chunks (sizes 4, 3, 5; the second restricted to 3 of 5
    samples) used to show that the hypotheses below are met. *)
Definition ex_ivs := [Iv 0 0 4 4; Iv 4 5 8 9; Iv 9 9 14 14].

(** C01: without drop_last, concatenating what the workers were assigned gives
    the dataset exactly; every piece is a non-empty part of an input interval. *)
Theorem C01_every_sample_assigned_once W nw B indexes ivs :
  1 <= W -> 1 <= nw -> 1 <= B -> length indexes = length ivs ->
  exists a, assign W nw B false indexes ivs = Ok a /\ shape_ok (W * nw) a /\
    flat_map worker_samples (workers a) = dataset_samples indexes ivs /\
    Forall (fun w => Forall (fun ci => exists iv, In (fst ci, iv) (combine indexes ivs) /\
                                                  sub_interval (snd ci) iv)
                            (combine (fst w) (snd w))) (workers a).
Proof. exact (assign_no_drop W nw B indexes ivs). Qed.
Print Assumptions C01_every_sample_assigned_once.

Example C01_case : exists a, assign 2 2 2 false [2; 0; 1] ex_ivs = Ok a /\
  map (fun w => length (worker_samples w)) (workers a) = [4; 2; 4; 2].
Proof. eexists; split; vm_compute; reflexivity. Qed.

(** C02: with drop_last every rank has the same number of samples, nothing is
    assigned twice, the assigned samples are a prefix, few are dropped. *)
Theorem C02_drop_last_equal_ranks W nw B indexes ivs :
  1 <= W -> 1 <= nw -> 1 <= B -> length indexes = length ivs -> NoDup indexes ->
  let N := length (dataset_samples indexes ivs) in
  exists a, assign W nw B true indexes ivs = Ok a /\ shape_ok (W * nw) a /\
    (forall r, r < W -> length (flat_map worker_samples (rank_workers nw r a)) = B * ((N / B) / W)) /\
    NoDup (flat_map worker_samples (workers a)) /\
    exists dropped, flat_map worker_samples (workers a) ++ dropped = dataset_samples indexes ivs /\
                    length dropped < W * B.
Proof. exact (assign_drop W nw B indexes ivs). Qed.
Print Assumptions C02_drop_last_equal_ranks.

Example C02_case : NoDup [2; 0; 1] /\ exists a, assign 5 1 1 true [2; 0; 1] ex_ivs = Ok a /\
  map (fun w => length (worker_samples w)) (workers a) = [2; 2; 2; 2; 2].
Proof.
  split; [repeat constructor; cbn; intuition discriminate|].
  eexists; split; vm_compute; reflexivity.
Qed.

(** C03: the exact number of samples of each worker: whole batches, the first
    [q mod nw] workers of a rank one more; only one worker of the last rank may
    have [extra] samples more, and none with drop_last. *)
Theorem C03_batch_counts W nw B drop_last indexes ivs :
  1 <= W -> 1 <= nw -> 1 <= B -> length indexes = length ivs ->
  let N := length (dataset_samples indexes ivs) in
  let q := (N / B) / W in
  exists a extra, assign W nw B drop_last indexes ivs = Ok a /\
    extra < W * B /\ (drop_last = true -> extra = 0) /\
    forall r i, r < W -> i < nw ->
      exists w, nth_error (workers a) (r * nw + i) = Some w /\
        length (worker_samples w) =
        B * (q / nw + (if i <? q mod nw then 1 else 0)) +
        (if (r =? W - 1) && (i =? q mod nw) then extra else 0).
Proof. exact (assign_counts W nw B drop_last indexes ivs). Qed.
Print Assumptions C03_batch_counts.

Example C03_case : exists a, assign 1 3 2 false [0; 1; 2] [Iv 0 0 4 4; Iv 4 4 9 9; Iv 9 9 15 15] = Ok a /\
  map (fun w => length (worker_samples w)) (workers a) = [6; 5; 4].
Proof. eexists; split; vm_compute; reflexivity. Qed.

(** C06 (violated): with two nodes, in the second epoch a chunk that was shared
    by two workers in the first epoch is expanded twice. *)
Theorem C06_multi_node_epoch_refuted :
  exists rng env seed nw B epoch ivs a,
    rng_ok rng /\ Forall iv_wf ivs /\ 1 <= nw /\ 1 <= B /\ 1 < num_nodes env /\
    num_nodes env * (world_size env / num_nodes env) = world_size env /\
    full_shuffle_assign rng env seed false nw B epoch ivs = Ok a /\
    ~ NoDup (flat_map worker_samples (workers a)) /\
    ~ Permutation (flat_map worker_samples (workers a)) (dataset_samples (seq 0 (length ivs)) ivs).
Proof.
  exists (fun _ n => seq 0 n), (Env 2 0 2), 42, 1, 1, 2, [Iv 0 0 2 2; Iv 2 2 4 4; Iv 4 4 6 6].
  eexists. split; [intros k n; apply Permutation_refl|].
  split; [repeat constructor; cbn; lia|]. split; [lia|]. split; [lia|]. split; [cbn; lia|].
  split; [reflexivity|]. split; [vm_compute; reflexivity|].
  split.
  - rewrite NoDup_nth_error. intros H. specialize (H 2 4). vm_compute in H.
    assert (E : 2 = 4) by (apply H; [lia|reflexivity]). discriminate E.
  - intros H. apply Permutation_length in H. vm_compute in H. discriminate.
Qed.
Print Assumptions C06_multi_node_epoch_refuted.

(** C06, the part that holds: if in the first epoch no chunk is shared by two
    workers, every later multi-node epoch is a permutation of the dataset. *)
Theorem C06_multi_node_epoch_partial rng env seed nw B epoch ivs first :
  rng_ok rng -> 1 <= nw -> 1 <= B -> 1 < num_nodes env -> 1 <= world_size env ->
  num_nodes env * (world_size env / num_nodes env) = world_size env ->
  full_shuffle_assign rng env seed false nw B 1 ivs = Ok first ->
  NoDup (concat (fst first)) ->
  exists a, full_shuffle_assign rng env seed false nw B epoch ivs = Ok a /\
    shape_ok (world_size env * nw) a /\
    Permutation (flat_map worker_samples (workers a)) (dataset_samples (seq 0 (length ivs)) ivs).
Proof. exact (multi_node_unshared rng env seed nw B epoch ivs first). Qed.
Print Assumptions C06_multi_node_epoch_partial.

Example C06_case :
  let rng := fun _ n => rev (seq 0 n) in
  rng_ok rng /\ exists first,
    full_shuffle_assign rng (Env 2 0 2) 7 false 1 1 1 [Iv 0 0 2 2; Iv 2 2 4 4; Iv 4 4 6 6; Iv 6 6 8 8] = Ok first /\
    NoDup (concat (fst first)).
Proof.
  split; [intros k n; apply Permutation_sym, Permutation_rev|].
  eexists; split; [vm_compute; reflexivity|]. vm_compute. repeat constructor; cbn; intuition discriminate.
Qed.
