(** C181-C183: how a process finds out which part of a job it is. *)
From Verif Require Import Base Assign_Model Assign_Spec Shuffle_Proofs Iter_Model Iter_Spec Iter_Proofs Dataset_Proofs2
  Detect_Model Detect_Spec Detect_Proofs.
From Coq Require Import String List Permutation.
Local Open Scope list_scope.
Local Open Scope nat_scope.
Local Ltac Zify.zify_post_hook ::= idtac.

(** C181: the processes of a job that joined a process group, that all see the same number of GPUs (none, so many that the job does not fill two
    machines, or a divisor of the number of processes) and no overruling variables: they find the same numbers, each its own rank, and read every sample of a
    dataset once: unshuffled, in the first epoch, or on one machine. *)
Theorem C181_parts_partial ps gpus rng shuffle seed nw B epoch ivs :
  joined ps -> ps <> [] -> Forall (fun p => r_gpus p = gpus) ps ->
  (forall g, gpus = Some g -> 1 <= g /\ (List.length ps < 2 * g \/ exists n, List.length ps = n * g)) ->
  rng_ok rng -> 1 <= nw -> 1 <= B ->
  (exists nodes, 1 <= nodes /\ forall r p, nth_error ps r = Some p -> detect p = Ok (Env (List.length ps) r nodes)) /\
  (shuffle = false \/ epoch = 1 \/ (forall g, gpus = Some g -> List.length ps < 2 * g) ->
   exists all, delivered rng shuffle seed nw B epoch ivs ps all /\
     Permutation (concat all) (dataset_samples (seq 0 (List.length ivs)) ivs)).
Proof.
  intros Hj Hne Hg Hok Hrng Hnw HB.
  assert (Hd : forall r p, nth_error ps r = Some p -> detect p = Ok (Env (List.length ps) r (found_nodes gpus (List.length ps)))).
  { intros r p Hp. apply detect_joined; auto. rewrite Forall_forall in Hg. exact (Hg _ (nth_error_In _ _ Hp)). }
  split; [exists (found_nodes gpus (List.length ps)); split; [apply found_nodes_pos|exact Hd]|].
  intros Hc. apply (delivered_all rng shuffle seed nw B epoch ivs ps _ Hd); auto.
  destruct Hc as [Hc|[Hc|Hc]]; [auto|auto|right; right]. destruct gpus as [g|]; [|reflexivity].
  apply found_one; [exact (proj1 (Hok g eq_refl))|exact (Hc g eq_refl)].
Qed.
Print Assumptions C181_parts_partial.

Definition gpu_job (W g : nat) : list process := map (fun r => Process (Some (W, r)) (Some g) (fun _ => None)) (seq 0 W).
Lemma gpu_job_joined W g : joined (gpu_job W g).
Proof.
  intros r p H. unfold gpu_job in *. rewrite map_length, seq_length. rewrite nth_error_map in H.
  assert (Hr : r < W). { destruct (Nat.lt_ge_cases r W) as [L|L]; [exact L|]. rewrite (proj2 (nth_error_None (seq 0 W) r)) in H by (rewrite seq_length; lia). discriminate. }
  rewrite (nth_error_nth' _ 0) in H by (rewrite seq_length; lia). rewrite seq_nth in H by lia. cbn in H. injection H as <-.
  split; [reflexivity|]. unfold no_overrule. repeat (apply Forall_cons; [reflexivity|]). apply Forall_nil.
Qed.
Example C181_case :
  joined (gpu_job 4 2) /\ gpu_job 4 2 <> [] /\ Forall (fun p => r_gpus p = Some 2) (gpu_job 4 2) /\ List.length (gpu_job 4 2) = 2 * 2 /\
  map detect (gpu_job 4 2) = [Ok (Env 4 0 2); Ok (Env 4 1 2); Ok (Env 4 2 2); Ok (Env 4 3 2)] /\
  map detect (gpu_job 3 2) = [Ok (Env 3 0 1); Ok (Env 3 1 1); Ok (Env 3 2 1)] /\
  map detect (gpu_job 5 2) = repeat (Err RuntimeError) 5.
Proof.
  split; [apply gpu_job_joined|]. split; [discriminate|]. split; [repeat (apply Forall_cons; [reflexivity|]); apply Forall_nil|].
  repeat (apply conj; [vm_compute; reflexivity|]). vm_compute; reflexivity.
Qed.

(** A single process that is not part of a job reads the whole dataset. *)
Theorem C181_single_process p rng shuffle seed nw B epoch ivs :
  r_group p = None -> no_overrule p -> rng_ok rng -> 1 <= nw -> 1 <= B ->
  exists all, delivered rng shuffle seed nw B epoch ivs [p] all /\ Permutation (concat all) (dataset_samples (seq 0 (List.length ivs)) ivs).
Proof.
  intros Hg Hno Hrng Hnw HB. apply (delivered_all rng shuffle seed nw B epoch ivs [p] 1); auto; [|discriminate].
  intros [|[|r]] q Hq; try discriminate Hq. injection Hq as <-. rewrite (no_overrule_detect _ Hno). unfold from_group. rewrite Hg. reflexivity.
Qed.
Print Assumptions C181_single_process.

(** Processes that [torchrun] started and that did not join a group yet when the dataset is made: the world size is read from the environment, the
    rank (in the variable RANK) is not: all find rank 0 and read the same samples. *)
Theorem C181_before_the_group W g r :
  detect (torchrun W r g) = Ok (Env W 0 1) /\
  forall rng shuffle seed nw B epoch ivs i samples,
    delivers rng shuffle seed nw B epoch ivs (torchrun W r g) i samples <-> delivers rng shuffle seed nw B epoch ivs (torchrun W 0 g) i samples.
Proof. split; [reflexivity|]. intros. split; apply delivers_same_view; reflexivity. Qed.
Print Assumptions C181_before_the_group.

Definition two_chunks : list interval := [Iv 0 0 2 2; Iv 2 2 4 4].
Theorem C181_torchrun_refuted :
  exists ps rng seed nw B epoch ivs sample, ps = map (fun r => torchrun 2 r (Some 2)) (seq 0 2) /\ rng_ok rng /\
    In sample (dataset_samples (seq 0 (List.length ivs)) ivs) /\
    (exists all, delivered rng false seed nw B epoch ivs ps all) /\
    forall all, delivered rng false seed nw B epoch ivs ps all -> ~ In sample (concat all) /\ ~ NoDup (concat all).
Proof.
  exists (map (fun r => torchrun 2 r (Some 2)) (seq 0 2)), (fun _ n => seq 0 n), 42, 1, 1, 1, two_chunks, (1, 3).
  assert (Hrng : rng_ok (fun _ n => seq 0 n)) by (intros k n; apply Permutation_refl).
  split; [reflexivity|]. split; [exact Hrng|]. split; [vm_compute; auto|].
  destruct (assign_samples_nodes (fun _ n => seq 0 n) false 2 1 42 1 1 1 two_chunks Hrng) as (a & Ha & Haok & _); try lia.
  assert (Ea : a = ([[0]; [1]], [[Iv 0 0 2 2]; [Iv 2 2 4 4]])) by (vm_compute in Ha; injection Ha as <-; reflexivity).
  assert (Hpart : forall r, exists s, delivers (fun _ n => seq 0 n) false 42 1 1 1 two_chunks (torchrun 2 r (Some 2)) 0 s /\ Permutation s [(0, 0); (0, 1)]).
  { intros r. exact (delivers_ok _ false 42 1 1 1 two_chunks (torchrun 2 r (Some 2)) 0 (Env 2 0 1) a (2 * 1) ([0], [Iv 0 0 2 2]) Hrng eq_refl Ha Haok ltac:(rewrite Ea; reflexivity)). }
  destruct (delivered_one (fun _ n => seq 0 n) false 42 1 1 two_chunks (map (fun r => torchrun 2 r (Some 2)) (seq 0 2)) [[(0, 0); (0, 1)]; [(0, 0); (0, 1)]]) as [Hex Hall].
  { constructor; [apply Hpart|constructor; [apply Hpart|constructor]]. }
  split; [exact Hex|]. intros all H. apply Hall in H. split; intros N.
  - apply (Permutation_in _ H) in N. vm_compute in N. destruct N as [N|[N|[N|[N|[]]]]]; discriminate.
  - apply (Permutation_NoDup H) in N. vm_compute in N. inversion N as [|? ? M _]; subst. apply M. cbn; auto.
Qed.
Print Assumptions C181_torchrun_refuted.

(** The processes of a group on machines with different numbers of GPUs: they find different numbers of nodes and shuffle differently. *)
Definition mixed_job : list process := map (fun rg => Process (Some (3, fst rg)) (Some (snd rg)) (fun _ => None)) [(0, 2); (1, 2); (2, 1)].
Definition second_rng : rng_t := fun key n => if last key 0 =? 2 then rev (seq 0 n) else seq 0 n.
Theorem C181_unequal_gpus_refuted :
  exists ps rng seed nw B epoch ivs, joined ps /\ rng_ok rng /\
    map detect ps = [Ok (Env 3 0 1); Ok (Env 3 1 1); Ok (Env 3 2 3)] /\
    (exists all, delivered rng true seed nw B epoch ivs ps all) /\
    exists sample, In sample (dataset_samples (seq 0 (List.length ivs)) ivs) /\
      forall all, delivered rng true seed nw B epoch ivs ps all -> ~ In sample (concat all) /\ ~ NoDup (concat all).
Proof.
  set (ivs := [Iv 0 0 2 2; Iv 2 2 4 4; Iv 4 4 6 6]).
  exists mixed_job, second_rng, 42, 1, 1, 2, ivs.
  assert (Hrng : rng_ok second_rng). { intros k n. unfold second_rng. destruct (last k 0 =? 2); [apply Permutation_sym, Permutation_rev|apply Permutation_refl]. }
  split.
  { intros r p H. destruct r as [|[|[|r]]]; cbn in H; try (destruct r; discriminate); injection H as <-; (split; [reflexivity|]);
      unfold no_overrule; repeat (apply Forall_cons; [reflexivity|]); apply Forall_nil. }
  split; [exact Hrng|]. split; [vm_compute; reflexivity|].
  assert (Aok1 : assignment_ok 3 ([[2]; [1]; [0]], [[Iv 4 4 6 6]; [Iv 2 2 4 4]; [Iv 0 0 2 2]])).
  { destruct (assign_samples_nodes second_rng true 3 1 42 1 1 2 ivs Hrng) as (a & Ha & Haok & _); try lia.
    assert (Ea : a = ([[2]; [1]; [0]], [[Iv 4 4 6 6]; [Iv 2 2 4 4]; [Iv 0 0 2 2]])) by (vm_compute in Ha; injection Ha as <-; reflexivity).
    rewrite Ea in Haok. exact Haok. }
  assert (Aok3 : assignment_ok 3 ([[0]; [1]; [2]], [[Iv 0 0 2 2]; [Iv 2 2 4 4]; [Iv 4 4 6 6]])).
  { destruct (assign_samples_nodes second_rng true 3 1 42 1 1 1 ivs Hrng) as (a & Ha & Haok & _); try lia.
    assert (Ea : a = ([[0]; [1]; [2]], [[Iv 0 0 2 2]; [Iv 2 2 4 4]; [Iv 4 4 6 6]])) by (vm_compute in Ha; injection Ha as <-; reflexivity).
    rewrite Ea in Haok. exact Haok. }
  destruct (delivered_one second_rng true 42 1 2 ivs mixed_job [[(2, 4); (2, 5)]; [(1, 2); (1, 3)]; [(2, 4); (2, 5)]]) as [Hex Hall].
  { constructor; [|constructor; [|constructor; [|constructor]]].
    - exact (delivers_ok second_rng true 42 1 1 2 ivs (Process (Some (3, 0)) (Some 2) (fun _ => None)) 0 (Env 3 0 1) _ 3 ([2], [Iv 4 4 6 6]) Hrng eq_refl ltac:(vm_compute; reflexivity) Aok1 eq_refl).
    - exact (delivers_ok second_rng true 42 1 1 2 ivs (Process (Some (3, 1)) (Some 2) (fun _ => None)) 0 (Env 3 1 1) _ 3 ([1], [Iv 2 2 4 4]) Hrng eq_refl ltac:(vm_compute; reflexivity) Aok1 eq_refl).
    - exact (delivers_ok second_rng true 42 1 1 2 ivs (Process (Some (3, 2)) (Some 1) (fun _ => None)) 0 (Env 3 2 3) _ 3 ([2], [Iv 4 4 6 6]) Hrng eq_refl ltac:(vm_compute; reflexivity) Aok3 eq_refl). }
  split; [exact Hex|]. exists (0, 0). split; [vm_compute; auto|]. intros all H. apply Hall in H. split; intros N.
  - apply (Permutation_in _ H) in N. vm_compute in N. destruct N as [N|[N|[N|[N|[N|[N|[]]]]]]]; discriminate.
  - apply (Permutation_NoDup H) in N. vm_compute in N. inversion N as [|? ? M _]; subst. apply M. cbn; auto.
Qed.
Print Assumptions C181_unequal_gpus_refuted.

(** C182: the shards of a job.  The dataloader workers of the processes of a training job, or of the workers of [map] and [optimize] on all nodes,
    get the numbers 0, 1, ... in order, and all know how many there are. *)
Definition shard_of (k : nat) (p : process) (i : nat) : res (nat * nat) :=
  bind (detect p) (fun e => Ok (shard_rank e (worker_env (Some (k, i))), num_shards e (worker_env (Some (k, i))))).
Theorem C182_shards_of_training ps gpus k :
  joined ps -> Forall (fun p => r_gpus p = gpus) ps ->
  (forall g, gpus = Some g -> 1 <= g /\ (List.length ps < 2 * g \/ exists n, List.length ps = n * g)) ->
  (forall r p i, nth_error ps r = Some p -> i < k -> exists s, shard_of k p i = Ok (s, k * List.length ps) /\ s < k * List.length ps) /\
  (forall r p i r' p' i' s n n', nth_error ps r = Some p -> nth_error ps r' = Some p' -> i < k -> i' < k ->
     shard_of k p i = Ok (s, n) -> shard_of k p' i' = Ok (s, n') -> r = r' /\ i = i') /\
  (forall s, s < k * List.length ps -> exists r p i, nth_error ps r = Some p /\ i < k /\ shard_of k p i = Ok (s, k * List.length ps)).
Proof.
  intros Hj Hg Hok.
  assert (Hs : forall r p i, nth_error ps r = Some p -> shard_of k p i = Ok (r * k + i, k * List.length ps)).
  { intros r p i Hp. unfold shard_of. rewrite (detect_joined gpus ps r p Hj Hp); [reflexivity| |exact Hok]. rewrite Forall_forall in Hg. exact (Hg _ (nth_error_In _ _ Hp)). }
  split; [|split].
  - intros r p i Hp Hi. exists (r * k + i). split; [exact (Hs _ _ _ Hp)|].
    assert (r < List.length ps) by (apply nth_error_Some; congruence). nia.
  - intros r p i r' p' i' s n n' Hp Hp' Hi Hi' E E'. rewrite (Hs _ _ _ Hp) in E. rewrite (Hs _ _ _ Hp') in E'. injection E as <- _. injection E' as E' _.
    apply (shard_inj k); lia.
  - intros s Hlt. assert (Hk : k <> 0) by (intros ->; lia). assert (Hr : s / k < List.length ps) by (apply Nat.div_lt_upper_bound; lia).
    destruct (nth_error ps (s / k)) as [p|] eqn:Ep; [|apply nth_error_None in Ep; lia].
    exists (s / k), p, (s mod k). split; [exact Ep|]. split; [apply Nat.mod_upper_bound; exact Hk|]. rewrite (Hs _ _ _ Ep). do 2 f_equal.
    rewrite Nat.mul_comm. symmetry. apply Nat.div_mod; exact Hk.
Qed.
Print Assumptions C182_shards_of_training.

(** Outside of dataloader workers a process is one shard. *)
Theorem C182_main_process ps gpus r p :
  joined ps -> Forall (fun q => r_gpus q = gpus) ps ->
  (forall g, gpus = Some g -> 1 <= g /\ (List.length ps < 2 * g \/ exists n, List.length ps = n * g)) ->
  nth_error ps r = Some p ->
  exists e, detect p = Ok e /\ shard_rank e (worker_env None) = r /\ num_shards e (worker_env None) = List.length ps.
Proof.
  intros Hj Hg Hok Hp. exists (Env (List.length ps) r (found_nodes gpus (List.length ps))). split.
  - apply detect_joined; auto. rewrite Forall_forall in Hg. exact (Hg _ (nth_error_In _ _ Hp)).
  - unfold shard_rank, num_shards. cbn. lia.
Qed.
Print Assumptions C182_main_process.

(** [parent node]: the process that called [map] or [optimize] on this node. *)
Theorem C182_shards_of_optimize parent nodes nw k :
  (forall node, r_vars (parent node) "DATA_OPTIMIZER_NUM_NODES"%string = Some nodes \/ (nodes = 1 /\ r_vars (parent node) "DATA_OPTIMIZER_NUM_NODES"%string = None)) ->
  (forall node w i, node < nodes -> w < nw -> i < k ->
     exists s, shard_of k (optimizer_worker (parent node) nw node w) i = Ok (s, k * (nw * nodes)) /\ s < k * (nw * nodes)) /\
  (forall node w i node' w' i' s n n', w < nw -> w' < nw -> i < k -> i' < k ->
     shard_of k (optimizer_worker (parent node) nw node w) i = Ok (s, n) ->
     shard_of k (optimizer_worker (parent node') nw node' w') i' = Ok (s, n') -> node = node' /\ w = w' /\ i = i') /\
  (forall s, s < k * (nw * nodes) -> exists node w i, node < nodes /\ w < nw /\ i < k /\
     shard_of k (optimizer_worker (parent node) nw node w) i = Ok (s, k * (nw * nodes))).
Proof.
  intros Hn.
  assert (Hs : forall node w i, shard_of k (optimizer_worker (parent node) nw node w) i = Ok ((node * nw + w) * k + i, k * (nw * nodes))).
  { intros node w i. unfold shard_of, detect, optimizer_worker, getenv. cbn [r_vars String.eqb Ascii.eqb Bool.eqb bind].
    destruct (Hn node) as [E|[-> E]]; rewrite E; reflexivity. }
  split; [|split].
  - intros node w i H1 H2 H3. exists ((node * nw + w) * k + i). split; [apply Hs|].
    assert (node * nw + w < nw * nodes) by nia. nia.
  - intros node w i node' w' i' s n n' H1 H2 H3 H4 E E'. rewrite Hs in E, E'. injection E as <- _. injection E' as E' _.
    destruct (shard_inj k _ i' _ i H4 H3 E') as [E1 ->]. destruct (shard_inj nw node' w' node w H2 H1 E1) as [-> ->]. auto.
  - intros s Hlt. assert (Hk : k <> 0) by (intros ->; lia). assert (Hw : nw <> 0) by (intros ->; lia).
    assert (Hr : s / k < nw * nodes) by (apply Nat.div_lt_upper_bound; lia).
    exists (s / k / nw), ((s / k) mod nw), (s mod k).
    split; [apply Nat.div_lt_upper_bound; lia|]. split; [apply Nat.mod_upper_bound; exact Hw|]. split; [apply Nat.mod_upper_bound; exact Hk|].
    rewrite Hs. do 2 f_equal. rewrite (Nat.mul_comm (s / k / nw) nw), <- (Nat.div_mod (s / k) nw Hw). rewrite Nat.mul_comm. symmetry. apply Nat.div_mod; exact Hk.
Qed.
Print Assumptions C182_shards_of_optimize.

Definition node_vars (nodes : nat) : process := Process (Some (7, 3)) (Some 1) (fun n => if String.eqb n "DATA_OPTIMIZER_NUM_NODES" then Some nodes else if String.eqb n "WORLD_SIZE" then Some 9 else None).
Example C182_case :
  flat_map (fun p => map (shard_of 2 p) (seq 0 2)) (gpu_job 4 2) = map (fun s => Ok (s, 8)) (seq 0 8) /\
  flat_map (fun node => flat_map (fun w => map (shard_of 2 (optimizer_worker (node_vars 2) 3 node w)) (seq 0 2)) (seq 0 3)) (seq 0 2) =
  map (fun s => Ok (s, 12)) (seq 0 12) /\
  shard_of 1 (optimizer_worker (Process None None (fun _ => None)) 3 0 2) 0 = Ok (2, 3).
Proof. repeat (apply conj; [vm_compute; reflexivity|]). vm_compute; reflexivity. Qed.

(** C183: the number of nodes that a process finds.  It is right when every machine runs one process for each of its GPUs, and all processes
    see all the GPUs of their machine, or when one machine runs at most one process for each GPU, or without GPUs on one machine. *)
Theorem C183_nodes_partial W r p :
  r_group p = Some (W, r) -> no_overrule p ->
  (forall nodes g, r_gpus p = Some g -> 1 <= g -> 1 <= nodes -> W = nodes * g -> detect p = Ok (Env W r nodes)) /\
  (forall g, r_gpus p = Some g -> 1 <= W -> W <= g -> detect p = Ok (Env W r 1)) /\
  (r_gpus p = None -> detect p = Ok (Env W r 1)).
Proof.
  intros Hg Hno. rewrite (no_overrule_detect _ Hno). unfold from_group. rewrite Hg. split; [|split].
  - intros nodes g E H1 H2 ->. rewrite E. fold (found_nodes (Some g) (nodes * g)). rewrite found_exact by lia. rewrite Nat.mod_mul by lia.
    cbn [Nat.eqb negb]. rewrite andb_false_r. reflexivity.
  - intros g E H1 H2. rewrite E. fold (found_nodes (Some g) W). rewrite found_one by lia. reflexivity.
  - intros E. rewrite E. reflexivity.
Qed.
Print Assumptions C183_nodes_partial.

(** A job of several machines whose number of processes is not a multiple of the number of GPUs is refused. *)
Theorem C183_uneven W r p g :
  r_group p = Some (W, r) -> no_overrule p -> r_gpus p = Some g -> 1 <= g -> 2 * g <= W -> W mod g <> 0 -> detect p = Err RuntimeError.
Proof.
  intros Hg Hno E H1 H2 H3. rewrite (no_overrule_detect _ Hno). unfold from_group. rewrite Hg, E.
  assert (H : 2 <= W / g) by (apply Nat.div_le_lower_bound; lia).
  replace (1 <=? W / g) with true by (symmetry; apply Nat.leb_le; lia). replace (1 <? W / g) with true by (symmetry; apply Nat.ltb_lt; lia).
  replace (W mod g =? 0) with false by (symmetry; apply Nat.eqb_neq; exact H3). reflexivity.
Qed.
Print Assumptions C183_uneven.

(** The workers of [map] and [optimize] know the number of nodes. *)
Theorem C183_optimize parent nodes nw node w :
  r_vars parent "DATA_OPTIMIZER_NUM_NODES"%string = Some nodes \/ (nodes = 1 /\ r_vars parent "DATA_OPTIMIZER_NUM_NODES"%string = None) ->
  exists e, detect (optimizer_worker parent nw node w) = Ok e /\ num_nodes e = nodes.
Proof.
  intros H. eexists. split; [reflexivity|]. cbn [num_nodes]. unfold optimizer_worker, getenv. cbn [r_vars String.eqb Ascii.eqb Bool.eqb].
  destruct H as [E|[-> E]]; rewrite E; reflexivity.
Qed.
Print Assumptions C183_optimize.

(** A value in NNODES overrules what is found; the group does not matter as long as it is consistent with the GPUs. *)
Theorem C183_nnodes p n e :
  r_vars p "DATA_OPTIMIZER_GLOBAL_RANK"%string = None -> r_vars p "NNODES"%string = Some n -> detect p = Ok e -> num_nodes e = n.
Proof.
  intros H1 H2. unfold detect. rewrite H1. destruct (from_group p) as [e0|]; [|discriminate]. cbn [bind]. unfold getenv. rewrite H2.
  intros H. injection H as <-. reflexivity.
Qed.
Print Assumptions C183_nnodes.

(** One machine, each process sees only its own GPU: as many nodes as processes are found, and in the second epoch of shuffled reading samples
    are read twice. *)
Definition own_gpu_job : list process := map (fun r => Process (Some (2, r)) (Some 1) (fun _ => None)) (seq 0 2).
Theorem C183_own_gpu_refuted :
  exists ps rng seed nw B epoch ivs, joined ps /\ Forall (fun p => r_gpus p = Some 1) ps /\ rng_ok rng /\
    map detect ps = [Ok (Env 2 0 2); Ok (Env 2 1 2)] /\
    exists a, (forall e, In (Ok e) (map detect ps) -> shuffle_assign rng true e seed false nw B epoch ivs = Ok a) /\
      ~ NoDup (flat_map worker_samples (workers a)).
Proof.
  exists own_gpu_job, (fun _ n => seq 0 n), 42, 1, 1, 2, [Iv 0 0 2 2; Iv 2 2 4 4; Iv 4 4 6 6].
  split; [exact (gpu_job_joined 2 1)|]. split; [repeat (apply Forall_cons; [reflexivity|]); apply Forall_nil|].
  split; [intros k n; apply Permutation_refl|]. split; [vm_compute; reflexivity|].
  eexists. split.
  { intros e H. change (map detect own_gpu_job) with [Ok (Env 2 0 2); Ok (Env 2 1 2)] in H. destruct H as [H|[H|[]]]; injection H as <-; vm_compute; reflexivity. }
  rewrite NoDup_nth_error. intros H. specialize (H 2 4). vm_compute in H. assert (E : 2 = 4) by (apply H; [lia|reflexivity]). discriminate E.
Qed.
Print Assumptions C183_own_gpu_refuted.

(** Two machines of 8 GPUs, of which 4 are used by the job on each: one node is found; six of eight on each: an error, although the numbers
    are consistent; two machines without GPUs: one node is found. *)
Theorem C183_machines_refuted :
  exists half most cpu, joined half /\ joined most /\ joined cpu /\
    List.length half = 2 * 4 /\ Forall (fun p => r_gpus p = Some 8) half /\ Forall (fun p => exists r, detect p = Ok (Env 8 r 1)) half /\
    List.length most = 3 * 6 /\ Forall (fun p => r_gpus p = Some 8) most /\ Forall (fun p => detect p = Err RuntimeError) most /\
    List.length cpu = 2 * 2 /\ Forall (fun p => r_gpus p = None) cpu /\ Forall (fun p => exists r, detect p = Ok (Env 4 r 1)) cpu.
Proof.
  exists (gpu_job 8 8), (gpu_job 18 8), (map (fun r => Process (Some (4, r)) None (fun _ => None)) (seq 0 4)).
  split; [apply gpu_job_joined|]. split; [apply gpu_job_joined|]. split.
  { intros r p H. destruct r as [|[|[|[|r]]]]; cbn in H; try (destruct r; discriminate); injection H as <-; (split; [reflexivity|]);
      unfold no_overrule; repeat (apply Forall_cons; [reflexivity|]); apply Forall_nil. }
  split; [reflexivity|]. split; [repeat (apply Forall_cons; [reflexivity|]); apply Forall_nil|].
  split; [repeat (apply Forall_cons; [eexists; vm_compute; reflexivity|]); apply Forall_nil|].
  split; [reflexivity|]. split; [repeat (apply Forall_cons; [reflexivity|]); apply Forall_nil|].
  split; [repeat (apply Forall_cons; [vm_compute; reflexivity|]); apply Forall_nil|].
  split; [reflexivity|]. split; [repeat (apply Forall_cons; [reflexivity|]); apply Forall_nil|].
  repeat (apply Forall_cons; [eexists; vm_compute; reflexivity|]); apply Forall_nil.
Qed.
Print Assumptions C183_machines_refuted.

Example C183_case :
  detect (Process (Some (8, 5)) (Some 4) (fun _ => None)) = Ok (Env 8 5 2) /\ no_overrule (Process (Some (8, 5)) (Some 4) (fun _ => None)) /\
  detect (Process (Some (8, 5)) (Some 1) (fun n => if String.eqb n "NNODES" then Some 2 else None)) = Ok (Env 8 5 2) /\
  detect (Process (Some (18, 5)) (Some 8) (fun n => if String.eqb n "NNODES" then Some 3 else None)) = Err RuntimeError.
Proof.
  split; [vm_compute; reflexivity|]. split; [unfold no_overrule; repeat (apply Forall_cons; [reflexivity|]); apply Forall_nil|].
  repeat (apply conj; [vm_compute; reflexivity|]). vm_compute; reflexivity.
Qed.
