(** Reading: the properties. *)
From Verif Require Import Base Assign_Model Assign_Spec Assign_Proofs Shuffle_Proofs Iter_Model Iter_Spec Iter_Proofs.
From Verif Require Import Prefetch_Model Prefetch_Spec Prefetch_Proofs Prefetch_Proofs2 Read_Model Read_Spec Read_Proofs Read_Proofs2.

(** C73: an epoch of a worker on a remote dataset.  The samples are loaded in the order of the epoch;
    all chunks of the worker are asked for, in order; each is given back once, in order; each sample is
    loaded while its chunk is asked for and not given back; at the end the reader is as at the start. *)
Theorem C73_epoch_partial shuf env nw wrank epoch a n w closes : shuf_ok shuf -> assignment_ok n a ->
  nth_error (workers a) (global_rank env * nw + wrank) = Some w -> NoDup (fst w) ->
  exists s0 reqs s' es, iter_fresh env nw wrank epoch a = Ok s0 /\ Run shuf s0 reqs s' /\
    reads true closes rd_init reqs = Ok (rd_init, es) /\ loaded es = stream shuf epoch w /\
    asked es = fst w /\ given_back es = fst w /\ loads_held es.
Proof.
  intros Hs Ha Hw HN. destruct (epoch_events shuf env nw wrank epoch a n w closes Hs Ha Hw HN) as (s0 & reqs & s' & ps & H1 & H2 & H3 & H4 & H5 & H6).
  exists s0, reqs, s', (epoch_script closes ps). rewrite loaded_epoch, asked_epoch, (back_epoch _ _ H6), H5. repeat split; auto.
  apply epoch_held; [rewrite H5; exact HN|exact H6].
Qed.
Print Assumptions C73_epoch_partial.

(** C73: the chunks of one worker are distinct when the dataset's chunk order has no repetition. *)
Theorem C73_chunks_of_a_worker_distinct W nw B dl idx ivs a : NoDup idx -> length idx = length ivs ->
  assign W nw B dl idx ivs = Ok a -> Forall (@NoDup nat) (fst a).
Proof. apply assign_chunks_distinct. Qed.
Print Assumptions C73_chunks_of_a_worker_distinct.

(** C73: indexing a remote dataset, any indices in any order: each sample is loaded while its chunk
    is asked for and not given back, and only the chunk read last is still held. *)
Theorem C73_indexing closes accs : exists st es,
  reads true closes rd_init (map (fun ci => access (fst ci) (snd ci)) accs) = Ok (st, es) /\
  loaded es = accs /\ loads_held es /\
  forall c, count_occ Nat.eq_dec (asked es) c = count_occ Nat.eq_dec (given_back es) c + (if same_chunk c (rd_last st) then 1 else 0).
Proof.
  destruct (reads_access closes accs rd_init [] []) as (st & es & E & _ & L & C & H); [split; auto|reflexivity|].
  exists st, es. repeat split; auto.
Qed.
Print Assumptions C73_indexing.

Definition ex_reqs : list request :=
  [Req 5 2 (Some [2; 0]) false; Req 6 2 None false; Req 1 0 None false; Req 0 0 None true].
Example C73_case : reads true false rd_init ex_reqs =
    Ok (rd_init, [EStart; EReq [2; 0]; ELoad 2 5; ELoad 2 6; ELoad 0 1; EBack 2; ELoad 0 0; EBack 0; EStop; EClose 0]) /\
  reads true false rd_init [access 3 7; access 1 2; access 3 8] =
    Ok ({| rd_thread := true; rd_queued := false; rd_last := Some 3 |},
        [EStart; EReq [3]; ELoad 3 7; EReq [1]; ELoad 1 2; EBack 3; EReq [3]; ELoad 3 8; EBack 1]).
Proof. split; reflexivity. Qed.

(** C73: reading local uncompressed chunks loads the requested samples and involves no thread. *)
Theorem C73_local closes xs : exists st es, reads false closes rd_init xs = Ok (st, es) /\
  loaded es = map req_sample xs /\ Forall (fun e => match e with ELoad _ _ | EClose _ => True | _ => False end) es.
Proof. destruct (reads_local closes xs rd_init eq_refl) as (st & es & E & _ & L & F). exists st, es. auto. Qed.
Print Assumptions C73_local.

(** C73 is false when a dataset is indexed while it is being iterated: after indexing another chunk,
    samples of the current chunk are loaded although it was given back (and may have been deleted). *)
Theorem C73_indexing_while_iterating_refuted : exists reqs st es,
  reqs = [Req 0 0 (Some [0; 1]) false; access 5 9; Req 1 0 None false] /\
  reads true false rd_init reqs = Ok (st, es) /\ ~ loads_held es.
Proof.
  eexists; eexists; eexists. split; [reflexivity|]. split; [reflexivity|]. intros H.
  specialize (H [EStart; EReq [0; 1]; ELoad 0 0; ELoad 5 9; EBack 0] 0 1 _ eq_refl). cbn in H. lia.
Qed.
Print Assumptions C73_indexing_while_iterating_refuted.

(** C36, the reader and its thread together: in every interleaving from an empty cache, the reader of
    an epoch can do its next step once the thread has taken a bounded number of steps, if there is a
    cache limit and [max_pre_download] is at least 2. *)
Theorem C36_iterating_never_starves_partial cfg shuf env nw wrank epoch a n w closes es sched : c_max cfg <> 0 -> 2 <= c_pre cfg ->
  shuf_ok shuf -> assignment_ok n a -> nth_error (workers a) (global_rank env * nw + wrank) = Some w -> NoDup (fst w) ->
  epoch_of shuf env nw wrank epoch a closes es ->
  let '(evs, s) := xrun cfg (es, p_init) sched in
  exists n, n <= 3 * (length (p_del s) + 1) /\ forall m, n <= m -> fst (xstep cfg (evs, threads cfg s m) Reader) = tl evs.
Proof.
  intros HM HP Hs Ha Hw HN He. destruct (epoch_of_script _ _ _ _ _ _ _ _ _ _ Hs Ha Hw HN He) as (ps & -> & _ & HN' & F).
  pose proof (xrun_inv cfg _ HN' sched _ _ (x_init cfg closes ps HN' F)) as HX.
  destruct (xrun cfg (epoch_script closes ps, p_init) sched) as [evs s]. cbn [fst snd] in HX.
  exact (reader_advances cfg _ HN' evs s HM HP HX).
Qed.
Print Assumptions C36_iterating_never_starves_partial.

(** C36: under every fair schedule the epoch of a worker is read to its end. *)
Theorem C36_epoch_completes_partial cfg shuf env nw wrank epoch a n w closes es f : c_max cfg <> 0 -> 2 <= c_pre cfg ->
  shuf_ok shuf -> assignment_ok n a -> nth_error (workers a) (global_rank env * nw + wrank) = Some w -> NoDup (fst w) ->
  epoch_of shuf env nw wrank epoch a closes es -> fair f ->
  exists k, fst (xrun cfg (es, p_init) (upto f k)) = [].
Proof.
  intros HM HP Hs Ha Hw HN He Hf. destruct (epoch_of_script _ _ _ _ _ _ _ _ _ _ Hs Ha Hw HN He) as (ps & -> & _ & HN' & F).
  exact (completes cfg (map fst ps) HN' f HM HP Hf _ (epoch_script closes ps) 0 p_init (le_n _) (x_init cfg closes ps HN' F)).
Qed.
Print Assumptions C36_epoch_completes_partial.

Definition alternate (n : nat) : who := if n mod 3 =? 2 then Reader else Worker.
Lemma alternate_fair : fair alternate.
Proof.
  intros [] n; [exists (3 * n + 2)|exists (3 * n)]; (split; [lia|]); unfold alternate.
  - rewrite (Nat.mul_comm 3 n), Nat.add_comm, Nat.mod_add by lia. reflexivity.
  - rewrite (Nat.mul_comm 3 n), Nat.mod_mul by lia. reflexivity.
Qed.
Definition case_events : list ev := match reads true false rd_init ex_reqs with Ok (_, es) => es | Err _ => [] end.
Definition case_cfg (pre : nat) : pcfg := {| c_max := 2; c_pre := pre; c_when_processed := false; c_size := fun _ => 1 |}.
Example C36_epoch_case : let s := xrun (case_cfg 2) (case_events, p_init) (upto alternate 40) in
  fst s = [] /\ p_done (snd s) = [2; 0] /\ p_loc (snd s) = Exited.
Proof. vm_compute. auto. Qed.

(** C36 is false for [max_pre_download=1]: the first chunk is given back only after a sample of the
    second one was loaded, and the second one is downloaded only after the first one was given back. *)
Theorem C36_one_chunk_ahead_refuted : exists sched, forall more,
  let '(evs, s) := xrun (case_cfg 1) (case_events, p_init) (sched ++ more) in
  hd_error evs = Some (ELoad 0 1).
Proof.
  exists [Reader; Reader; Worker; Worker; Worker; Reader; Reader]. intros more. rewrite xrun_app.
  set (x := xrun (case_cfg 1) (case_events, p_init) [Reader; Reader; Worker; Worker; Worker; Reader; Reader]).
  assert (E : exists evs s, x = (evs, s) /\ hd_error evs = Some (ELoad 0 1) /\ p_present s = [2] /\ p_ctr s = 1%Z /\ p_del s = [] /\ p_force s = [] /\ (p_loc s = Top \/ p_loc s = AfterForce \/ p_loc s = AfterDownload)).
  { eexists; eexists. split; [reflexivity|]. vm_compute. auto 10. }
  clearbody x. destruct E as (evs & s & -> & H). revert evs s H. induction more as [|w more IH]; intros evs s (H1 & H2 & H3 & H4 & H5 & H6); [exact H1|].
  unfold xrun. cbn [fold_left]. fold (xrun (case_cfg 1) (xstep (case_cfg 1) (evs, s) w) more).
  destruct evs as [|e evs]; [discriminate|]. cbn [hd_error] in H1. injection H1 as ->. destruct w; cbn [xstep].
  - rewrite H2. cbn [memb existsb Nat.eqb orb]. apply IH. repeat split; auto.
  - apply IH. unfold tstep. destruct H6 as [->|[->| ->]].
    + rewrite H5. repeat split; auto.
    + rewrite H3. cbn. repeat split; auto.
    + cbn [case_cfg c_max Nat.eqb]. unfold maybe_delete. rewrite H4. cbn. repeat split; auto.
Qed.
Print Assumptions C36_one_chunk_ahead_refuted.

(** C72 for an iterating reader: the folder bounds hold in every interleaving of an epoch. *)
Theorem C72_epoch_cache_size_partial cfg smax shuf env nw wrank epoch a n w closes es sched : c_max cfg <> 0 -> (forall c, c_size cfg c <= smax) ->
  shuf_ok shuf -> assignment_ok n a -> nth_error (workers a) (global_rank env * nw + wrank) = Some w -> NoDup (fst w) ->
  epoch_of shuf env nw wrank epoch a closes es ->
  let size := folder_size cfg (p_present (snd (xrun cfg (es, p_init) sched))) in
  (c_when_processed cfg = false -> size <= c_max cfg + c_pre cfg * smax) /\
  (c_when_processed cfg = true -> c_pre cfg <= 2 -> size <= c_pre cfg * smax).
Proof.
  intros HM Hz Hs Ha Hw HN He. destruct (epoch_of_script _ _ _ _ _ _ _ _ _ _ Hs Ha Hw HN He) as (ps & -> & _ & HN' & F).
  pose proof (xrun_inv cfg _ HN' sched _ _ (x_init cfg closes ps HN' F)) as HX.
  destruct (x_acts _ _ _ _ HX) as (acts & W & E). cbv zeta. rewrite E. exact (folder_bound cfg smax Hz HM acts W).
Qed.
Print Assumptions C72_epoch_cache_size_partial.

(** The hypotheses are met: one worker with two chunks, each read backwards. *)
Example epoch_case : let shuf : shuf_t := fun l _ _ _ => rev l in
  let a := ([[2; 0]], [[Iv 5 5 7 7; Iv 0 0 2 2]]) in
  shuf_ok shuf /\ assignment_ok 1 a /\ nth_error (workers a) 0 = Some ([2; 0], [Iv 5 5 7 7; Iv 0 0 2 2]) /\
  epoch_of shuf (Env 1 0 1) 1 0 3 a false
    [EStart; EReq [2; 0]; ELoad 2 6; ELoad 2 5; ELoad 0 1; EBack 2; ELoad 0 0; EBack 0; EStop; EClose 0].
Proof.
  cbv zeta. split; [|split; [|split]].
  - intros l _ _ _. symmetry. apply Permutation_rev.
  - split; [vm_compute; repeat split; auto|]. repeat constructor.
  - reflexivity.
  - eexists; eexists; eexists; eexists. split; [reflexivity|]. split.
    + do 4 (eapply Run_yield; [cbv; reflexivity|]). apply Run_stop. cbv. reflexivity.
    + reflexivity.
Qed.
