(** Property theorems on deleting chunks that several workers read. *)
From Verif Require Import Base Assign_Model Assign_Spec Iter_Model Iter_Spec Iter_Proofs Loader_Order_Model Skip_Model Skip_Spec.
From Verif Require Import Skip_Proofs Skip_Proofs2 Skip_Proofs5 Skip_Proofs6.

(** C07, the table: for any assignment of [R] ranks with [nw] workers, non-empty
    intervals, and no worker reading a chunk twice, the computation returns and
    exactly one reader of every shared chunk is not in the do-not-delete list. *)
Theorem C07_table nw R B wc wi :
  1 <= nw -> 1 <= B -> length wc = R * nw -> length wi = R * nw ->
  (forall w cs ivs, nth_error wc w = Some cs -> nth_error wi w = Some ivs ->
     length cs = length ivs /\ Forall (fun iv => 1 <= iv_size iv) ivs) ->
  Forall (@NoDup nat) wc ->
  exists t, find_skip_deletion nw B wc wi = Ok t /\
    exactly_one_deletes wc (fun w c => exists ws, dget c t = Some ws /\ In w ws) /\
    exactly_one_deletes wc (fun w c => exists cs, dget w (invert_map t) = Some cs /\ In c cs).
Proof.
  intros H1 H2 H3 H4 H5 H6.
  destruct (find_skip_ok nw R B wc wi H1 H2 (conj H3 (conj H4 H5)) H6) as (t & E & Hn & He).
  exists t. split; [exact E|]. split; [exact He|].
  destruct He as [Ha Hb]. split.
  - intros c Hc. destruct (Ha c Hc) as (w0 & A1 & A2). exists w0. split; [exact A1|].
    intros w Hw. rewrite <- (A2 w Hw). apply (invert_listed t w c Hn).
  - intros w c Hl. apply Hb. apply (invert_listed t w c Hn). exact Hl.
Qed.
Print Assumptions C07_table.

(** C07, end to end for the workers of a dataset on one node. *)
Theorem C07_exactly_one_deletes rng shuffle W seed dl nw B epoch ivs a :
  rng_ok rng -> 1 <= W -> 1 <= nw -> 1 <= B ->
  (forall r, shuffle_assign rng shuffle (Env W r 1) seed dl nw B epoch ivs = Ok a) ->
  exists skips, length skips = W * nw /\
    (forall w l, nth_error skips w = Some l ->
       worker_skip (Env W (w / nw) 1) nw (w mod nw) B a = Ok l) /\
    exactly_one_deletes (fst a) (fun w c => exists l, nth_error skips w = Some l /\ In c l).
Proof. exact (one_node_skip rng shuffle W seed dl nw B epoch ivs a). Qed.
Print Assumptions C07_exactly_one_deletes.

Definition ex_skip_ivs := [Iv 0 0 5 5; Iv 5 5 12 12; Iv 12 12 15 15].
Example C07_case : exists a,
  (forall r, shuffle_assign (fun _ n => rev (seq 0 n)) true (Env 2 r 1) 3 false 2 2 1 ex_skip_ivs = Ok a) /\
  fst a = [[2; 1]; [1]; [1]; [0]] /\
  map (fun w => worker_skip (Env 2 (w / 2) 1) 2 (w mod 2) 2 a) [0; 1; 2; 3] = [Ok []; Ok [1]; Ok [1]; Ok []].
Proof. eexists; split; [intros r; vm_compute; reflexivity|]. split; vm_compute; reflexivity. Qed.

(** C57 (violated): the reader that is allowed to delete is not always the one
    that is served from the chunk last.  One rank, two workers, batch size 4:
    chunk 4 is last read by worker 1 (its second batch is the last of the
    epoch), but worker 0 is the one allowed to delete it. *)
Theorem C57_deleter_reads_last_refuted :
  exists nw B ivs a c w0,
    no_shuffle_assign (Env 1 0 1) false nw B ivs = Ok a /\
    reads (fst a) w0 c /\
    worker_skip (Env 1 0 1) nw w0 B a = Ok [] /\
    (forall w, reads (fst a) w c -> w <> w0 -> exists l, worker_skip (Env 1 0 1) nw w B a = Ok l /\ In c l) /\
    let streams := map (stream (shuffle_call (fun _ n => seq 0 n) false 0) 1) (rank_workers nw 0 a) in
    exists before w1 b,
      fst (serve (tasks nw 0 false 4) (map (pieces B) streams)) = before ++ [(w1, b)] /\
      In c (map fst b) /\ w1 <> w0.
Proof.
  exists 2, 4, [Iv 0 0 1 1; Iv 1 1 2 2; Iv 2 2 3 3; Iv 3 3 4 4; Iv 4 4 16 16]. eexists. exists 4, 0.
  split; [vm_compute; reflexivity|]. split; [eexists; split; [reflexivity|cbn; tauto]|].
  split; [vm_compute; reflexivity|]. split.
  - intros w (l & Hl & Hin) Hne. destruct w as [|[|w]]; [congruence| |destruct w; discriminate].
    exists [4]. split; [vm_compute; reflexivity|left; reflexivity].
  - cbn zeta. eexists [_; _; _], 1, _. split; [vm_compute; reflexivity|]. split; [cbn; tauto|discriminate].
Qed.
Print Assumptions C57_deleter_reads_last_refuted.

(** C57, where it holds: if no chunk is smaller than a batch, and either the
    incomplete last batches are dropped or there is a single rank, then of the
    workers of a rank that alone reads a shared chunk, the one that is not told to
    keep the chunk is the one that delivers the last batch with a sample of it,
    whatever the random generator and however many batches are asked for (as long
    as they are all of them).  Missing: smaller chunks (where it fails, see above)
    and chunks that are read by several ranks, which do not wait for each other. *)
Theorem C57_deleter_reads_last_partial rng shuffle W seed dl nw B epoch ivs a c r :
  rng_ok rng -> 1 <= W -> 1 <= nw -> 1 <= B -> dl = true \/ W = 1 ->
  Forall (fun iv => B <= iv_re iv - iv_rs iv) ivs ->
  (forall r, shuffle_assign rng shuffle (Env W r 1) seed dl nw B epoch ivs = Ok a) ->
  shared_by_two (fst a) c -> (forall w, reads (fst a) w c -> w / nw = r) ->
  exists w0, w0 < nw /\
    (forall w, w < nw -> reads (fst a) (r * nw + w) c ->
       exists l, worker_skip (Env W r 1) nw w B a = Ok l /\ (In c l <-> w <> w0)) /\
    forall n, Forall (fun w => nw * length (pieces B (stream (shuffle_call rng shuffle seed) epoch w)) <= n) (rank_workers nw r a) ->
      last_served c (fst (serve (tasks nw 0 false n)
                            (map (pieces B) (map (stream (shuffle_call rng shuffle seed) epoch) (rank_workers nw r a))))) w0.
Proof. exact (skip_last rng shuffle W seed dl nw B epoch ivs a c r). Qed.
Print Assumptions C57_deleter_reads_last_partial.

(** Three workers, batches of 2, chunks of 5, 4 and 7 samples: chunk 1 is read by
    workers 0 and 1, and worker 0 may delete it; chunk 2 is read by workers 1 and 2. *)
Definition ex_last_ivs := [Iv 0 0 5 5; Iv 5 5 9 9; Iv 9 9 16 16].
Example C57_case : exists a,
  (forall r, shuffle_assign (fun _ n => rev (seq 0 n)) false (Env 1 r 1) 0 false 3 2 1 ex_last_ivs = Ok a) /\
  Forall (fun iv => 2 <= iv_re iv - iv_rs iv) ex_last_ivs /\
  fst a = [[0; 1]; [1; 2]; [2]] /\
  map (fun w => worker_skip (Env 1 0 1) 3 w 2 a) [0; 1; 2] = [Ok []; Ok [1]; Ok [2]] /\
  fst (serve (tasks 3 0 false 9) (map (pieces 2) (map (stream (shuffle_call (fun _ n => seq 0 n) false 0) 1) (rank_workers 3 0 a)))) =
    [(0, [(0, 0); (0, 1)]); (1, [(1, 6); (1, 7)]); (2, [(2, 12); (2, 13)]);
     (0, [(0, 2); (0, 3)]); (1, [(1, 8); (2, 9)]); (2, [(2, 14); (2, 15)]);
     (0, [(0, 4); (1, 5)]); (1, [(2, 10); (2, 11)])].
Proof.
  eexists. split; [intros r; vm_compute; reflexivity|]. split; [repeat constructor|].
  repeat (apply conj; [vm_compute; reflexivity|]). vm_compute; reflexivity.
Qed.

(** C58, where it holds: on the first node of a job, and on all nodes of a job
    with one process per node, all but one of the workers of the node that read a
    chunk are told to keep it.  Shown for the epochs without a second shuffle inside
    the nodes.  Missing: the other nodes of jobs with several processes per node,
    where it fails (below). *)
Theorem C58_every_node_protects_shared_chunks_partial rng shuffle ns nodes k seed dl nw B epoch ivs a :
  rng_ok rng -> 1 <= ns -> 1 <= nw -> 1 <= B -> k < nodes -> k = 0 \/ ns = 1 -> shuffle = false \/ epoch = 1 ->
  (forall r, shuffle_assign rng shuffle (Env (nodes * ns) r nodes) seed dl nw B epoch ivs = Ok a) ->
  exists skips, length skips = ns * nw /\
    (forall w l, nth_error skips w = Some l ->
       worker_skip (Env (nodes * ns) (k * ns + w / nw) nodes) nw (w mod nw) B a = Ok l) /\
    exactly_one_deletes (firstn (ns * nw) (skipn (k * ns * nw) (fst a))) (fun w c => exists l, nth_error skips w = Some l /\ In c l).
Proof. exact (node_skip rng shuffle ns nodes k seed dl nw B epoch ivs a). Qed.
Print Assumptions C58_every_node_protects_shared_chunks_partial.

(** Two nodes with one process of two workers each: on the second node both workers
    read chunk 1, and the first of them is told to keep it. *)
Example C58_case : exists a,
  (forall r, shuffle_assign (fun _ n => seq 0 n) true (Env (2 * 1) r 2) 0 false 2 1 1 [Iv 0 0 4 4; Iv 4 4 8 8] = Ok a) /\
  firstn (1 * 2) (skipn (1 * 1 * 2) (fst a)) = [[1]; [1]] /\
  map (fun w => worker_skip (Env (2 * 1) (1 * 1 + w / 2) 2) 2 (w mod 2) 1 a) [0; 1] = [Ok [1]; Ok []].
Proof. eexists; split; [intros r; vm_compute; reflexivity|]. split; vm_compute; reflexivity. Qed.

(** How far it fails: with at least as many processes per node as there are nodes,
    nobody on any node but the first is ever told to keep a chunk. *)
Theorem C58_other_nodes_unprotected rng shuffle ns nodes k seed dl nw B epoch ivs a w j :
  1 <= nw -> 1 <= B -> 1 <= nodes -> nodes <= ns -> 1 <= k < nodes -> w < ns ->
  shuffle_assign rng shuffle (Env (nodes * ns) (k * ns + w) nodes) seed dl nw B epoch ivs = Ok a ->
  worker_skip (Env (nodes * ns) (k * ns + w) nodes) nw j B a = Ok [].
Proof.
  intros Hn HB Hd Hs Hk Hw Ha. pose proof (shuffle_assign_ok _ _ (Env (nodes * ns) (k * ns + w) nodes) _ _ _ _ _ _ _ ltac:(cbn; nia) Hn HB Ha) as [(L1 & L2 & _) _].
  cbn [world_size] in L1, L2. apply beyond_skip; try lia; nia.
Qed.
Print Assumptions C58_other_nodes_unprotected.

(** C58 (violated): on the second node of a job nobody is told to keep a chunk
    that both of the node's workers read. *)
Theorem C58_every_node_protects_shared_chunks_refuted :
  exists W nodes nw B ivs a c,
    no_shuffle_assign (Env W 0 nodes) false nw B ivs = Ok a /\
    (forall r, 2 <= r < 4 -> r / (W / nodes) = 1 /\ reads (fst a) r c /\
               worker_skip (Env W r nodes) nw 0 B a = Ok []).
Proof.
  exists 4, 2, 1, 1, [Iv 0 0 4 4; Iv 4 4 8 8]. eexists. exists 1.
  split; [vm_compute; reflexivity|]. intros r Hr.
  assert (E : r = 2 \/ r = 3) by lia. destruct E as [-> | ->];
    (split; [reflexivity|split; [eexists; split; [reflexivity|cbn; tauto]|vm_compute; reflexivity]]).
Qed.
Print Assumptions C58_every_node_protects_shared_chunks_refuted.
