(** The cache batch sampler: the properties. *)
From Verif Require Import Base Assign_Model Assign_Spec Shuffle_Proofs Sampler_Model Sampler_Spec Sampler_Proofs Sampler_Proofs2.

(** C28: while the cache is being filled, all replicas together get every index exactly
    once; what a dataloader worker receives is an increasing run of consecutive
    indexes, in full batches except for its last one. *)
Theorem C28_filling_visits_every_index_once cp sp drop_last shuffle n replicas nw b :
  1 <= replicas -> replicas <= n -> 1 <= nw -> 1 <= b ->
  exists out,
    (forall rank, rank < replicas ->
       sampler_iter cp sp drop_last shuffle n replicas rank nw b None = Ok (map (map Plain) (out rank))) /\
    Permutation (concat (flat_map out (seq 0 replicas))) (seq 0 n) /\
    (forall rank w, rank < replicas -> w < nw ->
       (exists start len, concat (received nw w (out rank)) = seq start len) /\ full_but_last b (received nw w (out rank))).
Proof.
  intros Hr Hn Hw Hb. cbn [sampler_iter]. destruct (Nat.eqb_spec replicas 1) as [->|_].
  - destruct (non_distributed_ok n nw b Hn Hw Hb) as (r & E & P & F). exists (fun _ => r). split; [|split].
    + intros rank _. rewrite E. reflexivity.
    + cbn [seq flat_map]. rewrite app_nil_r. exact P.
    + intros rank w _ Hlt. apply F. exact Hlt.
  - destruct (distributed_ok n replicas nw b Hr Hn Hw Hb) as (out & E & P & F). exists out. split; [|split; assumption].
    intros rank Hlt. rewrite E by exact Hlt. reflexivity.
Qed.
Print Assumptions C28_filling_visits_every_index_once.

Example C28_case : forall cp sp,
  sampler_iter cp sp false false 11 2 1 2 2 None = Ok (map (map Plain) [[5; 6]; [7; 8]; []; [9; 10]]) /\
  sampler_iter cp sp false false 11 2 0 2 2 None = Ok (map (map Plain) [[0; 1]; [2; 3]; []; [4]]).
Proof. intros; split; reflexivity. Qed.

(** C28: with fewer samples than replicas a replica without samples raises IndexError. *)
Theorem C28_empty_replica cp sp drop_last shuffle n replicas rank nw b :
  2 <= replicas -> n < replicas -> rank < replicas - 1 -> 1 <= nw -> 1 <= b ->
  sampler_iter cp sp drop_last shuffle n replicas rank nw b None = Err IndexError.
Proof.
  intros Hr Hn Hk Hw Hb. cbn [sampler_iter]. replace (replicas =? 1) with false by lia.
  unfold iter_distributed. rewrite (Nat.div_small n replicas) by exact Hn. rewrite (Nat.div_small n (replicas * nw)) by nia.
  replace (rank =? replicas - 1) with false by lia. rewrite !Nat.mul_0_r. cbn [Nat.sub skipn firstn].
  replace (replicas <=? rank) with false by lia.
  assert (C : concat (worker_slices nw 0 (@nil nat)) = []) by (apply worker_slices_concat; [exact Hw|rewrite Nat.mul_0_r; cbn; lia]).
  rewrite sum_lengths_concat, C. cbn [length Nat.eqb negb]. rewrite chunk_lists_ok by exact Hb. cbn [bind].
  assert (Z : sum (map (@length _) (map (pieces b) (worker_slices nw 0 (@nil nat)))) = 0).
  { induction (worker_slices nw 0 (@nil nat)) as [|s l IH]; [reflexivity|]. cbn in C. apply app_eq_nil in C. destruct C as [-> C].
    cbn [map sum]. rewrite pieces_nil. cbn [length]. apply IH. exact C. }
  unfold iter_per_workers. rewrite Z, Nat.mul_0_r. cbn [weave]. rewrite Z. reflexivity.
Qed.
Print Assumptions C28_empty_replica.

(** C29: once the cache is filled, the batches of all replicas hold every sample of every
    chunk exactly once, with its chunk, when the replicas draw the same permutation
    [cp] of the chunks; the permutations inside the chunks are arbitrary. *)
Theorem C29_reading_visits_every_sample_once_partial cp sp drop_last shuffle n replicas nw b (ivs : list (nat * nat)) :
  Permutation cp (seq 0 (length ivs)) -> (forall rank i n, Permutation (sp rank i n) (seq 0 n)) ->
  1 <= replicas -> replicas <= length ivs -> Forall (fun iv => fst iv < snd iv) ivs -> 1 <= nw -> 1 <= b ->
  exists out,
    (forall rank, rank < replicas ->
       sampler_iter cp (sp rank) drop_last shuffle n replicas rank nw b (Some ivs) = Ok (map (map Chunked) (out rank))) /\
    Permutation (map (fun s => (ci_index s, ci_chunk s)) (concat (flat_map out (seq 0 replicas)))) (all_samples ivs).
Proof.
  intros Hcp Hsp Hr Hl Hiv Hw Hb.
  destruct (chunks_all_ok cp sp replicas nw b ivs Hcp Hsp Hr Hl Hiv Hw Hb) as (out & E & P).
  exists out. split; [|exact P]. intros rank Hlt. cbn [sampler_iter]. specialize (E rank Hlt).
  destruct (Nat.eqb_spec replicas 1) as [->|_]; [|rewrite E; reflexivity].
  assert (rank = 0) as -> by lia. rewrite non_distributed_is_one_replica, E. reflexivity.
Qed.
Print Assumptions C29_reading_visits_every_sample_once_partial.

Example C29_case :
  let rp := fun i n => rev (seq 0 n) in
  let s i c a := Chunked {| ci_index := i; ci_chunk := c; ci_chunks := a |} in
  sampler_iter [2; 0; 1] rp false true 7 1 0 2 2 (Some [(0, 3); (3, 5); (5, 7)]) =
    Ok [[s 6 2 (Some [2; 1]); s 5 2 None]; [s 2 0 (Some [0]); s 1 0 None]; [s 4 1 None; s 3 1 None]; [s 0 0 None]].
Proof. reflexivity. Qed.

(** C29: nothing makes the replicas draw the same permutation (sampler.py 178 uses the
    unseeded global generator); with different ones a sample is missed and another is
    delivered twice. *)
Theorem C29_reading_distributed_refuted :
  exists cp0 cp1 ivs r0 r1,
    Permutation cp0 (seq 0 (length ivs)) /\ Permutation cp1 (seq 0 (length ivs)) /\
    sampler_iter cp0 (fun _ n => seq 0 n) false true 2 2 0 1 1 (Some ivs) = Ok (map (map Chunked) r0) /\
    sampler_iter cp1 (fun _ n => seq 0 n) false true 2 2 1 1 1 (Some ivs) = Ok (map (map Chunked) r1) /\
    all_samples ivs = [(0, 0); (1, 1)] /\
    map (fun s => (ci_index s, ci_chunk s)) (concat (r0 ++ r1)) = [(0, 0); (0, 0)].
Proof.
  exists [0; 1], [1; 0], [(0, 1); (1, 2)].
  exists [[{| ci_index := 0; ci_chunk := 0; ci_chunks := Some [0] |}]], [[{| ci_index := 0; ci_chunk := 0; ci_chunks := Some [0] |}]].
  split; [reflexivity|]. split; [apply perm_swap|]. repeat split; vm_compute; reflexivity.
Qed.
Print Assumptions C29_reading_distributed_refuted.

(** C65: the first sample a dataloader worker receives, and no other, announces a list of chunks;
    the worker's samples come from exactly these chunks, one chunk after the other in
    the announced order, all samples of each; and batches are full except for the
    worker's last. *)
Theorem C65_first_sample_announces_the_chunks cp sp drop_last shuffle n replicas rank nw b (ivs : list (nat * nat)) :
  Permutation cp (seq 0 (length ivs)) -> (forall i n, Permutation (sp i n) (seq 0 n)) ->
  rank < replicas -> replicas <= length ivs -> Forall (fun iv => fst iv < snd iv) ivs -> 1 <= nw -> 1 <= b ->
  exists r, sampler_iter cp sp drop_last shuffle n replicas rank nw b (Some ivs) = Ok (map (map Chunked) r) /\
    forall w, w < nw -> exists mine,
      full_but_last b (received nw w r) /\
      match concat (received nw w r) with
      | [] => mine = []
      | s :: rest => ci_chunks s = Some mine /\ Forall (fun x => ci_chunks x = None) rest
      end /\
      map ci_chunk (concat (received nw w r)) =
        flat_map (fun c => repeat c (match nth_error ivs c with Some iv => snd iv - fst iv | None => 0 end)) mine.
Proof.
  intros Hcp Hsp Hlt Hl Hiv Hw Hb.
  destruct (chunks_rank_ok cp sp replicas rank nw b ivs Hcp Hsp Hlt Hl Hiv Hw Hb) as (r & E & _ & F).
  exists r. split.
  - cbn [sampler_iter]. destruct (Nat.eqb_spec replicas 1) as [->|_]; [|rewrite E; reflexivity].
    assert (rank = 0) as -> by lia. rewrite non_distributed_is_one_replica, E. reflexivity.
  - intros w Hlw. destruct (F w Hlw) as (F1 & F2 & F3). exists (every nw w (every replicas rank cp)).
    split; [exact F1|]. split; [|exact F3].
    destruct (concat (received nw w r)) as [|s rest]; [|exact F2]. cbn [map] in F3.
    destruct (every nw w (every replicas rank cp)) as [|c q] eqn:Eq; [reflexivity|]. exfalso.
    cbn [flat_map] in F3. symmetry in F3. apply app_eq_nil in F3. destruct F3 as [F3 _].
    assert (Hc : In c cp) by (apply (every_In replicas cp c rank), (every_In nw _ c w); rewrite Eq; left; reflexivity).
    apply (Permutation_in _ Hcp) in Hc. apply in_seq in Hc.
    destruct (nth_error ivs c) as [iv|] eqn:Ei; [|apply nth_error_None in Ei; lia].
    apply nth_error_In in Ei. rewrite Forall_forall in Hiv. specialize (Hiv _ Ei).
    apply (f_equal (@length _)) in F3. rewrite repeat_length in F3. cbn in F3. lia.
Qed.
Print Assumptions C65_first_sample_announces_the_chunks.
Example C65_case : let rp := fun i n => rev (seq 0 n) in
  let s i c a := {| ci_index := i; ci_chunk := c; ci_chunks := a |} in
  let r := [[s 6 2 (Some [2; 1]); s 5 2 None]; [s 2 0 (Some [0]); s 1 0 None]; [s 4 1 None; s 3 1 None]; [s 0 0 None]] in
  sampler_iter [2; 0; 1] rp false true 7 1 0 2 2 (Some [(0, 3); (3, 5); (5, 7)]) = Ok (map (map Chunked) r) /\
  map ci_chunk (concat (received 2 0 r)) = [2; 2; 1; 1] /\ map ci_chunk (concat (received 2 1 r)) = [0; 0; 0].
Proof. cbv zeta. split; [reflexivity|split; reflexivity]. Qed.

(** C64: with several workers and an unfilled cache, the constructor's self-check never
    fails and [len(sampler)] is the number of batches. *)
Theorem C64_length_partial cp sp drop_last shuffle n replicas rank nw b :
  rank < replicas -> replicas <= n -> 2 <= nw -> 1 <= b ->
  exists r, sampler_iter cp sp drop_last shuffle n replicas rank nw b None = Ok (map (map Plain) r) /\
    validated_length n replicas rank nw b false = Ok (length r).
Proof.
  intros Hk Hn Hw Hb. unfold validated_length. replace (1 <? nw) with true by lia. cbn [andb negb].
  cbn [sampler_iter].
  assert (G : exists r, (if replicas =? 1 then iter_non_distributed n nw b else iter_distributed n replicas rank nw b) = Ok r /\
    forall w, w < nw -> exists s k, concat (received nw w r) = seq s k).
  { destruct (Nat.eqb_spec replicas 1) as [->|_].
    - destruct (non_distributed_ok n nw b Hn ltac:(lia) Hb) as (r & E & _ & F). exists r. split; [exact E|].
      intros w Hlt. apply F. exact Hlt.
    - destruct (distributed_ok n replicas nw b ltac:(lia) Hn ltac:(lia) Hb) as (out & E & _ & F). exists (out rank).
      split; [apply E; exact Hk|]. intros w Hlt. apply F; assumption. }
  destruct G as (r & E & F). exists r. rewrite E. cbn [bind]. split; [reflexivity|].
  replace (forallb (fun w => (diff_sum (collected nw w r) =? 0)%Z) (seq 0 nw)) with true; [reflexivity|].
  symmetry. apply forallb_forall. intros w Hin. apply in_seq in Hin. rewrite collected_received by lia.
  destruct (F w ltac:(lia)) as (s & k & ->). rewrite diff_sum_seq. reflexivity.
Qed.
Print Assumptions C64_length_partial.

Example C64_case : validated_length 11 2 1 2 2 false = Ok 4.
Proof. reflexivity. Qed.

(** C64: with one worker (or none), and whenever the cache is already filled, the length is 0
    although there are batches. *)
Theorem C64_length_refuted : forall cp sp,
  (exists r, sampler_iter cp sp false false 4 1 0 1 2 None = Ok r /\ length r = 2 /\ validated_length 4 1 0 1 2 false = Ok 0) /\
  (exists r, sampler_iter [0] (fun _ n => seq 0 n) false false 4 1 0 2 2 (Some [(0, 4)]) = Ok r /\ length r = 3 /\
             validated_length 4 1 0 2 2 true = Ok 0).
Proof.
  intros cp sp. split.
  - eexists. split; [reflexivity|]. split; reflexivity.
  - eexists. split; [reflexivity|]. split; reflexivity.
Qed.
Print Assumptions C64_length_refuted.

(** C66: [drop_last=True] still delivers an incomplete batch and [shuffle=False] still
    delivers the samples of a filled cache in the drawn order. *)
Theorem C66_options_refuted :
  (forall cp sp, exists r, sampler_iter cp sp true false 3 1 0 1 2 None = Ok r /\ In [Plain 2] r) /\
  (exists s0 s1, sampler_iter [0] (fun _ n => rev (seq 0 n)) false false 2 1 0 1 2 (Some [(0, 2)]) = Ok [[Chunked s0; Chunked s1]] /\
     ci_index s0 = 1 /\ ci_index s1 = 0).
Proof.
  split.
  - intros cp sp. eexists. split; [reflexivity|]. cbn. tauto.
  - exists {| ci_index := 1; ci_chunk := 0; ci_chunks := Some [0] |}, {| ci_index := 0; ci_chunk := 0; ci_chunks := None |}.
    repeat split; reflexivity.
Qed.
Print Assumptions C66_options_refuted.

(** C66: the two options never change anything. *)
Theorem C66_options_ignored cp sp d1 s1 d2 s2 n replicas rank nw b cache :
  sampler_iter cp sp d1 s1 n replicas rank nw b cache = sampler_iter cp sp d2 s2 n replicas rank nw b cache.
Proof. reflexivity. Qed.
Print Assumptions C66_options_ignored.

Example C66_case : let rp := fun i n => rev (seq 0 n) in let s i c a := Chunked {| ci_index := i; ci_chunk := c; ci_chunks := a |} in
  sampler_iter [1; 0] rp false true 5 2 1 1 2 (Some [(0, 3); (3, 5)]) = Ok [[s 2 0 (Some [0]); s 1 0 None]; [s 0 0 None]] /\
  sampler_iter [1; 0] rp true false 5 2 1 1 2 (Some [(0, 3); (3, 5)]) = Ok [[s 2 0 (Some [0]); s 1 0 None]; [s 0 0 None]].
Proof. split; reflexivity. Qed.
