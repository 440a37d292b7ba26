From Verif Require Import Base Dict Shuffle_Proofs Assign_Model Assign_Spec Assign_Proofs Config_Model Config_Spec Config_Proofs
  Iter_Model Iter_Spec Iter_Proofs Epoch_Proofs
  Format_Model Format_Proofs Codec_Model Codec_Spec Tree_Model Tree_Spec Tree_Proofs Sample_Model Sample_Spec Sample_Proofs
  Writer_Model Writer_Spec Encrypt_Model Encrypt_Spec Encrypt_Proofs Dataset_Model Dataset_Spec Dataset_Proofs Dataset_Proofs2
  Tokens_Model Tokens_Spec Tokens_Proofs.
Local Ltac Zify.zify_post_hook ::= idtac.

Section Reading.
Context (o : tokens) (k : tkind) (blocks : list (list token)).
Let ds := dataset_samples (seq 0 (length (t_ivs o))) (t_ivs o).
Context (Hpos : map snd ds = seq 0 (length blocks)).
Context (Hread : forall c i, In (c, i) ds -> exists b, read_block o c i = Ok (array k b) /\ nth_error blocks i = Some b).

Lemma get_block_ok i :
  get_block o (Z.of_nat i) = match nth_error blocks i with Some b => Ok (array k b) | None => Err ValueError end.
Proof.
  unfold get_block. rewrite get_chunk_index_spec. unfold at_index. replace (Z.of_nat i <? 0)%Z with false by (symmetry; apply Z.ltb_ge; lia). rewrite Nat2Z.id.
  assert (L : length ds = length blocks) by (apply (f_equal (@length nat)) in Hpos; rewrite map_length, seq_length in Hpos; exact Hpos).
  destruct (nth_error ds i) as [[c j]|] eqn:E.
  - assert (Ha : nth_error (addresses 0 (t_ivs o)) i = Some (j, c)) by (rewrite addresses_samples; exact (map_nth_error (fun s => (snd s, fst s)) i _ E)).
    rewrite Ha. cbn [bind fst snd].
    assert (J : j = i).
    { assert (E' : nth_error (map snd ds) i = Some j) by exact (map_nth_error snd i ds E). rewrite Hpos in E'.
      assert (i < length blocks) by (rewrite <- L; apply nth_error_Some; congruence). rewrite (nth_error_nth' _ 0) in E' by (rewrite seq_length; assumption).
      rewrite seq_nth in E' by assumption. injection E' as <-. reflexivity. }
    subst j. destruct (Hread c i (nth_error_In _ _ E)) as (b & -> & ->). reflexivity.
  - apply nth_error_None in E. assert (Ha : nth_error (addresses 0 (t_ivs o)) i = None) by (apply nth_error_None; rewrite addresses_samples, map_length; exact E).
    rewrite Ha. rewrite (proj2 (nth_error_None blocks i)) by lia. reflexivity.
Qed.
Lemma get_block_neg i : (i < 0)%Z -> get_block o i = Err ValueError.
Proof. intros H. unfold get_block. rewrite get_chunk_index_spec. unfold at_index. replace (i <? 0)%Z with true by (symmetry; apply Z.ltb_lt; exact H). reflexivity. Qed.

Lemma yielded_ok : forall reqs, incl (map req_sample reqs) ds ->
  exists bs, blocks_yielded o reqs = Ok (map (array k) bs) /\ at_positions blocks (map snd (map req_sample reqs)) bs.
Proof.
  induction reqs as [|r reqs IH]; intros H; [exists []; split; [reflexivity|constructor]|].
  destruct IH as (bs & E & P); [intros y Hy; apply H; right; exact Hy|]. destruct (Hread (rq_chunk r) (rq_index r)) as (b & E1 & E2); [apply H; left; reflexivity|].
  exists (b :: bs). split; [|constructor; [exact E2|exact P]]. unfold blocks_yielded. rewrite mapM_cons, E1. cbn [bind]. unfold blocks_yielded in E. rewrite E. reflexivity.
Qed.

Theorem epoch_blocks rng shuffle W seed nw B epoch : rng_ok rng -> 1 <= W -> 1 <= nw -> 1 <= B ->
  exists a parts,
    (forall r, shuffle_assign rng shuffle (Env W r 1) seed false nw B epoch (t_ivs o) = Ok a) /\
    length parts = W * nw /\
    (forall r i, r < W -> i < nw ->
       exists part reqs s0 s', nth_error parts (r * nw + i) = Some part /\
         iter_fresh (Env W r 1) nw i epoch a = Ok s0 /\ Run (shuffle_call rng shuffle seed) s0 reqs s' /\
         blocks_yielded o reqs = Ok (map (array k) part)) /\
    Permutation (concat parts) blocks /\ (shuffle = false -> concat parts = blocks).
Proof.
  intros Hrng HW Hnw HB.
  destruct (assign_samples rng shuffle W seed nw B epoch (t_ivs o) Hrng HW Hnw HB) as (a & Ha & Haok & Hperm & Hplain).
  fold ds in Hperm, Hplain.
  destruct (runs_streams (shuffle_call rng shuffle seed) W nw epoch 1 a (shuffle_call_ok rng shuffle seed Hrng) Haok Hnw)
    as (runs & Hl & Hruns & Hst).
  assert (Hall : Permutation (map req_sample (concat runs)) (flat_map worker_samples (workers a))).
  { rewrite concat_map, Hst, <- flat_map_concat_map. apply Permutation_flat_map_ext. intros w _. apply stream_perm, shuffle_call_ok, Hrng. }
  assert (Hin : incl (map req_sample (concat runs)) ds).
  { intros y Hy. eapply Permutation_in; [exact Hperm|]. eapply Permutation_in; [exact Hall|exact Hy]. }
  assert (Hparts : exists parts, length parts = length runs /\
     (forall n reqs, nth_error runs n = Some reqs -> exists part, nth_error parts n = Some part /\ blocks_yielded o reqs = Ok (map (array k) part)) /\
     at_positions blocks (map snd (map req_sample (concat runs))) (concat parts)).
  { clear Hl Hruns Hst Hall. induction runs as [|reqs runs IH].
    - exists []. split; [reflexivity|]. split; [|constructor]. intros [|n] reqs E; discriminate.
    - cbn [concat] in Hin. rewrite map_app in Hin.
      destruct IH as (parts & P1 & P2 & P3). { intros y Hy. apply Hin, in_or_app. right; exact Hy. }
      destruct (yielded_ok reqs) as (bs & R1 & R2).
      { intros y Hy. apply Hin, in_or_app. left; exact Hy. }
      exists (bs :: parts). split; [cbn; congruence|]. split.
      + intros [|n] q E; cbn [nth_error] in *; [injection E as <-|exact (P2 _ _ E)]. eauto.
      + cbn [concat]. rewrite !map_app. apply at_positions_app; assumption. }
  destruct Hparts as (parts & P1 & P2 & P3).
  exists a, parts. split; [intros r; rewrite shuffle_assign_env; exact Ha|].
  split; [congruence|]. split; [|split].
  - intros r i Hr Hi. destruct (Hruns r i Hr Hi) as (reqs & s0 & s' & H1 & H2 & H3).
    destruct (P2 _ _ H1) as (part & H4 & H5). exists part, reqs, s0, s'. auto.
  - destruct (at_positions_perm blocks _ (seq 0 (length blocks)) _ P3) as (q & Q1 & Q2).
    + rewrite <- Hpos. apply Permutation_map. transitivity (flat_map worker_samples (workers a)); assumption.
    + rewrite (at_positions_all blocks q Q1) in Q2. exact Q2.
  - intros ->. apply at_positions_all. rewrite <- Hpos, <- (Hplain eq_refl). replace (flat_map worker_samples (workers a)) with (map req_sample (concat runs)); [exact P3|].
    rewrite concat_map, Hst, <- flat_map_concat_map. clear. induction (workers a) as [|w l IH]; [reflexivity|].
    cbn [flat_map]. rewrite plain_stream, IH. reflexivity.
Qed.
End Reading.
