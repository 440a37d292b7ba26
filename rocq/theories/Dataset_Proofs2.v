From Verif Require Import Base Dict Assign_Model Assign_Spec Assign_Proofs Shuffle_Proofs Config_Model Config_Spec Config_Proofs
  Iter_Model Iter_Spec Iter_Proofs Epoch_Proofs
  Format_Model Format_Proofs Codec_Model Codec_Spec Tree_Model Tree_Spec Tree_Proofs Sample_Model Sample_Spec Sample_Proofs
  Writer_Model Writer_Spec Encrypt_Model Encrypt_Spec Encrypt_Proofs Dataset_Model Dataset_Spec Dataset_Proofs.
Local Ltac Zify.zify_post_hook ::= idtac.

Lemma runs_streams shuf W nw epoch nodes a :
  shuf_ok shuf -> assignment_ok (W * nw) a -> 1 <= nw ->
  exists runs, length runs = W * nw /\
    (forall r i, r < W -> i < nw ->
       exists reqs s0 s', nth_error runs (r * nw + i) = Some reqs /\
         iter_fresh (Env W r nodes) nw i epoch a = Ok s0 /\ Run shuf s0 reqs s') /\
    map (map req_sample) runs = map (stream shuf epoch) (workers a).
Proof.
  intros Hshuf Haok Hnw. assert (Hwl : length (workers a) = W * nw) by (apply workers_length, Haok).
  destruct (list_choice (fun k reqs => exists s0 s' w,
      iter_fresh (Env W (k / nw) nodes) nw (k mod nw) epoch a = Ok s0 /\ Run shuf s0 reqs s' /\
      nth_error (workers a) k = Some w /\ map req_sample reqs = stream shuf epoch w) (W * nw)) as (runs & Hl & Hruns).
  { intros k Hk. destruct (nth_error (workers a) k) as [w|] eqn:Ew; [|apply nth_error_None in Ew; lia].
    assert (Ek : k / nw * nw + k mod nw = k) by (rewrite Nat.mul_comm; symmetry; apply Nat.div_mod; lia).
    destruct (fresh_run shuf (Env W (k / nw) nodes) nw (k mod nw) epoch a _ w Hshuf Haok) as (s0 & reqs & s' & H1 & H2 & H3 & _).
    { cbn [global_rank]. rewrite Ek. exact Ew. }
    exists reqs, s0, s', w. auto. }
  exists runs. split; [exact Hl|]. split.
  - intros r i Hr Hi. destruct (nth_error runs (r * nw + i)) as [reqs|] eqn:E; [|apply nth_error_None in E; nia].
    destruct (Hruns _ _ E) as (s0 & s' & w & H1 & H2 & _).
    replace ((r * nw + i) / nw) with r in H1 by (apply (Nat.div_unique _ nw r i); lia).
    replace ((r * nw + i) mod nw) with i in H1 by (apply (Nat.mod_unique _ nw r i); lia).
    exists reqs, s0, s'. auto.
  - apply nth_error_ext. intros i. rewrite !nth_error_map.
    destruct (nth_error runs i) as [reqs|] eqn:Er.
    + destruct (Hruns _ _ Er) as (_ & _ & w & _ & _ & E1 & E2). rewrite E1. cbn [option_map]. f_equal; exact E2.
    + apply nth_error_None in Er. rewrite (proj2 (nth_error_None (workers a) i)) by lia. reflexivity.
Qed.

(** Without shuffling a worker yields its samples in order. *)
Lemma plain_stream rng seed epoch w :
  stream (shuffle_call rng false seed) epoch w = worker_samples w.
Proof.
  unfold stream, worker_samples, dataset_samples. generalize 0 at 1. generalize (length (fst w)) as n.
  induction (combine (fst w) (snd w)) as [|[c iv] l IH]; intros n k; [reflexivity|].
  cbn [chunk_order flat_map]. rewrite IH. reflexivity.
Qed.

Lemma at_positions_app {A} (l : list A) is js r q :
  at_positions l is r -> at_positions l js q -> at_positions l (is ++ js) (r ++ q).
Proof. intros H1 H2. apply Forall2_app; assumption. Qed.

Lemma at_positions_fun {A} (l : list A) is r q : at_positions l is r -> at_positions l is q -> r = q.
Proof.
  intros H; revert q; induction H as [|i x is r Hi _ IH]; intros q Hq; inversion Hq as [|? y ? q' Hy Hq']; subst; [reflexivity|].
  f_equal; [congruence|auto].
Qed.

Lemma at_positions_perm {A} (l : list A) is js r :
  at_positions l is r -> Permutation is js -> exists q, at_positions l js q /\ Permutation r q.
Proof.
  intros H P; revert r H; induction P as [|i is js P IH|i j is|is js ks P1 IH1 P2 IH2]; intros r H.
  - exists r. split; [exact H|reflexivity].
  - inversion H as [|? x ? r' Hx Hr]; subst. destruct (IH _ Hr) as (q & Q1 & Q2). exists (x :: q).
    split; [constructor; assumption|constructor; exact Q2].
  - inversion H as [|? x ? r' Hx Hr]; subst. inversion Hr as [|? y ? r'' Hy Hr']; subst.
    exists (y :: x :: r''). split; [constructor; [exact Hy|constructor; assumption]|constructor].
  - destruct (IH1 _ H) as (q & Q1 & Q2). destruct (IH2 _ Q1) as (q2 & Q3 & Q4). exists q2. split; [exact Q3|].
    transitivity q; assumption.
Qed.

Lemma shuffle_assign_env rng shuffle W r seed dl nw B epoch ivs :
  shuffle_assign rng shuffle (Env W r 1) seed dl nw B epoch ivs = shuffle_assign rng shuffle (Env W 0 1) seed dl nw B epoch ivs.
Proof. destruct shuffle; reflexivity. Qed.

Lemma assign_samples rng shuffle W seed nw B epoch ivs :
  rng_ok rng -> 1 <= W -> 1 <= nw -> 1 <= B ->
  exists a, shuffle_assign rng shuffle (Env W 0 1) seed false nw B epoch ivs = Ok a /\ assignment_ok (W * nw) a /\
    Permutation (flat_map worker_samples (workers a)) (dataset_samples (seq 0 (length ivs)) ivs) /\
    (shuffle = false -> flat_map worker_samples (workers a) = dataset_samples (seq 0 (length ivs)) ivs).
Proof.
  intros Hrng HW Hnw HB. destruct shuffle.
  - destruct (full_shuffle_first rng (Env W 0 1) seed false nw B epoch ivs Hrng (or_intror eq_refl)) as (p & Hp & Hfs).
    cbn [world_size] in Hfs.
    destruct (assign_no_drop W nw B p (map (fun i => nth i ivs dIv) p) HW Hnw HB) as (a & Ha & Hsh & Hsam & _).
    { rewrite map_length; reflexivity. }
    exists a. cbn [shuffle_assign]. split; [rewrite Hfs; exact Ha|]. split.
    + eapply assign_assignment_ok; eauto. rewrite map_length; reflexivity.
    + split; [|discriminate]. rewrite Hsam. apply dataset_samples_perm; exact Hp.
  - destruct (assign_no_drop W nw B (seq 0 (length ivs)) ivs HW Hnw HB) as (a & Ha & Hsh & Hsam & _); [apply seq_length|].
    exists a. split; [exact Ha|]. split; [eapply assign_assignment_ok; eauto; apply seq_length|].
    split; [rewrite Hsam; reflexivity|auto].
Qed.

(** What reading one sample at a time gives for an epoch and for random access; also used for datasets that
    were not written by one writer. *)
Definition reads (unpickle : bytes -> res leaf) (o : opened) (e : option cipher) (x : written) (ts : list (tree leaf)) : Prop :=
  map snd (dataset_samples (seq 0 (length (o_ivs o))) (o_ivs o)) = seq 0 (length ts) /\
  forall st c i, loader_ok e (o_disk o) (paths_of x) st -> In (c, i) (dataset_samples (seq 0 (length (o_ivs o))) (o_ivs o)) ->
    exists t st', read_sample unpickle o e st c i = Ok (t, st') /\ nth_error ts i = Some t /\ loader_ok e (o_disk o) (paths_of x) st'.

Lemma reads_epoch unpickle o e x ts rng shuffle W seed nw B epoch :
  reads unpickle o e x ts -> rng_ok rng -> 1 <= W -> 1 <= nw -> 1 <= B ->
  exists a parts,
    (forall r, shuffle_assign rng shuffle (Env W r 1) seed false nw B epoch (o_ivs o) = Ok a) /\
    length parts = W * nw /\
    (forall r i, r < W -> i < nw ->
       exists part reqs s0 s', nth_error parts (r * nw + i) = Some part /\
         iter_fresh (Env W r 1) nw i epoch a = Ok s0 /\ Run (shuffle_call rng shuffle seed) s0 reqs s' /\
         yielded unpickle o e reqs = Ok part) /\
    Permutation (concat parts) ts /\ (shuffle = false -> concat parts = ts).
Proof.
  intros [Hpos Hread] Hrng HW Hnw HB.
  set (ds := dataset_samples (seq 0 (length (o_ivs o))) (o_ivs o)) in *.
  destruct (assign_samples rng shuffle W seed nw B epoch (o_ivs o) Hrng HW Hnw HB) as (a & Ha & Haok & Hperm & Hplain).
  fold ds in Hperm, Hplain.
  destruct (runs_streams (shuffle_call rng shuffle seed) W nw epoch 1 a (shuffle_call_ok rng shuffle seed Hrng) Haok Hnw)
    as (runs & Hl & Hruns & Hst).
  assert (Hall : Permutation (map req_sample (concat runs)) (flat_map worker_samples (workers a))).
  { rewrite concat_map, Hst, <- flat_map_concat_map. apply Permutation_flat_map_ext. intros w _. apply stream_perm, shuffle_call_ok, Hrng. }
  assert (Hin : incl (map req_sample (concat runs)) ds).
  { intros y Hy. eapply Permutation_in; [exact Hperm|]. eapply Permutation_in; [exact Hall|exact Hy]. }
  assert (Hparts : exists parts, length parts = length runs /\
     (forall k reqs, nth_error runs k = Some reqs -> exists part, nth_error parts k = Some part /\ yielded unpickle o e reqs = Ok part) /\
     at_positions ts (map snd (map req_sample (concat runs))) (concat parts)).
  { clear Hl Hruns Hst Hall. induction runs as [|reqs runs IH].
    - exists []. split; [reflexivity|]. split; [|constructor]. intros [|k] reqs E; discriminate.
    - cbn [concat] in Hin. rewrite map_app in Hin.
      destruct IH as (parts & P1 & P2 & P3). { intros y Hy. apply Hin, in_or_app. right; exact Hy. }
      destruct (read_list_ok unpickle o e x ts Hread (map req_sample reqs) new_loader (loader_ok_new _ _ _)) as (r & st' & R1 & R2 & _).
      { intros y Hy. apply Hin, in_or_app. left; exact Hy. }
      exists (r :: parts). split; [cbn; congruence|]. split.
      + intros [|k] q E; cbn [nth_error] in *; [injection E as <-|exact (P2 _ _ E)].
        exists r. split; [reflexivity|]. unfold yielded. change (map (fun r => (rq_chunk r, rq_index r)) reqs) with (map req_sample reqs).
        rewrite R1. reflexivity.
      + cbn [concat]. rewrite !map_app. apply at_positions_app; assumption. }
  destruct Hparts as (parts & P1 & P2 & P3).
  exists a, parts. split; [intros r; rewrite shuffle_assign_env; exact Ha|].
  split; [congruence|]. split; [|split].
  - intros r i Hr Hi. destruct (Hruns r i Hr Hi) as (reqs & s0 & s' & H1 & H2 & H3).
    destruct (P2 _ _ H1) as (part & H4 & H5). exists part, reqs, s0, s'. auto.
  - destruct (at_positions_perm ts _ (seq 0 (length ts)) _ P3) as (q & Q1 & Q2).
    + rewrite <- Hpos. apply Permutation_map. transitivity (flat_map worker_samples (workers a)); assumption.
    + rewrite (at_positions_all ts q Q1) in Q2. exact Q2.
  - intros ->. apply at_positions_all. rewrite <- Hpos, <- (Hplain eq_refl). replace (flat_map worker_samples (workers a)) with (map req_sample (concat runs)); [exact P3|].
    rewrite concat_map, Hst, <- flat_map_concat_map. clear. induction (workers a) as [|w l IH]; [reflexivity|].
    cbn [flat_map]. rewrite plain_stream, IH. reflexivity.
Qed.

Lemma reads_access unpickle o e x ts :
  reads unpickle o e x ts ->
  (forall is, Forall (fun i => i < length ts) is ->
     exists r st, get_items unpickle o e new_loader (map Z.of_nat is) = Ok (r, st) /\ at_positions ts is r) /\
  (forall st i, (i < 0 \/ Z.of_nat (length ts) <= i)%Z -> get_item unpickle o e st i = Err ValueError).
Proof.
  intros [Hpos Hread]. split.
  - intros is His. destruct (get_items_ok unpickle o e x ts Hpos Hread is new_loader (loader_ok_new _ _ _) His) as (r & st & R1 & R2 & _).
    exists r, st. auto.
  - intros st i Hi. unfold get_item. rewrite get_chunk_index_spec. unfold at_index.
    destruct (Z.ltb_spec i 0); [reflexivity|]. replace (nth_error (addresses 0 (o_ivs o)) (Z.to_nat i)) with (@None (nat * nat)); [reflexivity|].
    symmetry. apply nth_error_None. rewrite addresses_samples, map_length.
    apply (f_equal (@length nat)) in Hpos. rewrite map_length, seq_length in Hpos. rewrite Hpos. lia.
Qed.

Section Written.
Context (isfile : list N -> bool) (pickle : leaf -> bytes) (unpickle : bytes -> res leaf).
Context (rw rr : nat -> bool) (Hpickle : forall x, unpickle (pickle x) = Ok x).

Theorem dataset_epoch cb cs compress decompress e ts x rng shuffle W seed nw B epoch :
  key_ok e -> codec_ok compress decompress -> storable_samples rw rr ts ->
  write_dataset isfile pickle rw cb cs compress e ts = Ok x -> small_chunks x ->
  rng_ok rng -> 1 <= W -> 1 <= nw -> 1 <= B ->
  exists o a parts, open_dataset rr decompress x = Ok o /\
    (forall r, shuffle_assign rng shuffle (Env W r 1) seed false nw B epoch (o_ivs o) = Ok a) /\
    length parts = W * nw /\
    (forall r i, r < W -> i < nw ->
       exists part reqs s0 s', nth_error parts (r * nw + i) = Some part /\
         iter_fresh (Env W r 1) nw i epoch a = Ok s0 /\ Run (shuffle_call rng shuffle seed) s0 reqs s' /\
         yielded unpickle o e reqs = Ok part) /\
    Permutation (concat parts) ts /\ (shuffle = false -> concat parts = ts).
Proof.
  intros Hk Hc Hts Hw Hsm Hrng HW Hnw HB.
  destruct (dataset_reads isfile pickle unpickle rw rr Hpickle cb cs compress decompress e ts x Hk Hc Hts Hw Hsm)
    as (o & Ho & _ & _ & Hpos & _ & Hread).
  destruct (reads_epoch unpickle o e x ts rng shuffle W seed nw B epoch (conj Hpos Hread) Hrng HW Hnw HB) as (a & parts & H).
  exists o, a, parts. split; [exact Ho|exact H].
Qed.

(** Random access in any order. *)
Theorem dataset_random_access cb cs compress decompress e ts x :
  key_ok e -> codec_ok compress decompress -> storable_samples rw rr ts ->
  write_dataset isfile pickle rw cb cs compress e ts = Ok x -> small_chunks x ->
  exists o, open_dataset rr decompress x = Ok o /\
    (forall is, Forall (fun i => i < length ts) is ->
       exists r st, get_items unpickle o e new_loader (map Z.of_nat is) = Ok (r, st) /\ at_positions ts is r) /\
    (forall st i, (i < 0 \/ Z.of_nat (length ts) <= i)%Z -> get_item unpickle o e st i = Err ValueError).
Proof.
  intros Hk Hc Hts Hw Hsm.
  destruct (dataset_reads isfile pickle unpickle rw rr Hpickle cb cs compress decompress e ts x Hk Hc Hts Hw Hsm)
    as (o & Ho & _ & _ & Hpos & _ & Hread).
  exists o. split; [exact Ho|]. exact (reads_access unpickle o e x ts (conj Hpos Hread)).
Qed.

(** Writing succeeds. *)
Theorem dataset_written cb cs compress e ts :
  key_ok e -> match e with Some c => e_limit c = None | None => True end ->
  (is_none cb && is_none cs) || (truthy cb && truthy cs) = false -> storable_samples rw rr ts ->
  exists x, write_dataset isfile pickle rw cb cs compress e ts = Ok x.
Proof.
  intros Hk Hlim Hcfg Hts. pose proof (storable_leaves _ _ _ Hts) as Hlv.
  destruct ts as [|t0 ts]; [destruct Hts|]. destruct Hts as (H1 & H2 & H3 & H4 & H5).
  destruct (samples_round isfile pickle unpickle rw rr Hpickle t0 ts H1 H2 H3 H4 H5) as (bs & fc & Ews & _).
  assert (Hne : Forall (fun x => 1 <= it_bytes x) (map (fun b => Item b None) bs)).
  { assert (Hne : Forall (fun b => 1 <= length b) bs).
    { unfold write_samples in Ews. destruct (serialize_all isfile pickle fresh (t0 :: ts)) as [[bs' st']|] eqn:E; cbn [bind fst snd] in Ews; [|discriminate].
      destruct (get_config rw st'); cbn [bind] in Ews; [|discriminate]. injection Ews as <- _.
      eapply serialize_all_nonempty; eauto. }
    apply Forall_forall. intros y Hy. apply in_map_iff in Hy. destruct Hy as (b & <- & Hb).
    rewrite Forall_forall in Hne. exact (Hne b Hb). }
  unfold write_dataset. rewrite Ews. cbn [bind fst snd].
  destruct (write_items_total cb cs compress e _ Hlim Hk Hcfg Hne) as [s ->]. cbn [bind]. eauto.
Qed.

End Written.
