(** Proofs about the readers. *)
From Coq Require Import String NArith Permutation Lia.
From Verif Require Import Base Names_Model Names_Spec Names_Proofs Size_Model Paths_Model Paths_Proofs Tree_Model Sample_Proofs
     Assign_Model Assign_Spec Assign_Proofs Epoch_Proofs Format_Proofs Distrib_Model Distrib_Spec Distrib_Proofs Readers_Model.
Local Open Scope list_scope.
Local Open Scope nat_scope.
Local Ltac Zify.zify_post_hook ::= idtac.

(** * StreamingDataLoader as the input *)

Lemma nth_bump q : forall n r i, i < n -> nth i (bump r (repeat q n)) 0 = q + (if i <? r then 1 else 0).
Proof.
  induction n as [|n IH]; intros r i Hi; [lia|]. cbn [repeat bump].
  destruct r as [|r].
  - change (q :: repeat q n) with (repeat q (S n)). rewrite (nth_indep _ 0 q) by (rewrite repeat_length; lia).
    rewrite nth_repeat. cbn. lia.
  - destruct i as [|i]; [cbn; lia|]. cbn [nth]. rewrite IH by lia.
    destruct (Nat.ltb_spec i r), (Nat.ltb_spec (S i) (S r)); lia.
Qed.

Lemma nth_share W K r : r < W -> nth r (share_sizes W K) 0 = K / W + (if W <=? r + K mod W then 1 else 0).
Proof.
  intros Hr. unfold share_sizes. rewrite rev_repeat, rev_nth by (rewrite bump_length, repeat_length; exact Hr).
  rewrite bump_length, repeat_length, nth_bump by lia. f_equal.
  destruct (Nat.ltb_spec (W - S r) (K mod W)), (Nat.leb_spec W (r + K mod W)); lia.
Qed.

Lemma sequential_lengths W K : 1 <= W -> exists items, map_sequentially 1 0 W (seq 0 K) = Ok items /\
  forall r, r < W -> length (nth r items []) = nth r (share_sizes W K) 0.
Proof.
  intros HW. unfold map_sequentially. rewrite !Nat.mul_1_l, seq_length. replace (W =? 0) with false by lia. cbv zeta.
  replace (0 * W) with 0 by lia. replace ((0 + 1) * W) with W by lia.
  pose proof (filter_range 0 W W ltac:(lia)) as F. cbn [Nat.add] in F.
  set (sz := share_sizes W K).
  set (f := fun w => firstn (nth (w + 1) (cumsum0 0 sz) 0 - nth w (cumsum0 0 sz) 0) (skipn (nth w (cumsum0 0 sz) 0) (seq 0 K))).
  assert (E : filter (fun w : nat => (0 <=? w) && (w <? W)) (seq 0 W) = seq 0 W) by exact F.
  rewrite E, map_length, seq_length, Nat.eqb_refl. cbn [negb]. exists (map f (seq 0 W)). split; [reflexivity|].
  intros r Hr. rewrite (nth_indep _ [] (f 0)) by (rewrite map_length, seq_length; exact Hr).
  rewrite map_nth, seq_nth by exact Hr. cbn [Nat.add].
  assert (Lsz : length sz = W) by apply share_sizes_length.
  assert (Ssz : sum sz = K) by (apply share_sizes_sum; lia).
  destruct (nth_error sz r) as [x|] eqn:Ex; [|apply nth_error_None in Ex; lia].
  rewrite (nth_error_nth _ _ 0 Ex).
  unfold f. rewrite !cumsum0_nth by lia. cbn [Nat.add]. rewrite (sum_firstn_S _ _ _ Ex).
  rewrite firstn_length, skipn_length, seq_length.
  assert (sum (firstn r sz) + x <= K).
  { rewrite <- Ssz, <- (sum_firstn_S _ _ _ Ex). rewrite <- (firstn_skipn (r + 1) sz) at 2. rewrite sum_app. lia. }
  lia.
Qed.

Lemma ceil_of W B N : 1 <= W -> 1 <= B ->
  N = B * (W * (N / B / W)) + left_items W B N /\
  ceil_div N B = W * (N / B / W) + ceil_div (left_items W B N) B.
Proof.
  intros HW HB. destruct (left_items_le W B N HW HB) as (H & _).
  assert (E : N = B * (W * (N / B / W)) + left_items W B N) by (unfold left_items; lia).
  split; [exact E|]. unfold ceil_div. rewrite E at 1. apply ceil_mult. exact HB.
Qed.

Lemma stream_length W L B idx ivs a : 1 <= W -> 1 <= L -> 1 <= B -> length idx = length ivs ->
  assign W L B false idx ivs = Ok a ->
  let N := sum (map iv_size ivs) in
  flat_map worker_samples (workers a) = dataset_samples idx ivs /\ length (workers a) = W * L /\
  forall r, r < W -> length (loader_stream L B r a) =
    if r =? W - 1 then ceil_div N B - (W - 1) * (N / B / W) else N / B / W.
Proof.
  intros HW HL HB Hl Ha N.
  destruct (assign_main W L B false idx ivs HW HL HB Hl) as (a' & Ha' & Hs & Hf & Hq & _).
  rewrite Ha in Ha'. injection Ha' as <-. fold N in Hf, Hq.
  split; [|split].
  - rewrite Hf. apply firstn_all2. rewrite dataset_samples_length by exact Hl. fold N. lia.
  - rewrite <- (map_length (fun w => length (worker_samples w))), Hq. apply quotas_length; assumption.
  - intros r Hr. unfold loader_stream. rewrite length_flat_map.
    assert (E1 : map (fun w => length (pieces B (worker_samples w))) (rank_workers L r a) =
                 map (fun y => (y + B - 1) / B) (firstn L (skipn (r * L) (quotas W L B false N)))).
    { rewrite <- Hq. unfold rank_workers. rewrite skipn_map, firstn_map, map_map. apply map_ext.
      intros w. apply pieces_length. exact HB. }
    rewrite E1.
    set (q := N / B / W) in *.
    rewrite (sum_ceil_one_ragged B _ (q mod L) (if r =? W - 1 then left_items W B N else 0) HB).
    + rewrite rank_slice_quotas by assumption. destruct (ceil_of W B N HW HB) as (E & C). fold q in E, C.
      destruct (Nat.eqb_spec r (W - 1)) as [Er|Er].
      * rewrite last_quota_sum by assumption. fold q. rewrite ceil_mult by exact HB.
        unfold ceil_div in C at 2. nia.
      * rewrite rank_quota_sum by exact HL. fold q. rewrite <- (Nat.add_0_r (B * q)), ceil_mult by exact HB.
        rewrite (Nat.div_small (0 + B - 1)) by lia. lia.
    + intros i y Hy.
      assert (Hi : i < L).
      { destruct (Nat.lt_ge_cases i L) as [H|H]; [exact H|].
        rewrite (proj2 (nth_error_None (firstn L _) i)) in Hy; [discriminate|]. rewrite firstn_length; lia. }
      rewrite firstn_skipn_nth, quotas_nth in Hy by assumption. fold q in Hy. injection Hy as <-.
      eexists. cbn [negb andb]. destruct (r =? W - 1), (i =? q mod L); reflexivity.
Qed.

Lemma mapM_ok {A B} (f : A -> res B) g l : (forall x, In x l -> f x = Ok (g x)) -> mapM f l = Ok (map g l).
Proof.
  induction l as [|x l IH]; intros H; [reflexivity|]. rewrite mapM_cons, (H x) by (left; reflexivity). cbn [bind].
  rewrite IH by (intros y Hy; apply H; right; exact Hy). reflexivity.
Qed.

Lemma mapM_all_or {A B} (f : A -> res B) g e l : (forall x, In x l -> f x = Ok (g x) \/ f x = Err e) ->
  mapM f l = Ok (map g l) /\ (forall x, In x l -> f x = Ok (g x)) \/ mapM f l = Err e /\ exists x, In x l /\ f x = Err e.
Proof.
  induction l as [|x l IH]; intros H; [left; split; [reflexivity|intros ? []]|].
  rewrite mapM_cons. destruct (H x (or_introl eq_refl)) as [E|E].
  - rewrite E. cbn [bind]. destruct IH as [(IH & F)|(IH & y & Iy & Ey)]; [intros y Hy; apply H; right; exact Hy| |].
    + left. rewrite IH. cbn [bind]. split; [reflexivity|]. intros y [<-|Hy]; [exact E|auto].
    + right. rewrite IH. split; [reflexivity|]. exists y. split; [right; exact Iy|exact Ey].
  - right. rewrite E. split; [reflexivity|]. exists x. split; [left; reflexivity|exact E].
Qed.

Lemma rank_workers_concat {C} (f : _ -> list C) L a W : length (workers a) = W * L ->
  concat (map (fun r => flat_map f (rank_workers L r a)) (seq 0 W)) = flat_map f (workers a).
Proof.
  unfold rank_workers. generalize (workers a) as ws. clear a. induction W as [|W IH]; intros ws H.
  - destruct ws; [reflexivity|discriminate].
  - cbn [seq map concat]. cbn [Nat.mul skipn]. rewrite <- seq_shift, map_map.
    transitivity (flat_map f (firstn L ws) ++ flat_map f (skipn L ws)); [|rewrite <- flat_map_app, firstn_skipn; reflexivity].
    f_equal.
    rewrite <- (IH (skipn L ws)) by (rewrite skipn_length; lia). f_equal. apply map_ext. intros r.
    rewrite skipn_skipn'. reflexivity.
Qed.

Lemma concat_batches B (ws : list (list nat * list interval)) : 1 <= B ->
  concat (flat_map (fun w => pieces B (worker_samples w)) ws) = flat_map worker_samples ws.
Proof.
  intros HB. induction ws as [|w ws IH]; [reflexivity|].
  cbn [flat_map]. rewrite concat_app, IH, concat_pieces by exact HB. reflexivity.
Qed.

(** Whether the batches that the workers of the job ask for are there. *)
Lemma enough_iff W B N (HW : 1 <= W) (HB : 1 <= B) :
  let K := ceil_div N B in
  let q := N / B / W in
  (forall r, r < W -> nth r (share_sizes W K) 0 <= if r =? W - 1 then K - (W - 1) * q else q) <->
  W = 1 \/ K mod W = 1 \/ (K mod W = 0 /\ N mod B = 0).
Proof.
  intros K q.
  assert (HK : K = N / B /\ N mod B = 0 \/ K = N / B + 1 /\ N mod B <> 0).
  { unfold K, ceil_div. pose proof (Nat.div_mod N B ltac:(lia)) as D. pose proof (Nat.mod_upper_bound N B ltac:(lia)) as U.
    destruct (Nat.eq_dec (N mod B) 0) as [Z|Z]; [left|right]; (split; [|exact Z]).
    - symmetry. apply (Nat.div_unique _ _ _ (B - 1)); lia.
    - symmetry. apply (Nat.div_unique _ _ _ (N mod B - 1)); lia. }
  pose proof (Nat.div_mod K W ltac:(lia)) as DK. pose proof (Nat.mod_upper_bound K W ltac:(lia)) as UK.
  pose proof (Nat.div_mod (N / B) W ltac:(lia)) as DQ. pose proof (Nat.mod_upper_bound (N / B) W ltac:(lia)) as UQ.
  fold q in DQ.
  assert (Hsh : forall r, r < W -> nth r (share_sizes W K) 0 = K / W + (if W <=? r + K mod W then 1 else 0)) by (intros; apply nth_share; assumption).
  destruct (Nat.eq_dec W 1) as [->|W1].
  { split; [left; reflexivity|]. intros _ r Hr. rewrite Hsh by exact Hr. replace r with 0 by lia. cbn [Nat.sub Nat.eqb Nat.mul].
    rewrite Nat.div_1_r, Nat.mod_1_r. cbn. lia. }
  split.
  - intros H. right.
    assert (Q : K / W = q /\ K mod W <= 1).
    { pose proof (H 0 ltac:(lia)) as H0. rewrite Hsh in H0 by lia. replace (0 =? W - 1) with false in H0 by lia.
      assert (K / W <= q) by lia. assert (q <= K / W) by nia. split; [lia|].
      destruct (Nat.le_gt_cases (K mod W) 1) as [G|G]; [exact G|].
      pose proof (H (W - 2) ltac:(lia)) as H9. rewrite Hsh in H9 by lia. replace (W - 2 =? W - 1) with false in H9 by lia.
      replace (W <=? W - 2 + K mod W) with true in H9 by lia. lia. }
    destruct Q as (Q & M). destruct (Nat.eq_dec (K mod W) 1) as [M1|M1]; [left; exact M1|right].
    split; [lia|]. destruct HK as [(E & Z)|(E & Z)]; [exact Z|]. exfalso. nia.
  - intros H r Hr. rewrite Hsh by exact Hr. destruct H as [H|[H|(H & Z)]]; [lia| |].
    + assert (K / W = q).
      { destruct HK as [(E & _)|(E & _)]; [unfold q; congruence|].
        unfold q. replace (N / B) with (K - 1) by lia. apply (Nat.div_unique _ _ _ 0); lia. }
      rewrite H. destruct (Nat.eqb_spec r (W - 1)), (Nat.leb_spec W (r + 1)); nia.
    + assert (K / W = q) by (destruct HK as [(E & _)|(_ & E)]; [unfold q; congruence|contradiction]).
      rewrite H. destruct (Nat.eqb_spec r (W - 1)), (Nat.leb_spec W (r + 0)); nia.
Qed.

Lemma enough_exact W B N (HW : 1 <= W) (HB : 1 <= B) :
  let K := ceil_div N B in
  let q := N / B / W in
  W = 1 \/ K mod W = 1 \/ (K mod W = 0 /\ N mod B = 0) ->
  forall r, r < W -> nth r (share_sizes W K) 0 = if r =? W - 1 then K - (W - 1) * q else q.
Proof.
  intros K q H r Hr. pose proof (proj2 (enough_iff W B N HW HB) H) as Le. fold K q in Le.
  pose proof (share_sizes_sum W K HW) as S. pose proof (share_sizes_length W K) as L.
  (* every share is at most the stream; the sums agree *)
  assert (T : forall (f : nat -> nat) l, (forall i, i < length l -> nth i l 0 <= f i) -> sum l = sum (map f (seq 0 (length l))) ->
              forall i, i < length l -> nth i l 0 = f i).
  { clear. intros f l. revert f. induction l as [|x l IH]; intros f Hle E i Hi; [cbn in Hi; lia|].
    cbn [length seq map sum] in E. rewrite <- seq_shift, map_map in E.
    pose proof (Hle 0 ltac:(cbn; lia)) as H0. cbn in H0.
    assert (G : forall g (m : list nat), (forall i, i < length m -> nth i m 0 <= g i) -> sum m <= sum (map g (seq 0 (length m)))).
    { clear. intros g m. revert g. induction m as [|y m IH]; intros g H; [cbn; lia|]. cbn [length seq map sum].
      rewrite <- seq_shift, map_map. pose proof (H 0 ltac:(cbn; lia)) as H0. cbn in H0.
      specialize (IH (fun i => g (S i)) (fun i Hi => H (S i) ltac:(cbn; lia))). lia. }
    pose proof (G (fun i => f (S i)) l (fun i Hi => Hle (S i) ltac:(cbn; lia))) as G1.
    destruct i as [|i]; [cbn; lia|]. cbn [nth]. apply (IH (fun i => f (S i))); [|lia|cbn in Hi; lia].
    intros j Hj. exact (Hle (S j) ltac:(cbn; lia)). }
  apply (T (fun r => if r =? W - 1 then K - (W - 1) * q else q)); rewrite ?L; [exact Le| |exact Hr].
  rewrite S. replace (seq 0 W) with (seq 0 (W - 1) ++ [W - 1]).
  2:{ replace W with (W - 1 + 1) at 3 by lia. rewrite seq_app. reflexivity. }
  rewrite map_app, sum_app. cbn [map sum]. rewrite Nat.eqb_refl.
  rewrite (map_ext_in _ (fun _ => q)); [rewrite sum_map_const, seq_length|].
  - destruct (ceil_of W B N HW HB) as (_ & C). fold K q in C. nia.
  - intros i Hi. apply in_seq in Hi. replace (i =? W - 1) with false by lia. reflexivity.
Qed.

Lemma loader_job_ok W L B idx ivs : 1 <= W -> 1 <= L -> 1 <= B -> length idx = length ivs ->
  let N := sum (map iv_size ivs) in
  let K := ceil_div N B in
  (W = 1 \/ K mod W = 1 \/ (K mod W = 0 /\ N mod B = 0)) /\
    (exists out, loader_job W L B idx ivs = Ok out /\ length out = W /\
       Permutation (concat (concat out)) (dataset_samples idx ivs)) \/
  ~ (W = 1 \/ K mod W = 1 \/ (K mod W = 0 /\ N mod B = 0)) /\ loader_job W L B idx ivs = Err StopIteration.
Proof.
  intros HW HL HB Hl N K.
  destruct (sequential_lengths W K HW) as (items & Ei & Li).
  destruct (assign_main W L B false idx ivs HW HL HB Hl) as (a & Ha & _).
  destruct (stream_length W L B idx ivs a HW HL HB Hl Ha) as (Hf & Hlen & Hs). cbv zeta in Hs. fold N in Hs. fold K in Hs.
  unfold loader_job. fold N. fold K. rewrite Ei. cbn [bind]. rewrite Ha. cbn [bind].
  destruct (mapM_all_or (fun r => take_batches (length (nth r items [])) (loader_stream L B r a))
              (fun r => firstn (length (nth r items [])) (loader_stream L B r a)) StopIteration (seq 0 W)) as [(E & F)|(E & r & Ir & Er)].
  { intros r _. unfold take_batches. destruct (_ <? _); auto. }
  - left.
    assert (C : W = 1 \/ K mod W = 1 \/ (K mod W = 0 /\ N mod B = 0)).
    { apply (proj1 (enough_iff W B N HW HB)). fold K. intros r Hr. rewrite <- Hs, <- Li by exact Hr.
      specialize (F r ltac:(apply in_seq; lia)). unfold take_batches in F.
      destruct (Nat.ltb_spec (length (loader_stream L B r a)) (length (nth r items []))); [discriminate|lia]. }
    split; [exact C|].
    exists (map (fun r => loader_stream L B r a) (seq 0 W)).
    split; [|split; [rewrite map_length, seq_length; reflexivity|]].
    + rewrite E. f_equal. apply map_ext_in. intros r Hr. apply in_seq in Hr. apply firstn_all2.
      rewrite Hs, Li by lia. pose proof (enough_exact W B N HW HB C r ltac:(lia)) as Q. cbv zeta in Q. fold K in Q. lia.
    + unfold loader_stream. rewrite rank_workers_concat by exact Hlen. rewrite <- Hf.
      rewrite concat_batches by exact HB. apply Permutation_refl.
  - right. rewrite E. split; [|reflexivity]. intros C. apply in_seq in Ir. unfold take_batches in Er.
    destruct (Nat.ltb_spec (length (loader_stream L B r a)) (length (nth r items []))) as [G|G]; [|discriminate].
    rewrite Hs, Li in G by lia. pose proof (enough_exact W B N HW HB C r ltac:(lia)) as Q. cbv zeta in Q. fold K in Q. lia.
Qed.

(** * Parquet files *)

Lemma digits_split c a r a' r' : Forall is_digit a -> Forall is_digit a' -> ~ is_digit c ->
  a ++ c :: r = a' ++ c :: r' -> a = a' /\ r = r'.
Proof.
  intros Ha. revert a'. induction Ha as [|x a Hx Ha IH]; intros a' Ha' Hc E.
  - destruct Ha' as [|y a' Hy Ha']; cbn in E; [injection E as E; auto|]. injection E as E1 E2. subst y. contradiction.
  - destruct Ha' as [|y a' Hy Ha']; cbn in E; injection E as E1 E2; [subst x; contradiction|].
    destruct (IH a' Ha' Hc E2) as (-> & ->). subst. auto.
Qed.

Lemma join_inj a b b' : starts [slash] b = false -> starts [slash] b' = false -> join a b = join a b' -> b = b'.
Proof.
  intros H H'. unfold join. rewrite H, H'. destruct a as [|x a]; [auto|].
  destruct (ends [slash] (x :: a)); intros E; apply app_inv_head in E; [exact E|]. injection E as E. exact E.
Qed.

Lemma starts_dec n r : starts [slash] (dec n ++ r) = false.
Proof.
  pose proof (dec_digits n) as D. pose proof (dec_nonempty n) as E. destruct (dec n) as [|x l]; [contradiction|].
  inversion D as [|? ? Hx _]; subst. destruct (starts [slash] ((x :: l) ++ r)) eqn:S; [|reflexivity].
  apply starts_iff in S. destruct S as (t & S). cbn in S. injection S as S _. subst x. unfold is_digit, slash in Hx. lia.
Qed.

Lemma piece_path_inj cf n f f' se se' : piece_path cf n f se = piece_path cf n f' se' -> se = se' /\ basename f = basename f'.
Proof.
  unfold piece_path. intros E. apply join_inj in E; [|apply starts_dec|apply starts_dec].
  assert (U : ~ is_digit underscore) by (unfold is_digit, underscore; lia).
  apply digits_split in E; [|apply dec_digits|apply dec_digits|exact U]. destruct E as (E1 & E).
  apply digits_split in E; [|apply dec_digits|apply dec_digits|exact U]. destruct E as (E2 & E).
  apply dec_inj in E1. apply dec_inj in E2. destruct se, se'; cbn in *; subst. auto.
Qed.

Lemma pieces_eq {A} n (l : list A) : 1 <= n ->
  pieces n l = map (fun k => firstn n (skipn (k * n) l)) (seq 0 ((length l + n - 1) / n)).
Proof.
  intros Hn. induction l as [l IH] using list_len_ind. destruct l as [|x l].
  - rewrite Nat.div_small by (cbn; lia). reflexivity.
  - rewrite pieces_cons by (auto; discriminate). set (m := x :: l) in *.
    rewrite IH by (rewrite skipn_length; unfold m; cbn [length]; lia).
    assert (E : (length m + n - 1) / n = S ((length (skipn n m) + n - 1) / n)).
    { pose proof (pieces_length n m Hn) as P. rewrite pieces_cons in P by (auto; discriminate). cbn [length] in P.
      rewrite pieces_length in P by exact Hn. lia. }
    rewrite E. cbn [seq map]. f_equal. rewrite <- seq_shift, map_map. apply map_ext. intros k.
    rewrite skipn_skipn'. reflexivity.
Qed.

Section Parquet.
  Context {R : Type}.
  Variables (cf : str) (n : nat) (files : list str) (rows : str -> list R).
  Hypothesis n_pos : 1 <= n.
  Hypothesis names : forall f g, In f files -> In g files -> basename f = basename g -> rows f = rows g.

  Definition slice (l : list R) (se : nat * nat) : list R := firstn (snd se - fst se) (skipn (fst se) l).
  Definition inputs_ok (d : pdisk R) := forall f, In f files -> d f = Some (Table (rows f)).
  Definition cache_ok (d : pdisk R) := forall f se c, In f files -> d (piece_path cf n f se) = Some c -> c = Table (slice (rows f) se).
  Definition kept (d d' : pdisk R) := forall p c, d p = Some c -> d' p = Some c.

  Lemma slices l : exists ps, ranges n (length l) = Ok ps /\ map (slice l) ps = pieces n l.
  Proof.
    unfold ranges. replace (n =? 0) with false by lia. eexists; split; [reflexivity|].
    rewrite pieces_eq by exact n_pos. rewrite map_map. apply map_ext_in. intros k _. unfold slice. cbn [fst snd].
    destruct (Nat.le_gt_cases (k * n + n) (length l)) as [G|G].
    - f_equal. lia.
    - rewrite !firstn_all2; [reflexivity| |]; rewrite skipn_length; lia.
  Qed.

  Lemma pput_same (d : pdisk R) p c : pput d p c p = Some c.
  Proof. unfold pput. destruct (list_eq_dec N.eq_dec p p); [reflexivity|contradiction]. Qed.
  Lemma pput_other (d : pdisk R) p c q : q <> p -> pput d p c q = d q.
  Proof. unfold pput. destruct (list_eq_dec N.eq_dec q p); [contradiction|reflexivity]. Qed.

  Lemma write_ok f : In f files -> forall ps d, inputs_ok d -> cache_ok d ->
    exists d', write_pieces cf n f ps d None = (d', None, Ok (map (piece_path cf n f) ps)) /\
      inputs_ok d' /\ cache_ok d' /\ kept d d' /\
      forall se, In se ps -> d' (piece_path cf n f se) = Some (Table (slice (rows f) se)).
  Proof.
    intros Hf. induction ps as [|se ps IH]; intros d I C.
    - exists d. repeat split; auto; [intros p c H; exact H|intros ? []].
    - cbn [write_pieces]. set (p := piece_path cf n f se). destruct (d p) as [c|] eqn:E.
      + destruct (IH d I C) as (d' & W & I' & C' & K & P). exists d'. rewrite W. cbn [bind map].
        repeat split; auto. intros se' [<-|H]; [|auto]. fold p. rewrite (K _ _ E). f_equal. exact (C f se c Hf E).
      + unfold read_rows. rewrite (I f Hf). cbn [option_map]. fold (slice (rows f) se).
        set (d1 := pput d p (Table (slice (rows f) se))).
        assert (K1 : kept d d1) by (intros q c H; unfold d1; rewrite pput_other; [exact H|intros ->; congruence]).
        destruct (IH d1) as (d' & W & I' & C' & K & P).
        * intros g Hg. apply K1. apply I. exact Hg.
        * intros g se' c Hg. unfold d1. destruct (list_eq_dec N.eq_dec (piece_path cf n g se') p) as [Q|Q].
          -- rewrite Q, pput_same. intros H. injection H as <-. apply piece_path_inj in Q. destruct Q as (-> & B).
             rewrite (names g f Hg Hf B). reflexivity.
          -- rewrite pput_other by exact Q. apply C. exact Hg.
        * exists d'. rewrite W. cbn [bind map]. repeat split; auto.
          -- intros q c H. apply K, K1, H.
          -- intros se' [<-|H]; [|auto]. apply K. unfold d1. fold p. apply pput_same.
  Qed.

  Lemma remap_ok : forall fs d, incl fs files -> inputs_ok d -> cache_ok d ->
    exists d' items, remap_files cf n fs d None = (d', Ok items) /\
      mapM (read_rows d') items = Ok (flat_map (fun f => pieces n (rows f)) fs) /\
      inputs_ok d' /\ cache_ok d' /\ kept d d'.
  Proof.
    induction fs as [|f fs IH]; intros d Hi I C.
    - exists d, []. repeat split; auto. intros p c H; exact H.
    - cbn [remap_files]. assert (Hf : In f files) by (apply Hi; left; reflexivity).
      unfold read_rows at 1. rewrite (I f Hf). cbn [bind].
      destruct (slices (rows f)) as (ps & Eps & Sps). rewrite Eps.
      destruct (write_ok f Hf ps d I C) as (d1 & W & I1 & C1 & K1 & P). rewrite W.
      destruct (IH d1 (fun x Hx => Hi x (or_intror Hx)) I1 C1) as (d' & items & E & M & I' & C' & K).
      rewrite E. cbn [bind]. exists d', (map (piece_path cf n f) ps ++ items).
      split; [reflexivity|]. split; [|repeat split; auto; intros p c H; apply K, K1, H].
      cbn [flat_map]. rewrite <- Sps. clear -P K M. induction ps as [|se ps IHp]; [exact M|].
      cbn [map app]. rewrite mapM_cons. unfold read_rows at 1. rewrite (K _ _ (P se (or_introl eq_refl))). cbn [bind].
      rewrite IHp by (intros se' H; apply P; right; exact H). reflexivity.
  Qed.

  Lemma write_again f : forall ps (d : pdisk R), (forall se, In se ps -> d (piece_path cf n f se) <> None) ->
    write_pieces cf n f ps d None = (d, None, Ok (map (piece_path cf n f) ps)).
  Proof.
    induction ps as [|se ps IH]; intros d H; [reflexivity|]. cbn [write_pieces].
    destruct (d (piece_path cf n f se)) eqn:E; [|exfalso; apply (H se); [left; reflexivity|exact E]].
    rewrite IH by (intros se' H'; apply H; right; exact H'). reflexivity.
  Qed.

  Lemma remap_again : forall fs d d' items, incl fs files -> inputs_ok d -> cache_ok d ->
    remap_files cf n fs d None = (d', Ok items) -> forall d2, inputs_ok d2 -> kept d' d2 ->
    remap_files cf n fs d2 None = (d2, Ok items).
  Proof.
    induction fs as [|f fs IH]; intros d d' items Hi I C H d2 I2 K2; [cbn in *; congruence|].
    cbn [remap_files] in *. assert (Hf : In f files) by (apply Hi; left; reflexivity).
    unfold read_rows at 1 in H. unfold read_rows at 1. rewrite (I f Hf) in H. rewrite (I2 f Hf). cbn [bind] in *.
    destruct (slices (rows f)) as (ps & Eps & Sps). rewrite Eps in *.
    destruct (write_ok f Hf ps d I C) as (d1 & W & I1 & C1 & K1 & P). rewrite W in H.
    destruct (remap_ok fs d1 (fun x Hx => Hi x (or_intror Hx)) I1 C1) as (d3 & items' & E & _ & _ & _ & K3).
    rewrite E in H. cbn [bind] in H. injection H as <- <-.
    rewrite write_again by (intros se Hse; rewrite (K2 _ _ (K3 _ _ (P se Hse))); discriminate).
    rewrite (IH d1 d3 items' (fun x Hx => Hi x (or_intror Hx)) I1 C1 E d2 I2 K2). reflexivity.
  Qed.
End Parquet.

Lemma concat_flat_pieces {A} n (rows : str -> list A) files : 1 <= n ->
  concat (flat_map (fun f => pieces n (rows f)) files) = flat_map rows files.
Proof.
  intros Hn. induction files as [|f fs IH]; [reflexivity|].
  cbn [flat_map]. rewrite concat_app, IH, concat_pieces by exact Hn. reflexivity.
Qed.

Lemma piece_in {A} n (l : list A) part : 1 <= n -> In part (pieces n l) ->
  1 <= length part <= n /\ exists before after, l = before ++ part ++ after.
Proof.
  intros Hn. induction l as [l IH] using list_len_ind. destruct l as [|x l]; [intros []|].
  rewrite pieces_cons by (auto; discriminate). intros [<-|H].
  - split; [rewrite firstn_length; cbn [length]; lia|]. exists [], (skipn n (x :: l)). cbn [app]. symmetry. apply firstn_skipn.
  - destruct (IH (skipn n (x :: l))) as (L & b & a & E); [rewrite skipn_length; cbn [length]; lia|exact H|].
    split; [exact L|]. exists (firstn n (x :: l) ++ b), a. rewrite <- app_assoc, <- E. symmetry. apply firstn_skipn.
Qed.

Lemma loader_job_full W L B idx ivs : 1 <= W -> 1 <= L -> 1 <= B -> length idx = length ivs ->
  let N := length (dataset_samples idx ivs) in
  let K := (N + B - 1) / B in
  (forall out, loader_job W L B idx ivs = Ok out ->
     length out = W /\ Permutation (concat (concat out)) (dataset_samples idx ivs)) /\
  ((exists out, loader_job W L B idx ivs = Ok out) <-> W = 1 \/ K mod W = 1 \/ (K mod W = 0 /\ N mod B = 0)) /\
  (forall e, loader_job W L B idx ivs = Err e -> e = StopIteration).
Proof.
  intros HW HL HB Hl N K. pose proof (loader_job_ok W L B idx ivs HW HL HB Hl) as H. cbv zeta in H.
  rewrite <- (dataset_samples_length idx ivs Hl) in H. fold N in H. unfold ceil_div in H. fold K in H.
  destruct H as [(C & out & E & Lo & P)|(C & E)].
  - split; [|split].
    + intros out' E'. rewrite E in E'. injection E' as <-. auto.
    + split; [auto|]. intros _. exists out. exact E.
    + intros e E'. rewrite E in E'. discriminate.
  - split; [|split].
    + intros out' E'. rewrite E in E'. discriminate.
    + split; [intros (out & E'); rewrite E in E'; discriminate|contradiction].
    + intros e E'. rewrite E in E'. injection E' as <-. reflexivity.
Qed.
