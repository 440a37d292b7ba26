From Verif Require Import Base Assign_Model Shuffle_Proofs Config_Model Config_Spec Config_Proofs Subsample_Model.
Local Ltac Zify.zify_post_hook ::= idtac.

Definition rwf (r : roi) : Prop := fst r <= snd r.
Notation total rois := (sum (map roi_size rois)).
Notation perm_ok p := (forall n, Permutation (p n) (seq 0 n)).

(** ** Cutting at [k] samples *)
Lemma cumsum_nth : forall l acc m x, nth_error l m = Some x ->
  nth m (cumsum_from acc l) 0 = acc + sum (firstn m l) + x.
Proof.
  induction l as [|y l IH]; intros acc [|m] x H; try discriminate; cbn [cumsum_from nth firstn sum].
  - injection H as ->. lia.
  - rewrite (IH (acc + y) m x H). lia.
Qed.

Lemma first_ge_spec : forall l acc k i, acc < k -> k <= acc + sum l ->
  exists m x, first_ge k i (cumsum_from acc l) = Some (i + m) /\ nth_error l m = Some x /\
    acc + sum (firstn m l) < k /\ k <= acc + sum (firstn m l) + x.
Proof.
  induction l as [|y l IH]; intros acc k i H1 H2; cbn [sum] in H2; [lia|]. cbn [cumsum_from first_ge].
  destruct (Nat.leb_spec k (acc + y)).
  - exists 0, y. rewrite Nat.add_0_r. cbn [firstn sum nth_error]. repeat split; auto; lia.
  - destruct (IH (acc + y) k (S i) ltac:(lia) ltac:(lia)) as (m & x & E & En & L1 & L2).
    exists (S m), x. rewrite E. cbn [firstn sum nth_error]. repeat split; auto; try lia. f_equal; lia.
Qed.

Lemma set_last_app {A} (f : A -> A) l x : set_last f (l ++ [x]) = l ++ [f x].
Proof.
  induction l as [|y l IH]; [reflexivity|]. cbn [app]. destruct l as [|z l]; [reflexivity|].
  cbn [app set_last] in *. f_equal. exact IH.
Qed.
Lemma last_app {A} (l : list A) x d : last (l ++ [x]) d = x.
Proof. induction l as [|y l IH]; [reflexivity|]. cbn [app]. destruct l; [reflexivity|exact IH]. Qed.

Lemma nth_split_len {A} (l : list A) m x : nth_error l m = Some x ->
  l = firstn m l ++ x :: skipn (m + 1) l /\ length (firstn m l) = m /\ firstn (m + 1) l = firstn m l ++ [x].
Proof.
  intros H. assert (m < length l) by (apply nth_error_Some; congruence).
  assert (L : length (firstn m l) = m) by (rewrite firstn_length; lia).
  assert (E : l = firstn m l ++ x :: skipn (m + 1) l).
  { rewrite <- (firstn_skipn m l) at 1. rewrite (skipn_nth_cons _ _ _ H). rewrite Nat.add_1_r. reflexivity. }
  split; [exact E|]. split; [exact L|].
  rewrite E at 1. rewrite firstn_app, L. rewrite firstn_all2 by lia.
  replace (m + 1 - m) with 1 by lia. reflexivity.
Qed.

(** A region of [names]/[rois] that contains the region [r'] of file [f]. *)
Definition inside (names : list nat) (rois : list roi) (f : nat) (r' : roi) : Prop :=
  exists r, In (f, r) (combine names rois) /\ fst r <= fst r' /\ fst r' <= snd r' /\ snd r' <= snd r.

Lemma inside_self : forall names rois pre pre', length names = length rois -> Forall rwf rois -> length pre = length pre' ->
  Forall2 (inside (pre ++ names) (pre' ++ rois)) names rois.
Proof.
  induction names as [|f names IH]; intros [|r rois] pre pre' H W Hp; try discriminate; constructor.
  - exists r. inversion W; subst. split; [|unfold rwf in *; lia].
    rewrite combine_app by exact Hp. apply in_or_app. right. left. reflexivity.
  - specialize (IH rois (pre ++ [f]) (pre' ++ [r])). rewrite <- !app_assoc in IH. cbn [app] in IH.
    apply IH; [cbn in H; lia|inversion W; assumption|rewrite !app_length; cbn; lia].
Qed.

Lemma Forall2_app_l {A B} (R : A -> B -> Prop) l1 l2 m1 m2 : length l1 = length m1 ->
  Forall2 R (l1 ++ l2) (m1 ++ m2) -> Forall2 R l1 m1 /\ Forall2 R l2 m2.
Proof.
  revert m1; induction l1 as [|x l1 IH]; intros [|y m1] H F; try discriminate.
  - split; [constructor|exact F].
  - cbn in F. inversion F; subst. destruct (IH m1) as [F1 F2]; [cbn in H; lia|assumption|].
    split; [constructor; assumption|assumption].
Qed.

Lemma Forall2_cons_inv {A B} (R : A -> B -> Prop) x l y m : Forall2 R (x :: l) (y :: m) -> R x y /\ Forall2 R l m.
Proof. intros H; inversion H; auto. Qed.

(** What the cut does, in one statement. *)
Theorem subsample_cut chunks rois k :
  length chunks = length rois -> Forall rwf rois -> k <= total rois ->
  exists files kept lc lr,
    subsample_filenames_and_roi chunks rois k = Ok (files, kept, (lc, lr)) /\
    length files = length kept /\ length lc = length lr /\ Forall rwf kept /\ Forall rwf lr /\
    total kept = k /\ total lr = total rois - k /\
    samples files kept ++ samples (map k_file lc) lr = samples (map k_file chunks) rois /\
    (exists n, files = map k_file (firstn n chunks)) /\
    Forall2 (inside (map k_file chunks) rois) files kept /\
    Forall2 (inside (map k_file chunks) rois) (map k_file lc) lr.
Proof.
  intros Hl Hwf Hk. unfold subsample_filenames_and_roi. rewrite Hl, Nat.eqb_refl. cbn [negb].
  destruct (Nat.eqb_spec k 0) as [->|Hk0].
  { exists [], [], chunks, rois. split; [reflexivity|]. split; [reflexivity|]. split; [exact Hl|].
    split; [constructor|]. split; [exact Hwf|]. split; [reflexivity|]. split; [lia|].
    split; [reflexivity|]. split; [exists 0; reflexivity|]. split; [constructor|].
    apply (inside_self (map k_file chunks) rois [] []); [rewrite map_length; exact Hl|exact Hwf|reflexivity]. }
  pose proof (inside_self (map k_file chunks) rois [] [] ltac:(rewrite map_length; exact Hl) Hwf eq_refl) as In0.
  cbn [app] in In0.
  destruct rois as [|r0 rois0]; [cbn in Hk; lia|]. set (rois := r0 :: rois0) in *.
  destruct (first_ge_spec (map roi_size rois) 0 k 0 ltac:(lia) ltac:(lia)) as (m & x & Ef & En & L1 & L2).
  cbn [Nat.add] in *. unfold argmax_ge. rewrite Ef.
  rewrite (cumsum_nth _ _ _ _ En). cbn [Nat.add].
  rewrite nth_error_map in En. destruct (nth_error rois m) as [r|] eqn:Er; [|discriminate].
  cbn [option_map] in En. injection En as <-.
  assert (Hm : m < length rois) by (apply nth_error_Some; congruence).
  destruct (nth_error chunks m) as [c|] eqn:Ec; [|apply nth_error_None in Ec; lia].
  destruct (nth_split_len rois m r Er) as (Sr & Lr & Fr).
  destruct (nth_split_len chunks m c Ec) as (Sc & Lc & Fc).
  assert (Wr : rwf r). { rewrite Forall_forall in Hwf. apply Hwf. apply nth_error_In with m. exact Er. }
  assert (Wp : Forall rwf (firstn m rois)).
  { rewrite Sr in Hwf. apply Forall_app in Hwf. apply Hwf. }
  assert (Wq : Forall rwf (skipn (m + 1) rois)).
  { rewrite Sr in Hwf. apply Forall_app in Hwf. destruct Hwf as [_ Hwf]. inversion Hwf; assumption. }
  assert (Hsf : sum (firstn m (map roi_size rois)) = total (firstn m rois)) by (rewrite firstn_map; reflexivity).
  rewrite Hsf in *. clear Hsf.
  set (P := firstn m rois) in *. set (Q := skipn (m + 1) rois) in *.
  set (CP := firstn m chunks) in *. set (CQ := skipn (m + 1) chunks) in *.
  assert (Tot : total rois = total P + roi_size r + total Q).
  { rewrite Sr. rewrite map_app, sum_app. cbn [map sum]. lia. }
  assert (In1 : Forall2 (inside (map k_file chunks) rois) (map k_file CP) P /\
                inside (map k_file chunks) rois (k_file c) r /\
                Forall2 (inside (map k_file chunks) rois) (map k_file CQ) Q).
  { set (R := inside (map k_file chunks) rois) in *. clearbody R.
    rewrite Sr, Sc, map_app in In0. apply Forall2_app_l in In0; [|rewrite map_length; congruence].
    destruct In0 as [I1 I2]. cbn [map] in I2.
    apply Forall2_cons_inv in I2. destruct I2. auto. }
  destruct In1 as (In1 & (rr & InR & InR') & In2).
  clearbody rois.
  rewrite Fr, Fc, set_last_app, last_app. cbn [fst snd].
  unfold rwf in Wr. assert (Hsz : roi_size r = snd r - fst r) by reflexivity.
  set (cut := snd r + k - (total P + roi_size r)).
  assert (Hcut : cut = fst r + (k - total P) /\ fst r <= cut <= snd r) by (unfold cut; lia).
  assert (TK : total (P ++ [(fst r, cut)]) = k).
  { rewrite map_app, sum_app. cbn [map sum].
    change (roi_size (fst r, cut)) with (cut - fst r). lia. }
  rewrite TK, Nat.eqb_refl. cbn [negb].
  assert (WK : Forall rwf (P ++ [(fst r, cut)])).
  { apply Forall_app. split; [exact Wp|]. constructor; [unfold rwf; cbn; lia|constructor]. }
  assert (LP : length CP = length P) by lia.
  assert (LQ : length CQ = length Q) by (unfold CQ, Q; rewrite !skipn_length; lia).
  assert (Sall : samples (map k_file chunks) rois =
                 samples (map k_file CP) P ++ samples [k_file c] [r] ++ samples (map k_file CQ) Q).
  { rewrite Sr, Sc, map_app. cbn [map].
    rewrite samples_app by (rewrite map_length; exact LP). f_equal.
    change (k_file c :: map k_file CQ) with ([k_file c] ++ map k_file CQ).
    change (r :: Q) with ([r] ++ Q). apply samples_app. reflexivity. }
  assert (One : forall a b, samples [k_file c] [(a, b)] = map (fun i => (k_file c, i)) (seq a (b - a))).
  { intros a b. unfold samples. cbn. apply app_nil_r. }
  destruct (Nat.eqb_spec (total P + roi_size r) k) as [He|Hne].
  - exists (map k_file (CP ++ [c])), (P ++ [(fst r, cut)]), CQ, Q.
    split; [reflexivity|]. split; [rewrite map_length, !app_length; cbn; lia|]. split; [exact LQ|].
    split; [exact WK|]. split; [exact Wq|]. split; [exact TK|].
    split; [lia|]. split; [|split; [exists (m + 1); rewrite Fc; reflexivity|]].
    rewrite Sall, map_app. rewrite samples_app by (rewrite map_length; exact LP).
    rewrite <- app_assoc. f_equal. f_equal. cbn [map]. replace cut with (snd r) by lia.
    destruct r; reflexivity.
    split; [|exact In2]. rewrite map_app. apply Forall2_app; [exact In1|]. constructor; [|constructor].
    exists rr. cbn [fst snd]. repeat split; try assumption; lia.
  - rewrite (skipn_nth_cons _ _ _ Er), (skipn_nth_cons _ _ _ Ec). rewrite <- Nat.add_1_r. fold Q CQ.
    exists (map k_file (CP ++ [c])), (P ++ [(fst r, cut)]), (c :: CQ), ((cut, snd r) :: Q).
    split; [reflexivity|]. split; [rewrite map_length, !app_length; cbn; lia|]. split; [cbn; lia|].
    split; [exact WK|]. split; [constructor; [unfold rwf; cbn; lia|exact Wq]|]. split; [exact TK|].
    split; [cbn [map sum]; change (roi_size (cut, snd r)) with (snd r - cut); lia|].
    split; [|split; [exists (m + 1); rewrite Fc; reflexivity|]].
    rewrite Sall, map_app. rewrite samples_app by (rewrite map_length; exact LP).
    rewrite <- app_assoc. f_equal. cbn [map].
    change (k_file c :: map k_file CQ) with ([k_file c] ++ map k_file CQ).
    change ((cut, snd r) :: Q) with ([(cut, snd r)] ++ Q).
    rewrite samples_app by reflexivity. rewrite app_assoc. f_equal.
    destruct r as [a b]. cbn [fst snd] in *. rewrite !One, <- map_app. f_equal.
    replace (b - a) with ((cut - a) + (b - cut)) by lia. rewrite seq_app. f_equal. f_equal; lia.
    split.
    + rewrite map_app. apply Forall2_app; [exact In1|]. constructor; [|constructor].
      exists rr. cbn [fst snd]. repeat split; try assumption; lia.
    + constructor; [|exact In2]. exists rr. cbn [fst snd]. repeat split; try assumption; lia.
Qed.

(** ** Shuffling two lists together *)
Lemma shuffle_together_ok {A B} perm (l1 : list A) (l2 : list B) :
  perm_ok perm -> length l1 = length l2 ->
  exists s1 s2, shuffle_together perm l1 l2 = Ok (s1, s2) /\ length s1 = length s2 /\
    length s1 = length l1 /\ Permutation (combine s1 s2) (combine l1 l2).
Proof.
  intros Hp Hl. unfold shuffle_together. rewrite Hl, Nat.eqb_refl.
  set (p := perm (length l2)). pose proof (Hp (length l2)) as P. fold p in P.
  pose proof (Permutation_seq_lt _ _ P) as Hlt.
  destruct (gather_ok l1 p) as (s1 & E1 & L1 & M1); [rewrite Hl; exact Hlt|].
  destruct (gather_ok l2 p) as (s2 & E2 & L2 & M2); [exact Hlt|].
  rewrite E1. cbn [bind]. rewrite E2. cbn [bind]. exists s1, s2. split; [reflexivity|]. split; [lia|].
  pose proof (Permutation_length P) as LP. rewrite seq_length in LP. split; [lia|].
  destruct l1 as [|x l1]; destruct l2 as [|y l2]; try discriminate.
  { destruct p; [|discriminate]. cbn in *. injection E1 as <-. reflexivity. }
  rewrite (M1 x), (M2 y).
  assert (C : combine (map (fun i => nth i (x :: l1) x) p) (map (fun i => nth i (y :: l2) y) p) =
              map (fun i => nth i (combine (x :: l1) (y :: l2)) (x, y)) p).
  { clear - Hl. induction p as [|i p IH]; [reflexivity|]. cbn [map]. rewrite <- IH.
    rewrite combine_nth by exact Hl. reflexivity. }
  rewrite C. etransitivity; [apply Permutation_map; exact P|].
  rewrite <- Hl.
  replace (length (x :: l1)) with (length (combine (x :: l1) (y :: l2)))
    by (rewrite combine_length, Hl; apply Nat.min_id).
  generalize (combine (x :: l1) (y :: l2)) as l. intros l.
  replace (map (fun i => nth i l (x, y)) (seq 0 (length l))) with l; [reflexivity|].
  apply nth_ext with (d := (x, y)) (d' := (x, y)); [rewrite map_length, seq_length; reflexivity|].
  intros n Hn. rewrite (nth_indep (map _ _) (x, y) (nth 0 l (x, y))) by (rewrite map_length, seq_length; exact Hn).
  rewrite (map_nth (fun i => nth i l (x, y))), seq_nth by exact Hn. reflexivity.
Qed.

Lemma samples_chunks cs rs :
  samples (map k_file cs) rs =
  flat_map (fun cr => map (fun i => (k_file (fst cr), i)) (seq (fst (snd cr)) (snd (snd cr) - fst (snd cr)))) (combine cs rs).
Proof.
  unfold samples. revert rs; induction cs as [|c cs IH]; intros [|r rs]; cbn; auto. f_equal. apply IH.
Qed.

Lemma total_combine cs rs : length cs = length rs ->
  total rs = sum (map (fun cr : cinfo * roi => roi_size (snd cr)) (combine cs rs)).
Proof. revert rs; induction cs as [|c cs IH]; intros [|r rs] H; try discriminate; cbn; auto. Qed.

Lemma Forall_combine cs (rs : list roi) (P : roi -> Prop) : length cs = length rs ->
  (Forall P rs <-> Forall (fun cr : cinfo * roi => P (snd cr)) (combine cs rs)).
Proof.
  revert rs; induction cs as [|c cs IH]; intros [|r rs] H; try discriminate; cbn.
  - split; constructor.
  - specialize (IH rs ltac:(cbn in H; lia)). split; intros F; inversion F; subst; constructor; tauto.
Qed.

Lemma shuffled perm cs rs : perm_ok perm -> length cs = length rs -> Forall rwf rs ->
  exists s1 s2, shuffle_together perm cs rs = Ok (s1, s2) /\ length s1 = length s2 /\ length s1 = length cs /\
    Forall rwf s2 /\ total s2 = total rs /\
    Permutation (combine s1 s2) (combine cs rs) /\
    Permutation (samples (map k_file s1) s2) (samples (map k_file cs) rs).
Proof.
  intros Hp Hl Hw. destruct (shuffle_together_ok perm cs rs Hp Hl) as (s1 & s2 & E & L & L' & P).
  exists s1, s2. split; [exact E|]. split; [exact L|]. split; [exact L'|]. split; [|split; [|split]].
  - apply (proj2 (Forall_combine s1 s2 rwf L)).
    eapply Permutation_Forall; [apply Permutation_sym, P|]. apply Forall_combine; assumption.
  - rewrite (total_combine s1 s2 L), (total_combine cs rs Hl). apply sum_Permutation, Permutation_map, P.
  - exact P.
  - rewrite !samples_chunks. apply Permutation_flat_map, P.
Qed.

(** ** Subsampling a dataset *)
Lemma repeat_loop_ok perm shuffle den n0 orig : (0 < den)%N -> (forall call, perm_ok (perm call)) ->
  forall fuel call num chunks rois ff fr,
  N.to_nat (num / den) < fuel ->
  length chunks = length rois -> Forall rwf rois -> total rois = n0 -> length ff = length fr ->
  Permutation (samples (map k_file chunks) rois) orig ->
  exists call' chunks' rois' gf gr,
    repeat_loop fuel perm shuffle call num den chunks rois ff fr =
      Ok (call', (num mod den)%N, chunks', rois', ff ++ gf, fr ++ gr) /\
    length chunks' = length rois' /\ Forall rwf rois' /\ total rois' = n0 /\ length gf = length gr /\
    Permutation (samples (map k_file chunks') rois') orig /\
    Permutation (samples gf gr) (concat (repeat orig (N.to_nat (num / den)))) /\
    (shuffle = false -> chunks' = chunks /\ rois' = rois).
Proof.
  intros Hd Hperm. induction fuel as [|fuel IH]; intros call num chunks rois ff fr Hf Hl Hw Ht Hff Hp; [exfalso; exact (Nat.nlt_0_r _ Hf)|].
  cbn [repeat_loop]. destruct (N.leb_spec den num) as [Hle|Hlt].
  - assert (Hstep : exists s1 s2,
      (if shuffle then shuffle_together (perm call) chunks rois else Ok (chunks, rois)) = Ok (s1, s2) /\
      length s1 = length s2 /\ Forall rwf s2 /\ total s2 = n0 /\ Permutation (samples (map k_file s1) s2) orig /\
      (shuffle = false -> s1 = chunks /\ s2 = rois)).
    { destruct shuffle.
      - destruct (shuffled (perm call) chunks rois (Hperm call) Hl Hw) as (s1 & s2 & E & L & _ & W & T & _ & P).
        exists s1, s2. repeat (split; [first [assumption|lia|etransitivity; eassumption]|]). discriminate.
      - exists chunks, rois. split; [reflexivity|]. repeat (split; [assumption|]). auto. }
    destruct Hstep as (s1 & s2 & E & L & W & T & P & Hns). rewrite E. cbn [bind fst snd].
    assert (D : (num / den = 1 + (num - den) / den)%N).
    { replace num with (1 * den + (num - den))%N at 1 by lia. rewrite N.div_add_l by lia. reflexivity. }
    assert (M : (num mod den = (num - den) mod den)%N).
    { replace num with ((num - den) + 1 * den)%N at 1 by lia. rewrite N.mod_add by lia. reflexivity. }
    assert (D' : N.to_nat (num / den) = S (N.to_nat ((num - den) / den))).
    { rewrite D. generalize ((num - den) / den)%N. intros q. lia. }
    assert (Hf' : N.to_nat ((num - den) / den) < fuel) by (rewrite D' in Hf; apply Nat.succ_lt_mono; exact Hf).
    destruct (IH (S call) (num - den)%N s1 s2 (ff ++ map k_file s1) (fr ++ s2))
      as (call' & c' & r' & gf & gr & E' & L' & W' & T' & G & P' & Q & Hns'); auto; try lia.
    { rewrite !app_length, map_length; lia. }
    exists call', c', r', (map k_file s1 ++ gf), (s2 ++ gr).
    rewrite E', M, !app_assoc. split; [reflexivity|].
    split; [exact L'|]. split; [exact W'|]. split; [exact T'|].
    split; [rewrite !app_length, map_length; lia|]. split; [exact P'|]. split.
    + rewrite D'.
      cbn [repeat concat]. rewrite samples_app by (rewrite map_length; exact L).
      apply Permutation_app; assumption.
    + intros Hs. destruct (Hns Hs) as [-> ->]. destruct (Hns' Hs) as [-> ->]. auto.
  - exists call, chunks, rois, [], []. rewrite !app_nil_r, N.mod_small, N.div_small by exact Hlt.
    split; [reflexivity|]. split; [exact Hl|]. split; [exact Hw|]. split; [exact Ht|]. split; [reflexivity|].
    split; [exact Hp|]. split; [reflexivity|auto].
Qed.

Lemma generate_roi_ok k chunks rois : generate_roi k chunks = Ok rois ->
  length chunks = length rois /\ Forall rwf rois.
Proof.
  unfold generate_roi. destruct (sizes_of k chunks) as [ns|] eqn:E; [|discriminate]. cbn [bind].
  intros H; injection H as <-. rewrite map_length. split; [symmetry; eapply sizes_length; eauto|].
  clear E. induction ns; cbn; constructor; auto. unfold rwf; cbn; lia.
Qed.

Theorem subsample_dataset_ok trunc perm k shuffle num den chunks rois :
  (0 < den)%N -> (forall call, perm_ok (perm call)) ->
  (forall n num', (num' < den)%N -> trunc n num' den <= n) ->
  chunks <> [] -> generate_roi k chunks = Ok rois -> isclose_one num den = false ->
  let n := total rois in
  exists files krois kept left,
    subsample_dataset trunc perm k shuffle num den chunks = Ok (files, krois) /\
    length files = length krois /\
    Permutation (samples files krois)
                (concat (repeat (samples (map k_file chunks) rois) (N.to_nat (num / den))) ++ kept) /\
    Permutation (kept ++ left) (samples (map k_file chunks) rois) /\
    length kept = (if (num mod den =? 0)%N then 0 else trunc n (num mod den)%N den).
Proof.
  intros Hd Hperm Htr Hne Hroi Hc n. unfold subsample_dataset.
  destruct chunks as [|c0 chunks0]; [congruence|]. set (chunks := c0 :: chunks0) in *. clearbody chunks.
  rewrite Hroi. cbn [bind]. rewrite Hc.
  destruct (generate_roi_ok _ _ _ Hroi) as [Hl Hw].
  destruct (repeat_loop_ok perm shuffle den n (samples (map k_file chunks) rois) Hd Hperm
              (S (N.to_nat (num / den))) 0 num chunks rois [] [])
    as (call & c' & r' & gf & gr & E & L & W & T & G & P & Q & _); auto.
  rewrite E. cbn [bind app]. destruct (N.ltb_spec 0 (num mod den)) as [Hpos|Hz].
  - assert (Hstep : exists s1 s2,
      (if shuffle then shuffle_together (perm call) c' r' else Ok (c', r')) = Ok (s1, s2) /\
      length s1 = length s2 /\ Forall rwf s2 /\ total s2 = n /\
      Permutation (samples (map k_file s1) s2) (samples (map k_file chunks) rois)).
    { destruct shuffle.
      - destruct (shuffled (perm call) c' r' (Hperm call) L W) as (s1 & s2 & E1 & L1 & _ & W1 & T1 & _ & P1).
        exists s1, s2. repeat (split; [first [assumption|lia]|]). etransitivity; eassumption.
      - exists c', r'. split; [reflexivity|]. repeat (split; [assumption|]). assumption. }
    destruct Hstep as (s1 & s2 & E1 & L1 & W1 & T1 & P1). rewrite E1. cbn [bind fst snd]. rewrite T1.
    pose proof (N.mod_lt num den ltac:(lia)) as Hlt.
    destruct (subsample_cut s1 s2 (trunc n (num mod den)%N den) L1 W1) as
      (files & kept & lc & lr & E2 & L2 & L3 & _ & _ & T2 & _ & S2 & _).
    { rewrite T1. apply Htr. exact Hlt. }
    rewrite E2. cbn [bind].
    exists (gf ++ files), (gr ++ kept), (samples files kept), (samples (map k_file lc) lr).
    split; [reflexivity|]. split; [rewrite !app_length; lia|]. split; [|split].
    + rewrite samples_app by exact G. apply Permutation_app_tail. exact Q.
    + rewrite S2. exact P1.
    + rewrite samples_length by exact L2. replace (num mod den =? 0)%N with false by lia. exact T2.
  - exists gf, gr, [], (samples (map k_file chunks) rois).
    split; [reflexivity|]. split; [exact G|]. split; [rewrite app_nil_r; exact Q|]. split; [reflexivity|].
    replace (num mod den =? 0)%N with true by lia. reflexivity.
Qed.

(** ** Splitting *)
Lemma inside_trans names rois names' rois' f r :
  Forall2 (inside names rois) names' rois' -> inside names' rois' f r -> inside names rois f r.
Proof.
  intros F (r1 & H1 & H2 & H3 & H4).
  assert (G : inside names rois f r1).
  { clear - F H1. induction F as [|f' r' l1 l2 Hx _ IH]; cbn in H1; [contradiction|].
    destruct H1 as [E|H1]; [injection E as -> ->; exact Hx|auto]. }
  destruct G as (r0 & G1 & G2 & G3 & G4). exists r0. repeat split; auto; lia.
Qed.

Lemma split_loop_ok : forall counts chunks rois,
  length chunks = length rois -> Forall rwf rois -> sum counts <= total rois ->
  exists splits left, split_loop counts chunks rois = Ok splits /\
    Forall2 (fun n s => length (samples (fst s) (snd s)) = n) counts splits /\
    Forall (fun s => Forall2 (inside (map k_file chunks) rois) (fst s) (snd s)) splits /\
    flat_map (fun s => samples (fst s) (snd s)) splits ++ left = samples (map k_file chunks) rois.
Proof.
  induction counts as [|n counts IH]; intros chunks rois Hl Hw Hs; cbn [split_loop sum] in *.
  - exists [], (samples (map k_file chunks) rois). repeat split; constructor.
  - destruct (subsample_cut chunks rois n Hl Hw ltac:(lia)) as
      (files & kept & lc & lr & E & L1 & L2 & W1 & W2 & T1 & T2 & S & _ & I1 & I2).
    rewrite E. cbn [bind].
    destruct (IH lc lr L2 W2 ltac:(lia)) as (splits & left & E' & F1 & F2 & S').
    rewrite E'. cbn [bind]. exists ((files, kept) :: splits), left. split; [reflexivity|].
    split; [constructor; [cbn [fst snd]; rewrite samples_length by exact L1; exact T1|exact F1]|].
    split.
    + constructor; [exact I1|]. eapply Forall_impl; [|exact F2]. intros s Hs'. cbn beta in Hs'.
      clear - I2 Hs'. revert Hs'. generalize (fst s) (snd s). intros a b F.
      induction F as [|x y a b Hxy _ IHF]; constructor; [exact (inside_trans _ _ _ _ _ _ I2 Hxy)|exact IHF].
    + cbn [flat_map fst snd]. rewrite <- app_assoc, S'. exact S.
Qed.

Lemma filter_keep (keep : cinfo -> bool) original : NoDup (map k_file original) ->
  filter (in_files (map k_file (filter keep original))) original = filter keep original.
Proof.
  intros Hn. apply filter_ext_in. intros c Hc.
  unfold in_files. destruct (keep c) eqn:E.
  - apply existsb_exists. exists (k_file c). split; [|apply Nat.eqb_refl].
    apply in_map, filter_In. auto.
  - apply not_true_is_false. intros H. apply existsb_exists in H. destruct H as (f & H1 & H2).
    apply Nat.eqb_eq in H2. subst f. apply in_map_iff in H1. destruct H1 as (c' & E1 & H1).
    apply filter_In in H1. destruct H1 as [H1 H3].
    assert (c' = c) by (apply (named_unique original); auto). congruence.
Qed.

Theorem split_ok perm original keep rois counts :
  perm_ok perm -> NoDup (map k_file original) ->
  let files := map k_file (filter keep original) in
  length files = length rois -> Forall rwf rois -> sum counts <= total rois ->
  exists splits left, train_test_split perm original files rois counts = Ok splits /\
    Forall2 (fun n s => length (samples (fst s) (snd s)) = n) counts splits /\
    Forall (fun s => Forall2 (inside files rois) (fst s) (snd s)) splits /\
    Permutation (flat_map (fun s => samples (fst s) (snd s)) splits ++ left) (samples files rois).
Proof.
  intros Hp Hn files Hl Hw Hs. unfold train_test_split. unfold files. rewrite filter_keep by exact Hn. fold files.
  set (chunks := filter keep original) in *.
  assert (Hl' : length chunks = length rois) by (unfold files in Hl; rewrite map_length in Hl; exact Hl).
  destruct (shuffled perm chunks rois Hp Hl' Hw) as (s1 & s2 & E & L & _ & W & T & PC & P).
  rewrite E. cbn [bind fst snd].
  destruct (split_loop_ok counts s1 s2 L W ltac:(lia)) as (splits & left & E' & F1 & F2 & S).
  exists splits, left. split; [exact E'|]. split; [exact F1|]. split.
  - eapply Forall_impl; [|exact F2]. intros s F. cbn beta in F.
    assert (C : forall cs (rs : list roi), combine (map k_file cs) rs = map (fun cr => (k_file (fst cr), snd cr)) (combine cs rs)).
    { induction cs as [|c cs IH]; intros [|r rs]; cbn; auto. f_equal; apply IH. }
    assert (PI : forall f r, inside (map k_file s1) s2 f r -> inside files rois f r).
    { intros f r (r0 & H1 & H2). exists r0. split; [|exact H2]. unfold files. rewrite C in *.
      eapply Permutation_in; [apply Permutation_map; exact PC|exact H1]. }
    clear - F PI. revert F. generalize (fst s) (snd s). intros a b F. induction F; constructor; auto.
  - rewrite S. exact P.
Qed.

Lemma filter_all {A} (f : A -> bool) l : (forall x, In x l -> f x = true) -> filter f l = l.
Proof.
  induction l as [|x l IH]; intros H; [reflexivity|]. cbn [filter]. rewrite H by (left; reflexivity).
  f_equal. apply IH. intros y Hy. apply H. right; exact Hy.
Qed.
Lemma filter_none {A} (f : A -> bool) l : (forall x, In x l -> f x = false) -> filter f l = [].
Proof.
  induction l as [|x l IH]; intros H; [reflexivity|]. cbn [filter]. rewrite H by (left; reflexivity).
  apply IH. intros y Hy. apply H. right; exact Hy.
Qed.

(** A prefix of the index is a filter of it. *)
Lemma prefix_filter m (chunks : list cinfo) : NoDup (map k_file chunks) ->
  firstn m chunks = filter (in_files (map k_file (firstn m chunks))) chunks.
Proof.
  intros Hn. rewrite <- (firstn_skipn m chunks) at 3. rewrite <- (firstn_skipn m chunks) in Hn.
  set (A := firstn m chunks) in *. set (B := skipn m chunks) in *. clearbody A B.
  rewrite filter_app. rewrite filter_all, filter_none, app_nil_r; [reflexivity| |].
  - intros x Hx. apply not_true_is_false. intros H. unfold in_files in H. apply existsb_exists in H.
    destruct H as (f & H1 & H2). apply Nat.eqb_eq in H2. subst f.
    rewrite map_app in Hn. clear - Hn H1 Hx. revert H1 Hn. generalize (map k_file A). intros la.
    induction la as [|y la IH]; intros H1 Hn; [contradiction|]. cbn in Hn. inversion Hn; subst.
    destruct H1 as [->|H1]; [|auto]. apply H2. apply in_or_app. right. apply in_map. exact Hx.
  - intros x Hx. unfold in_files. apply existsb_exists. exists (k_file x). split; [apply in_map; exact Hx|apply Nat.eqb_refl].
Qed.
