From Verif Require Import Base Assign_Model Assign_Spec Shuffle_Proofs Distrib_Model Distrib_Spec.
Local Ltac Zify.zify_post_hook ::= idtac.

Section P.
Context {A : Type}.
Implicit Types (bins : list (list A * Z)) (xs : list (A * Z)).

Lemma insert_desc_perm (x : A * Z) l : Permutation (insert_desc x l) (x :: l).
Proof.
  induction l as [|y l IH]; cbn [insert_desc]; [reflexivity|].
  destruct (snd y <=? snd x)%Z; [reflexivity|]. rewrite IH. apply perm_swap.
Qed.
Lemma sort_desc_perm (l : list (A * Z)) : Permutation (sort_desc l) l.
Proof.
  induction l as [|x l IH]; [reflexivity|]. cbn [sort_desc fold_right]. fold (sort_desc l).
  rewrite insert_desc_perm. constructor; exact IH.
Qed.

Lemma min_bin_ok : forall bins i best,
  (forall all, nth_error all (fst best) = Some (snd best) -> skipn i all = map snd bins -> fst best < i ->
     (forall j w, j < i -> nth_error all j = Some w -> (snd best <= w)%Z) ->
     exists m, nth_error all (min_bin i best bins) = Some m /\ forall j w, nth_error all j = Some w -> (m <= w)%Z).
Proof.
  induction bins as [|b bins IH]; intros i best all Hb Hs Hi Hmin; cbn [min_bin].
  - exists (snd best). split; [exact Hb|]. intros j w Hj. apply (Hmin j w); [|exact Hj].
    assert (length all <= i).
    { destruct (Nat.le_gt_cases (length all) i); [assumption|].
      assert (length (skipn i all) = 0) by (rewrite Hs; reflexivity). rewrite skipn_length in *. lia. }
    assert (j < length all) by (apply nth_error_Some; congruence). lia.
  - cbn [map] in Hs.
    assert (Hbi : nth_error all i = Some (snd b)).
    { assert (G : forall (q : list Z) m x t, skipn m q = x :: t -> nth_error q m = Some x).
      { intros q m; revert q; induction m as [|m IHm]; intros [|y q] x t E; cbn in E; try discriminate.
        - injection E as -> _. reflexivity.
        - cbn. eauto. }
      eapply G; eauto. }
    assert (Hs' : skipn (S i) all = map snd bins).
    { rewrite (skipn_nth_cons _ _ _ Hbi) in Hs. injection Hs as Hs. exact Hs. }
    destruct (Z.ltb_spec (snd b) (snd best)) as [Hlt|Hge]; apply IH; cbn [fst snd]; auto; try lia.
    + intros j w Hj Hw. destruct (Nat.eq_dec j i) as [->|].
      * rewrite Hbi in Hw. injection Hw as <-. lia.
      * specialize (Hmin j w ltac:(lia) Hw). lia.
    + intros j w Hj Hw. destruct (Nat.eq_dec j i) as [->|].
      * rewrite Hbi in Hw. injection Hw as <-. lia.
      * exact (Hmin j w ltac:(lia) Hw).
Qed.

Lemma min_bin_least b bins : exists c,
  nth_error (b :: bins) (min_bin 1 (0, snd b) bins) = Some c /\
  forall j c', nth_error (b :: bins) j = Some c' -> (snd c <= snd c')%Z.
Proof.
  destruct (min_bin_ok bins 1 (0, snd b) (snd b :: map snd bins)) as (m & Hm & Hle); cbn [fst snd]; auto.
  - intros j w Hj Hw. destruct j; [|lia]. injection Hw as <-. lia.
  - change (snd b :: map snd bins) with (map snd (b :: bins)) in Hm, Hle.
    rewrite nth_error_map in Hm.
    destruct (nth_error (b :: bins) (min_bin 1 (0, snd b) bins)) as [c|] eqn:E; [|discriminate].
    cbn in Hm. injection Hm as <-. exists c. split; [reflexivity|]. intros j c' Hj.
    apply (Hle j). rewrite nth_error_map, Hj. reflexivity.
Qed.

(** A bin with contents [fst] and the true sum of the weights of what it holds. *)
Definition good (placed : list (list (A * Z))) bins : Prop :=
  bins = map (fun p => (map fst p, zsum (map snd p))) placed.

(** No bin is heavier than another by more than any weight it holds. *)
Definition balanced (placed : list (list (A * Z))) : Prop := forall p q x, In p placed -> In q placed -> In x p ->
  (zsum (map snd p) <= zsum (map snd q) + snd x)%Z.

Lemma upd_map_comm {B C} (h : B -> C) k (f : B -> B) (g : C -> C) l :
  (forall x, h (f x) = g (h x)) -> map h (upd k f l) = upd k g (map h l).
Proof.
  intros H. revert k; induction l as [|x l IH]; intros [|k]; cbn; auto; [rewrite H; reflexivity|].
  f_equal. apply IH.
Qed.

Lemma zsum_app l1 l2 : zsum (l1 ++ l2) = (zsum l1 + zsum l2)%Z.
Proof. induction l1 as [|x l1 IH]; cbn; lia. Qed.

Lemma In_upd {B} k (f : B -> B) l x : In x (upd k f l) -> In x l \/ exists y, nth_error l k = Some y /\ x = f y.
Proof.
  revert k; induction l as [|y l IH]; intros [|k] H; cbn in H; try contradiction.
  - destruct H as [<-|H]; [right; exists y; auto|left; right; exact H].
  - destruct H as [<-|H]; [left; left; reflexivity|]. destruct (IH k H) as [H'|H']; [left; right; exact H'|right; exact H'].
Qed.

Lemma place_ok placed bins x : good placed bins -> bins <> [] -> balanced placed -> (0 <= snd x)%Z ->
  (forall y, In y (concat placed) -> (snd x <= snd y)%Z) ->
  exists placed' bins', place bins x = Ok bins' /\ good placed' bins' /\ bins' <> [] /\ balanced placed' /\
    length bins' = length bins /\ Permutation (concat placed') (x :: concat placed).
Proof.
  intros Hg Hne Hb Hx Hxy. destruct bins as [|b bs]; [congruence|]. cbn [place].
  destruct (min_bin_least b bs) as (c & Hc & Hle). set (k := min_bin 1 (0, snd b) bs) in *. clearbody k.
  set (bins := b :: bs) in *. clearbody bins.
  assert (Hk : k < length placed).
  { unfold good in Hg. assert (k < length bins) by (apply nth_error_Some; congruence).
    rewrite Hg, map_length in H. exact H. }
  exists (upd k (fun p => p ++ [x]) placed). eexists; split; [reflexivity|]. split; [|split; [|split; [|split]]].
  - unfold good in *. subst bins. symmetry.
    apply (upd_map_comm (fun p : list (A * Z) => (map fst p, zsum (map snd p)))).
    intros p. cbn [fst snd]. rewrite !map_app, zsum_app. cbn. rewrite Z.add_0_r. reflexivity.
  - intros E. apply (f_equal (@length _)) in E. rewrite upd_length in E. destruct bins; [congruence|discriminate].
  - assert (Hmin : forall p q, nth_error placed k = Some p -> In q placed -> (zsum (map snd p) <= zsum (map snd q))%Z).
    { intros p q Hp Hq. unfold good in Hg. rewrite Hg in Hc, Hle. rewrite nth_error_map, Hp in Hc. cbn in Hc. injection Hc as <-.
      apply In_nth_error in Hq. destruct Hq as (j & Hq).
      specialize (Hle j (map fst q, zsum (map snd q))). rewrite nth_error_map, Hq in Hle. apply (Hle eq_refl). }
    intros u v z Hu Hv Hz. apply In_upd in Hu. apply In_upd in Hv.
    assert (Hz' : forall p, In p placed -> In z (p ++ [x]) -> (snd x <= snd z)%Z).
    { intros p Hp Hin. apply in_app_or in Hin. destruct Hin as [Hin|[->|[]]]; [|lia].
      apply Hxy. apply in_concat. eauto. }
    destruct Hu as [Hu|(y & Hy & ->)], Hv as [Hv|(w & Hw & ->)].
    + apply Hb; assumption.
    + specialize (Hb u w z Hu (nth_error_In _ _ Hw) Hz). rewrite map_app, zsum_app. cbn. lia.
    + specialize (Hz' y (nth_error_In _ _ Hy) Hz). specialize (Hmin y v Hy Hv). rewrite map_app, zsum_app. cbn. lia.
    + specialize (Hz' y (nth_error_In _ _ Hy) Hz). rewrite Hw in Hy. injection Hy as ->. lia.
  - apply upd_length.
  - rewrite concat_upd_perm by exact Hk. apply Permutation_sym, Permutation_cons_append.
Qed.

(** Weights never increase along the list. *)
Fixpoint descending xs : Prop :=
  match xs with [] => True | x :: xs' => (forall y, In y xs' -> (snd y <= snd x)%Z) /\ descending xs' end.

Lemma insert_desc_descending x xs : descending xs -> descending (insert_desc x xs).
Proof.
  induction xs as [|y xs IH]; cbn [insert_desc]; [cbn; tauto|]. intros [H1 H2].
  destruct (Z.leb_spec (snd y) (snd x)) as [H|H].
  - split; [|split; assumption]. intros z [<-|Hz]; [lia|]. specialize (H1 z Hz). lia.
  - split; [|apply IH; exact H2]. intros z Hz.
    apply (Permutation_in z (insert_desc_perm x xs)) in Hz. destruct Hz as [<-|Hz]; [lia|apply H1; exact Hz].
Qed.
Lemma sort_desc_descending xs : descending (sort_desc xs).
Proof.
  induction xs as [|x xs IH]; [exact I|]. cbn [sort_desc fold_right]. apply insert_desc_descending. exact IH.
Qed.

Lemma place_all_ok : forall xs placed bins, good placed bins -> bins <> [] -> balanced placed ->
  Forall (fun x => (0 <= snd x)%Z) xs -> descending xs ->
  (forall x y, In x xs -> In y (concat placed) -> (snd x <= snd y)%Z) ->
  exists placed' bins', place_all bins xs = Ok bins' /\ good placed' bins' /\ balanced placed' /\
    length bins' = length bins /\ Permutation (concat placed') (xs ++ concat placed).
Proof.
  induction xs as [|x xs IH]; intros placed bins Hg Hne Hb Hx Hd Hxy; cbn [place_all].
  - exists placed, bins. repeat split; auto.
  - apply Forall_cons_iff in Hx. destruct Hx as [H1 H2]. destruct Hd as [Hd1 Hd2].
    destruct (place_ok placed bins x Hg Hne Hb H1 (fun y => Hxy x y (or_introl eq_refl))) as (p1 & b1 & E1 & G1 & N1 & B1 & L1 & P1).
    rewrite E1. cbn [bind]. destruct (IH p1 b1 G1 N1 B1 H2 Hd2) as (p2 & b2 & E2 & G2 & B2 & L2 & P2).
    { intros z y Hz Hy. apply (Permutation_in y P1) in Hy. destruct Hy as [<-|Hy]; [apply Hd1; exact Hz|].
      apply Hxy; [right; exact Hz|exact Hy]. }
    exists p2, b2. split; [exact E2|]. split; [exact G2|]. split; [exact B2|]. split; [lia|].
    rewrite P2, P1. cbn [app]. apply Permutation_sym, Permutation_middle.
Qed.

Theorem pack_ok (items : list A) weights nb :
  length items = length weights -> 1 <= nb -> Forall (fun w => (0 < w)%Z) weights ->
  exists placed, pack_greedily items weights nb = Ok (map (fun p => (map fst p, zsum (map snd p))) placed) /\
    length placed = nb /\ Permutation (concat placed) (combine items weights) /\
    (forall p q x, In p placed -> In q placed -> In x p -> (zsum (map snd p) <= zsum (map snd q) + snd x)%Z).
Proof.
  intros Hl Hnb Hw. unfold pack_greedily. rewrite Hl, Nat.eqb_refl. cbn [negb].
  replace (existsb (fun w => (w <=? 0)%Z) weights) with false.
  2: { symmetry. apply not_true_is_false. intros E. apply existsb_exists in E. destruct E as (w & H1 & H2).
       rewrite Forall_forall in Hw. specialize (Hw w H1). lia. }
  assert (N : concat (repeat (@nil (A * Z)) nb) = []) by (clear; induction nb; cbn; auto).
  destruct (place_all_ok (sort_desc (combine items weights)) (repeat [] nb) (repeat ([], 0%Z) nb))
    as (placed & bins & E & G & B & L & P).
  - unfold good. clear. induction nb as [|n IH]; cbn; congruence.
  - destruct nb; [lia|discriminate].
  - intros p q x Hp _ Hx. apply repeat_spec in Hp. subst p. contradiction.
  - eapply Permutation_Forall; [apply Permutation_sym, sort_desc_perm|].
    apply Forall_forall. intros [a w] Hin. cbn [snd]. apply in_combine_r in Hin.
    rewrite Forall_forall in Hw. specialize (Hw w Hin). lia.
  - apply sort_desc_descending.
  - intros x y _ Hy. rewrite N in Hy. contradiction.
  - exists placed. rewrite E. unfold good in G. subst bins. split; [reflexivity|].
    rewrite map_length, repeat_length in L. split; [exact L|]. split; [|exact B].
    rewrite P, N, app_nil_r. apply sort_desc_perm.
Qed.

(** ** Weighted mapping *)
Lemma map_fst_combine (l : list A) (m : list Z) : length l = length m -> map fst (combine l m) = l.
Proof. revert m; induction l as [|x l IH]; intros [|y m] H; try discriminate; cbn; auto. f_equal. apply IH. cbn in H; lia. Qed.

Lemma nodes_seq nodes nw : flat_map (fun r => seq (r * nw) nw) (seq 0 nodes) = seq 0 (nodes * nw).
Proof.
  induction nodes as [|n IH]; [reflexivity|].
  rewrite seq_S, flat_map_app, IH. cbn [flat_map Nat.add]. rewrite app_nil_r.
  replace (S n * nw) with (n * nw + nw) by lia. rewrite seq_app. reflexivity.
Qed.

Lemma flat_map_seq_nth {B C} (f : option B -> list C) (l : list B) :
  flat_map (fun i => f (nth_error l i)) (seq 0 (length l)) = flat_map (fun x => f (Some x)) l.
Proof.
  assert (G : forall pre l, flat_map (fun i => f (nth_error (pre ++ l) i)) (seq (length pre) (length l)) = flat_map (fun x => f (Some x)) l).
  { intros pre q; revert pre; induction q as [|x q IH]; intros pre; [reflexivity|].
    cbn [length seq flat_map]. rewrite nth_error_app2, Nat.sub_diag by lia. cbn [nth_error]. f_equal.
    specialize (IH (pre ++ [x])). rewrite <- app_assoc, app_length, Nat.add_1_r in IH. exact IH. }
  exact (G [] l).
Qed.

Theorem weighted_ok perm nodes nw (items : list A) weights :
  (forall r w n, Permutation (perm r w n) (seq 0 n)) -> 1 <= nodes -> 1 <= nw ->
  (match weights with None => True | Some ws => length items = length ws /\ Forall (fun w => (0 < w)%Z) ws end) ->
  exists out, (forall r, r < nodes -> map_weighted (perm r) nodes r nw items weights = Ok (out r) /\ length (out r) = nw) /\
    Permutation (concat (all_nodes nodes out)) items.
Proof.
  intros Hp Hn Hw Hws.
  set (ws := match weights with None => map (fun _ => 1%Z) items | Some ws => ws end).
  assert (Hl : length items = length ws) by (destruct weights; [apply Hws|unfold ws; rewrite map_length; reflexivity]).
  assert (HF : Forall (fun w => (0 < w)%Z) ws).
  { destruct weights; [apply Hws|]. unfold ws. clear. induction items; cbn; constructor; auto; lia. }
  destruct (pack_ok items ws (nodes * nw) Hl ltac:(nia) HF) as (placed & E & Lp & P & _).
  set (bins := map (fun p : list (A * Z) => (map fst p, zsum (map snd p))) placed) in *.
  set (share := fun w => match nth_error bins w with Some b => fst b | None => [] end).
  exists (fun r => map (fun w => permute (perm r w (length (share w))) (share w)) (seq (r * nw) nw)).
  split.
  - intros r Hr. unfold map_weighted. fold ws. rewrite E. cbn [bind]. split; [reflexivity|].
    rewrite map_length, seq_length. reflexivity.
  - unfold all_nodes.
    assert (S1 : Permutation (concat (flat_map (fun r => map (fun w => permute (perm r w (length (share w))) (share w)) (seq (r * nw) nw)) (seq 0 nodes)))
                             (concat (flat_map (fun r => map share (seq (r * nw) nw)) (seq 0 nodes)))).
    { induction (seq 0 nodes) as [|r l IH]; [reflexivity|]. cbn [flat_map]. rewrite !concat_app.
      apply Permutation_app; [|exact IH].
      induction (seq (r * nw) nw) as [|w l' IH']; [reflexivity|]. cbn [map concat].
      apply Permutation_app; [apply permute_Permutation; apply Hp|exact IH']. }
    rewrite S1.
    replace (flat_map (fun r => map share (seq (r * nw) nw)) (seq 0 nodes)) with (map share (seq 0 (nodes * nw))).
    2: { rewrite <- nodes_seq. clear. induction (seq 0 nodes) as [|r l IH]; [reflexivity|].
         cbn [flat_map]. rewrite map_app, IH. reflexivity. }
    rewrite concat_map_flat_map.
    assert (Lb : length bins = nodes * nw) by (unfold bins; rewrite map_length; exact Lp).
    rewrite <- Lb. unfold share.
    rewrite (flat_map_seq_nth (fun o : option (list A * Z) => match o with Some b => fst b | None => [] end)).
    unfold bins. rewrite flat_map_concat_map, map_map. cbn [fst].
    replace (concat (map (fun p : list (A * Z) => map fst p) placed)) with (map fst (concat placed))
      by (apply concat_map).
    rewrite P, map_fst_combine by exact Hl. reflexivity.
Qed.

(** ** Sequential mapping *)
(** With positive weights a bin that stays empty means that no bin has more than one item. *)
Lemma lonely (placed : list (list (A * Z))) (q : list (A * Z)) : (forall p x, In p placed -> In x p -> (zsum (map snd p) <= zsum (map snd q) + snd x)%Z) ->
  q = [] -> Forall (fun x : A * Z => (0 < snd x)%Z) (concat placed) -> forall p, In p placed -> length p <= 1.
Proof.
  intros Hb -> HF p Hp. destruct p as [|x [|y p]]; cbn [length]; try lia. exfalso.
  pose proof (Hb _ y Hp (or_intror (or_introl eq_refl))) as H. cbn [map zsum] in H.
  assert (Hall : forall z, In z (x :: y :: p) -> (0 < snd z)%Z).
  { intros z Hz. rewrite Forall_forall in HF. apply HF. apply in_concat. eauto. }
  assert (Hs : forall l : list (A * Z), (forall z, In z l -> (0 < snd z)%Z) -> (0 <= zsum (map snd l))%Z).
  { clear. induction l as [|z l IH]; intros H; cbn [map zsum]; [lia|]. pose proof (H z (or_introl eq_refl)). specialize (IH (fun w Hw => H w (or_intror Hw))). lia. }
  pose proof (Hall x (or_introl eq_refl)) as H1. pose proof (Hs p (fun z Hz => Hall z (or_intror (or_intror Hz)))) as H2. lia.
Qed.
Lemma few_items (placed : list (list (A * Z))) : (forall p, In p placed -> length p <= 1) -> In [] placed -> length (concat placed) < length placed.
Proof.
  intros H Hin. apply in_split in Hin. destruct Hin as (l1 & l2 & ->). rewrite concat_app, !app_length. cbn [concat app length].
  assert (G : forall l : list (list (A * Z)), (forall p, In p l -> length p <= 1) -> length (concat l) <= length l).
  { clear. induction l as [|p l IH]; intros H; [reflexivity|]. cbn [concat length]. rewrite app_length. pose proof (H p (or_introl eq_refl)).
    specialize (IH (fun q Hq => H q (or_intror Hq))). lia. }
  assert (H1 : length (concat l1) <= length l1) by (apply G; intros p Hp; apply H, in_or_app; left; exact Hp).
  assert (H2 : length (concat l2) <= length l2) by (apply G; intros p Hp; apply H, in_or_app; right; right; exact Hp).
  lia.
Qed.

(** No worker stays idle if there is an input for each. *)
Theorem weighted_busy perm nodes nw (items : list A) weights r out :
  (forall w n, Permutation (perm w n) (seq 0 n)) -> 1 <= nodes -> 1 <= nw ->
  (match weights with None => True | Some ws => length items = length ws /\ Forall (fun w => (0 < w)%Z) ws end) ->
  nodes * nw <= length items -> r < nodes ->
  map_weighted perm nodes r nw items weights = Ok out -> Forall (fun s => s <> []) out.
Proof.
  intros Hp Hn Hw Hws Hlen Hr.
  set (ws := match weights with None => map (fun _ => 1%Z) items | Some ws => ws end).
  assert (Hl : length items = length ws) by (destruct weights; [apply Hws|unfold ws; rewrite map_length; reflexivity]).
  assert (HF : Forall (fun w => (0 < w)%Z) ws).
  { destruct weights; [apply Hws|]. unfold ws. clear. induction items; cbn; constructor; auto; lia. }
  destruct (pack_ok items ws (nodes * nw) Hl ltac:(nia) HF) as (placed & E & Lp & P & B).
  assert (HP : Forall (fun x : A * Z => (0 < snd x)%Z) (concat placed)).
  { eapply Permutation_Forall; [apply Permutation_sym; exact P|]. apply Forall_forall. intros [a w] Hin. cbn [snd]. apply in_combine_r in Hin.
    rewrite Forall_forall in HF. apply HF. exact Hin. }
  assert (Hfull : ~ In [] placed).
  { intros Hin. pose proof (few_items placed (lonely placed [] (fun p x H1 H2 => B p [] x H1 Hin H2) eq_refl HP) Hin) as H.
    apply Permutation_length in P. rewrite combine_length in P. lia. }
  unfold map_weighted. fold ws. rewrite E. cbn [bind]. intros H; injection H as <-.
  apply Forall_map, Forall_forall. intros w Hin. apply in_seq in Hin. rewrite nth_error_map.
  destruct (nth_error placed w) as [p|] eqn:Ep.
  2: { apply nth_error_None in Ep. nia. }
  cbn [option_map fst]. intros Enil.
  pose proof (permute_Permutation (perm w (length (map fst p))) (map fst p) (Hp w _)) as Hq. rewrite Enil in Hq. apply Permutation_nil in Hq.
  apply map_eq_nil in Hq. subst p. apply Hfull. eapply nth_error_In. exact Ep.
Qed.

Lemma bump_length : forall l r, length (bump r l) = length l.
Proof. induction l as [|x l IH]; intros [|r]; cbn; auto. Qed.
Lemma bump_sum : forall l r, r <= length l -> sum (bump r l) = sum l + r.
Proof. induction l as [|x l IH]; intros [|r] H; cbn in *; try lia. rewrite IH; lia. Qed.
Lemma bump_repeat_In q : forall n r x, In x (bump r (repeat q n)) -> x = q \/ x = S q.
Proof.
  induction n as [|n IH]; intros r x H; cbn in H; [contradiction|].
  destruct r as [|r]; [|destruct H as [<-|H]; [auto|eauto]].
  destruct H as [<-|H]; [auto|]. apply repeat_spec in H. auto.
Qed.
Lemma sum_rev l : sum (rev l) = sum l.
Proof. apply sum_Permutation, Permutation_sym, Permutation_rev. Qed.

Lemma share_sizes_length world n : length (share_sizes world n) = world.
Proof. unfold share_sizes. rewrite rev_length, bump_length, rev_length, repeat_length. reflexivity. Qed.
Lemma share_sizes_sum world n : 1 <= world -> sum (share_sizes world n) = n.
Proof.
  intros H. unfold share_sizes. rewrite sum_rev, bump_sum, sum_rev, sum_repeat.
  - pose proof (Nat.div_mod n world ltac:(lia)). lia.
  - rewrite rev_length, repeat_length. pose proof (Nat.mod_upper_bound n world ltac:(lia)). lia.
Qed.
Lemma rev_repeat (q n : nat) : rev (repeat q n) = repeat q n.
Proof.
  induction n as [|n IH]; [reflexivity|]. cbn [repeat rev]. rewrite IH. clear.
  induction n as [|n IH]; [reflexivity|]. cbn. f_equal. exact IH.
Qed.
Lemma share_sizes_In world n x : In x (share_sizes world n) -> x = n / world \/ x = S (n / world).
Proof. unfold share_sizes. rewrite <- in_rev, rev_repeat. apply bump_repeat_In. Qed.

Lemma cumsum0_nth : forall l acc w, w <= length l -> nth w (cumsum0 acc l) 0 = acc + sum (firstn w l).
Proof.
  induction l as [|x l IH]; intros acc [|w] H; cbn [cumsum0 nth firstn sum length] in *; try lia.
  rewrite IH by lia. lia.
Qed.

Lemma filter_range first cnt world : first + cnt <= world ->
  filter (fun w => (first <=? w) && (w <? first + cnt)) (seq 0 world) = seq first cnt.
Proof.
  intros H. replace world with (first + (cnt + (world - first - cnt))) by lia.
  rewrite !seq_app, !filter_app. cbn [Nat.add].
  assert (F : forall (f : nat -> bool) l, (forall x, In x l -> f x = true) -> filter f l = l).
  { intros f l; induction l as [|x l IH]; intros G; [reflexivity|]. cbn. rewrite G by (left; auto). f_equal; apply IH.
    intros; apply G; right; auto. }
  assert (F0 : forall (f : nat -> bool) l, (forall x, In x l -> f x = false) -> filter f l = []).
  { intros f l; induction l as [|x l IH]; intros G; [reflexivity|]. cbn. rewrite G by (left; auto). apply IH.
    intros; apply G; right; auto. }
  rewrite F0, F, F0, app_nil_r; [reflexivity| | |]; intros x Hx; apply in_seq in Hx; lia.
Qed.

Lemma sum_firstn_S l w x : nth_error l w = Some x -> sum (firstn (w + 1) l) = sum (firstn w l) + x.
Proof.
  revert w; induction l as [|y l IH]; intros [|w] H; try discriminate; cbn [firstn sum Nat.add].
  - injection H as ->. lia.
  - rewrite (IH w H). lia.
Qed.

(** Consecutive slices of sizes [sz] starting after [k] of them. *)
Lemma slices_concat (items : list A) sz : sum sz = length items ->
  concat (map (fun w => firstn (nth (w + 1) (cumsum0 0 sz) 0 - nth w (cumsum0 0 sz) 0) (skipn (nth w (cumsum0 0 sz) 0) items))
              (seq 0 (length sz))) = items.
Proof.
  intros Hs.
  assert (G : forall n, n <= length sz ->
    concat (map (fun w => firstn (nth (w + 1) (cumsum0 0 sz) 0 - nth w (cumsum0 0 sz) 0) (skipn (nth w (cumsum0 0 sz) 0) items)) (seq 0 n))
    = firstn (sum (firstn n sz)) items).
  { induction n as [|n IH]; intros Hn; [reflexivity|].
    rewrite seq_S, map_app, concat_app, IH by lia. cbn [map concat Nat.add]. rewrite app_nil_r.
    destruct (nth_error sz n) as [x|] eqn:E; [|apply nth_error_None in E; lia].
    rewrite !cumsum0_nth by lia. cbn [Nat.add]. rewrite (sum_firstn_S _ _ _ E).
    replace (S n) with (n + 1) by lia. rewrite (sum_firstn_S _ _ _ E).
    set (a := sum (firstn n sz)). replace (a + x - a) with x by lia.
    clear. revert items. induction a as [|a IH]; intros items; [reflexivity|].
    destruct items as [|i items]; cbn; [destruct x; reflexivity|]. f_equal. apply IH. }
  rewrite G by lia. rewrite firstn_all. rewrite Hs. apply firstn_all.
Qed.

Theorem sequential_ok nodes nw (items : list A) : 1 <= nodes -> 1 <= nw ->
  exists out, (forall r, r < nodes -> map_sequentially nodes r nw items = Ok (out r) /\ length (out r) = nw) /\
    concat (all_nodes nodes out) = items /\ even_sizes (all_nodes nodes out).
Proof.
  intros Hn Hw. set (world := nodes * nw). assert (1 <= world) by (unfold world; nia).
  set (sz := share_sizes world (length items)).
  set (f := fun w => firstn (nth (w + 1) (cumsum0 0 sz) 0 - nth w (cumsum0 0 sz) 0) (skipn (nth w (cumsum0 0 sz) 0) items)).
  exists (fun r => map f (seq (r * nw) nw)).
  assert (E : all_nodes nodes (fun r => map f (seq (r * nw) nw)) = map f (seq 0 world)).
  { unfold all_nodes, world. rewrite <- nodes_seq. clear. induction (seq 0 nodes) as [|r l IH]; [reflexivity|].
    cbn [flat_map]. rewrite map_app, IH. reflexivity. }
  assert (Lsz : length sz = world) by apply share_sizes_length.
  assert (Ssz : sum sz = length items) by (apply share_sizes_sum; lia).
  split; [|split].
  - intros r Hr. unfold map_sequentially. fold world. replace (world =? 0) with false by lia. fold sz. cbn zeta.
    replace ((r + 1) * nw) with (r * nw + nw) by lia.
    rewrite filter_range by (unfold world; nia). fold f.
    rewrite map_length, seq_length, Nat.eqb_refl. cbn [negb]. auto.
  - rewrite E, <- Lsz. apply slices_concat. exact Ssz.
  - rewrite E. intros s t Hs Ht.
    assert (G : forall u, In u (map f (seq 0 world)) -> length u = length items / world \/ length u = S (length items / world)).
    { intros u Hu. apply in_map_iff in Hu. destruct Hu as (w & <- & Hwi). apply in_seq in Hwi.
      destruct (nth_error sz w) as [x|] eqn:Ex; [|apply nth_error_None in Ex; lia].
      assert (length (f w) = x).
      { unfold f. rewrite !cumsum0_nth by lia. cbn [Nat.add]. rewrite (sum_firstn_S _ _ _ Ex).
        rewrite firstn_length, skipn_length.
        assert (sum (firstn w sz) + x <= length items).
        { rewrite <- Ssz. rewrite <- (sum_firstn_S _ _ _ Ex). rewrite <- (firstn_skipn (w + 1) sz) at 2. rewrite sum_app. lia. }
        lia. }
      rewrite H0. eapply share_sizes_In. eapply nth_error_In. exact Ex. }
    destruct (G s Hs), (G t Ht); lia.
Qed.

(** ** Batching *)
Lemma batch_from_ok b : 1 <= b -> forall fuel pos (inputs : list A), length inputs - pos <= fuel ->
  batch_from fuel pos b inputs = pieces b (skipn pos inputs).
Proof.
  intros Hb. induction fuel as [|fuel IH]; intros pos inputs Hf; cbn [batch_from].
  - rewrite skipn_all2 by lia. reflexivity.
  - destruct (Nat.ltb_spec pos (length inputs)) as [H|H].
    + rewrite pieces_cons; [|exact Hb|intros E; apply (f_equal (@length A)) in E; rewrite skipn_length in E; cbn in E; lia].
      f_equal. rewrite IH by lia. f_equal.
      assert (G : forall m n (l : list A), skipn m (skipn n l) = skipn (n + m) l).
      { intros m n; induction n as [|n IHn]; intros [|x l]; cbn; auto. destruct m; reflexivity. }
      rewrite G. reflexivity.
    + rewrite skipn_all2 by lia. reflexivity.
Qed.
End P.

Lemma even_busy {A} (shares : list (list A)) : even_sizes shares -> length shares <= length (concat shares) -> Forall (fun s => s <> []) shares.
Proof.
  intros He Hl. apply Forall_forall. intros s Hs ->. pose proof Hs as Hin. apply in_split in Hs. destruct Hs as (l1 & l2 & E).
  assert (Hle : forall l : list (list A), (forall s, In s l -> In s shares) -> length (concat l) <= length l).
  { induction l as [|u l IH]; intros Hu; [reflexivity|]. cbn [concat length]. rewrite app_length.
    pose proof (He u [] (Hu u (or_introl eq_refl)) Hin) as H1. cbn [length] in H1. specialize (IH (fun s Hs' => Hu s (or_intror Hs'))). lia. }
  assert (A1 : length (concat l1) <= length l1) by (apply Hle; intros s Hs'; rewrite E; apply in_or_app; left; exact Hs').
  assert (A2 : length (concat l2) <= length l2) by (apply Hle; intros s Hs'; rewrite E; apply in_or_app; right; right; exact Hs').
  rewrite E, concat_app, !app_length in Hl. cbn [concat app length] in Hl. lia.
Qed.

Lemma all_nodes_length {A} (out : nat -> list (list A)) nw : forall n, (forall r, r < n -> length (out r) = nw) -> length (all_nodes n out) = n * nw.
Proof.
  unfold all_nodes. induction n as [|n IH]; intros H; [reflexivity|]. rewrite seq_S, flat_map_app, app_length. cbn [flat_map Nat.add].
  rewrite app_nil_r, IH by (intros; apply H; lia). rewrite H by lia. lia.
Qed.

(** No worker of any node stays idle, whether the inputs are weighted or not. *)
Theorem distribute_busy {A} perm nodes nw (items : list A) weights sizes r out :
  (forall w n, Permutation (perm w n) (seq 0 n)) -> 1 <= nodes -> 1 <= nw -> nodes * nw <= length items -> r < nodes ->
  distribute perm nodes r nw items weights sizes = Ok out -> Forall (fun s => s <> []) out.
Proof.
  intros Hp Hn Hw Hl Hr H.
  assert (G : forall ws, map_weighted perm nodes r nw items (Some ws) = Ok out -> Forall (fun s => s <> []) out).
  { intros ws E. apply (weighted_busy perm nodes nw items (Some ws) r out Hp Hn Hw); try assumption.
    unfold map_weighted, pack_greedily in E. destruct (Nat.eqb_spec (length items) (length ws)) as [E1|E1]; [|discriminate E]. split; [exact E1|].
    cbn [negb] in E. destruct (existsb (fun w => (w <=? 0)%Z) ws) eqn:Ex; [discriminate E|].
    apply Forall_forall. intros w Hin. destruct (Z.leb_spec w 0) as [Hle|Hle]; [|exact Hle]. exfalso.
    assert (existsb (fun w => (w <=? 0)%Z) ws = true) by (apply existsb_exists; exists w; split; [exact Hin|lia]). congruence. }
  destruct weights as [ws|]; cbn [distribute] in H.
  { destruct (negb (length ws =? length items)); [discriminate H|]. exact (G ws H). }
  destruct sizes as [sz|]; [exact (G sz H)|].
  destruct (sequential_ok nodes nw items Hn Hw) as (outs & H1 & H2 & H3).
  assert (E : outs r = out) by (destruct (H1 r Hr) as [H1' _]; cbn [distribute] in H1'; congruence). subst out.
  pose proof (even_busy (all_nodes nodes outs) H3) as B. rewrite (all_nodes_length outs nw nodes (fun q Hq => proj2 (H1 q Hq))), H2 in B. specialize (B Hl).
  rewrite Forall_forall in *. intros s Hs. apply B. unfold all_nodes. apply in_flat_map. exists r. split; [apply in_seq; lia|exact Hs].
Qed.
