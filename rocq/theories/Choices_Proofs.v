(** Weighted draws: proofs. *)
From Verif Require Import Base Combined_Model Combined_Proofs Choices_Model.
From Coq Require Import QArith Lia Lqa.
Local Open Scope nat_scope.

Lemma accumulate_length : forall ws acc, length (accumulate acc ws) = length ws.
Proof. induction ws as [|w ws IH]; intros acc; cbn [accumulate length]; [reflexivity|]. rewrite IH. reflexivity. Qed.

Lemma accumulate_nth : forall ws acc j, j < length ws ->
  exists y, nth_error (accumulate acc ws) j = Some y /\ (y == acc + qsum (firstn (S j) ws))%Q.
Proof.
  induction ws as [|w ws IH]; intros acc j Hj; cbn [length] in Hj; [lia|]. destruct j as [|j].
  - exists (acc + w)%Q. split; [reflexivity|]. cbn. ring.
  - destruct (IH (acc + w)%Q j) as (y & E & H); [lia|]. exists y. split; [exact E|]. rewrite H.
    cbn [firstn qsum]. ring.
Qed.

Lemma firstn_sum_le : forall ws i j, Forall (fun w => (0 <= w)%Q) ws -> i <= j -> (qsum (firstn i ws) <= qsum (firstn j ws))%Q.
Proof.
  intros ws i j F. revert i j. induction F as [|w ws Hw F IH]; intros i j Hij.
  - rewrite !firstn_nil. apply Qle_refl.
  - destruct i as [|i]; destruct j as [|j]; try lia; cbn [firstn qsum].
    + apply Qle_refl.
    + specialize (IH 0 j ltac:(lia)). cbn [firstn qsum] in IH. lra.
    + specialize (IH i j ltac:(lia)). lra.
Qed.

Lemma bisect_ok : forall fuel a x lo hi, lo <= hi -> hi < length a -> hi - lo < fuel ->
  exists i, bisect fuel a x lo hi = Ok i /\ lo <= i <= hi.
Proof.
  induction fuel as [|f IH]; intros a x lo hi H1 H2 H3; [lia|]. cbn [bisect].
  destruct (hi <=? lo) eqn:E; [apply Nat.leb_le in E; exists lo; split; [reflexivity|lia]|]. apply Nat.leb_gt in E.
  assert (M : lo <= (lo + hi) / 2 < hi).
  { split; [apply Nat.div_le_lower_bound; lia|apply Nat.div_lt_upper_bound; lia]. }
  destruct (nth_error a ((lo + hi) / 2)) as [y|] eqn:Ey; [|apply nth_error_None in Ey; lia].
  destruct (negb (Qle_bool y x)).
  - destruct (IH a x lo ((lo + hi) / 2)) as (i & Ei & Hi); [lia|lia|lia|]. exists i. split; [exact Ei|lia].
  - destruct (IH a x (S ((lo + hi) / 2)) hi) as (i & Ei & Hi); [lia|lia|lia|]. exists i. split; [exact Ei|lia].
Qed.

(** On a sorted list the search finds the first entry greater than [x]. *)
Lemma bisect_finds : forall fuel a x lo hi i,
  (forall j k y z, j <= k -> nth_error a j = Some y -> nth_error a k = Some z -> (y <= z)%Q) ->
  (forall j y, j < lo -> nth_error a j = Some y -> (y <= x)%Q) ->
  (exists y, nth_error a hi = Some y /\ (x < y)%Q) -> lo <= hi ->
  bisect fuel a x lo hi = Ok i ->
  (forall j y, j < i -> nth_error a j = Some y -> (y <= x)%Q) /\ exists y, nth_error a i = Some y /\ (x < y)%Q.
Proof.
  induction fuel as [|f IH]; intros a x lo hi i S0 HL HH Hle E; cbn [bisect] in E; [discriminate|].
  destruct (hi <=? lo) eqn:Eh.
  { apply Nat.leb_le in Eh. injection E as <-. assert (lo = hi) by lia. subst. auto. }
  apply Nat.leb_gt in Eh.
  assert (M : lo <= (lo + hi) / 2 < hi).
  { split; [apply Nat.div_le_lower_bound; lia|apply Nat.div_lt_upper_bound; lia]. }
  destruct (nth_error a ((lo + hi) / 2)) as [y|] eqn:Ey; [|discriminate].
  destruct (Qle_bool y x) eqn:Eq; cbn [negb] in E.
  - apply Qle_bool_iff in Eq. eapply IH; [exact S0| |exact HH| |exact E]; [|lia].
    intros j z Hj Hz. apply Qle_trans with y; [|exact Eq]. eapply S0; [|exact Hz|exact Ey]. lia.
  - eapply IH; [exact S0|exact HL| | |exact E]; [|lia]. exists y. split; [exact Ey|].
    apply Qnot_le_lt. intros C. apply Qle_bool_iff in C. congruence.
Qed.

Lemma last_total ws : ws <> [] -> exists t l, rev (accumulate 0 ws) = t :: l /\ (t == qsum ws)%Q /\
  nth_error (accumulate 0 ws) (length ws - 1) = Some t.
Proof.
  intros H. destruct (rev (accumulate 0 ws)) as [|t l] eqn:E.
  - apply (f_equal (@length _)) in E. rewrite rev_length, accumulate_length in E. destruct ws; [congruence|discriminate].
  - exists t, l. split; [reflexivity|].
    assert (Ea : accumulate 0 ws = rev l ++ [t]) by (rewrite <- (rev_involutive (accumulate 0 ws)), E; reflexivity).
    assert (L : length ws = S (length l)).
    { rewrite <- (accumulate_length ws 0), Ea, app_length, rev_length. cbn. lia. }
    assert (N : nth_error (accumulate 0 ws) (length ws - 1) = Some t).
    { rewrite Ea, L, nth_error_app2; rewrite rev_length; [|lia]. replace (S (length l) - 1 - length l) with 0 by lia. reflexivity. }
    split; [|exact N]. destruct (accumulate_nth ws 0 (length ws - 1)) as (y & Ey & Hy); [lia|].
    rewrite N in Ey. injection Ey as <-. rewrite Hy. rewrite firstn_all2 by lia. ring.
Qed.

(** [choices] answers whenever there are as many weights as indexes and the total is positive. *)
Lemma choices_ok u pop ws : length ws = length pop -> pop <> [] -> (0 < qsum ws)%Q ->
  exists k, choices u pop ws = Ok k /\ In k pop.
Proof.
  intros L Hne P. unfold choices. rewrite accumulate_length, L, Nat.eqb_refl. cbn [negb].
  destruct (last_total ws) as (t & l & -> & Ht & _); [intros ->; destruct pop; [congruence|discriminate]|].
  destruct (Qle_bool t 0) eqn:E; [apply Qle_bool_iff in E; lra|].
  destruct (bisect_ok (S (length pop)) (accumulate 0 ws) (u * t)%Q 0 (length pop - 1)) as (i & -> & Hi);
    [lia|rewrite accumulate_length, L; destruct pop; [congruence|cbn; lia]|lia|].
  cbn [bind]. destruct (nth_error pop i) as [k|] eqn:Ek; [|apply nth_error_None in Ek; destruct pop; [congruence|cbn in *; lia]].
  exists k. split; [reflexivity|]. eapply nth_error_In. exact Ek.
Qed.

(** What it answers. *)
Lemma choices_interval u pop ws k : length ws = length pop -> pop <> [] -> (0 < qsum ws)%Q ->
  Forall (fun w => (0 <= w)%Q) ws -> (0 <= u < 1)%Q ->
  choices u pop ws = Ok k ->
  exists i, nth_error pop i = Some k /\ i < length ws /\
    (qsum (firstn i ws) <= u * qsum ws)%Q /\ (u * qsum ws < qsum (firstn (S i) ws))%Q.
Proof.
  intros L Hne P F [U0 U1] E. unfold choices in E. rewrite accumulate_length, L, Nat.eqb_refl in E. cbn [negb] in E.
  destruct (last_total ws) as (t & l & Er & Ht & Hn); [intros ->; destruct pop; [congruence|discriminate]|].
  rewrite Er in E. destruct (Qle_bool t 0) eqn:E0; [apply Qle_bool_iff in E0; lra|].
  destruct (bisect _ _ _ _ _) as [i|] eqn:Eb; [|discriminate]. cbn [bind] in E.
  destruct (nth_error pop i) as [k'|] eqn:Ek; [|discriminate]. injection E as ->. exists i. split; [exact Ek|].
  assert (Hi : i < length ws). { rewrite L. apply nth_error_Some. congruence. }
  split; [exact Hi|].
  assert (S0 : forall j k0 y z, j <= k0 -> nth_error (accumulate 0 ws) j = Some y -> nth_error (accumulate 0 ws) k0 = Some z -> (y <= z)%Q).
  { intros j k0 y z Hjk Hy Hz.
    assert (Bj : j < length ws) by (rewrite <- (accumulate_length ws 0); apply nth_error_Some; congruence).
    assert (Bk : k0 < length ws) by (rewrite <- (accumulate_length ws 0); apply nth_error_Some; congruence).
    destruct (accumulate_nth ws 0 j Bj) as (y' & Ey & Hy'). destruct (accumulate_nth ws 0 k0 Bk) as (z' & Ez & Hz').
    rewrite Hy in Ey. rewrite Hz in Ez. injection Ey as <-. injection Ez as <-. rewrite Hy', Hz'.
    pose proof (firstn_sum_le ws (S j) (S k0) F ltac:(lia)). lra. }
  assert (HH : exists y, nth_error (accumulate 0 ws) (length pop - 1) = Some y /\ (u * t < y)%Q).
  { exists t. split; [rewrite <- L; exact Hn|]. setoid_replace t with (1 * t)%Q at 2 by ring. apply Qmult_lt_compat_r; lra. }
  destruct (bisect_finds _ _ _ 0 _ _ S0 (fun j y Hj _ => False_rect _ (Nat.nlt_0_r j Hj)) HH (Nat.le_0_l _) Eb) as [H1 H2].
  destruct H2 as (y & Ey & Hy). destruct (accumulate_nth ws 0 i Hi) as (y' & Ey' & Hy'). rewrite Ey in Ey'. injection Ey' as <-.
  split.
  - destruct i as [|i]; [cbn [firstn qsum]; apply Qmult_le_0_compat; lra|].
    destruct (accumulate_nth ws 0 i ltac:(lia)) as (z & Ez & Hz). specialize (H1 i z ltac:(lia) Ez). rewrite Ht, Hz in H1. lra.
  - rewrite Ht, Hy' in Hy. lra.
Qed.

Lemma interval_unique ws x i j : Forall (fun w => (0 <= w)%Q) ws ->
  (qsum (firstn i ws) <= x)%Q -> (x < qsum (firstn (S i) ws))%Q ->
  (qsum (firstn j ws) <= x)%Q -> (x < qsum (firstn (S j) ws))%Q -> i = j.
Proof.
  intros F A1 A2 B1 B2. destruct (Nat.lt_trichotomy i j) as [H|[H|H]]; [exfalso|exact H|exfalso].
  - pose proof (firstn_sum_le ws (S i) j F ltac:(lia)). lra.
  - pose proof (firstn_sum_le ws (S j) i F ltac:(lia)). lra.
Qed.

Lemma pick_In us n l ws : l <> [] -> In (pick us n l ws) l.
Proof.
  intros H. unfold pick. destruct (choices (us n) l ws) as [k|] eqn:E.
  - unfold choices in E. destruct (negb _); [discriminate|]. destruct (rev _) as [|t r]; [discriminate|].
    destruct (Qle_bool t 0); [discriminate|]. destruct (bisect _ _ _ _ _) as [i|]; [|discriminate]. cbn [bind] in E.
    destruct (nth_error l i) as [k'|] eqn:Ek; [|discriminate]. injection E as ->. eapply nth_error_In. exact Ek.
  - destruct l; [congruence|left; reflexivity].
Qed.

(** The draw of the model with [pick] is what [choices] does, exceptions included. *)
Lemma new_index_choices {A} us (s : cit A) : left_indexes (c_alive s) <> [] ->
  new_index (pick us) s =
  match choices (us (c_draws s)) (left_indexes (c_alive s)) (some_weights (c_wts s)) with
  | Ok k => Ok (k, set_draw s (S (c_draws s)) (c_cur s) (c_inb s))
  | Err e => Err e
  end.
Proof.
  intros Hne. unfold new_index, pick. set (pop := left_indexes _) in *. set (ws := some_weights _).
  destruct (negb (length ws =? length pop)) eqn:E1.
  { unfold choices. rewrite accumulate_length, E1. reflexivity. }
  apply negb_false_iff, Nat.eqb_eq in E1. destruct (Qle_bool (qsum ws) 0) eqn:E2.
  - unfold choices. rewrite accumulate_length, E1, Nat.eqb_refl. cbn [negb].
    destruct (last_total ws) as (t & l & -> & Ht & _); [intros Ew; rewrite Ew in E1; destruct pop; [congruence|discriminate]|].
    apply Qle_bool_iff in E2. rewrite <- Ht in E2. apply Qle_bool_iff in E2. rewrite E2. reflexivity.
  - destruct (choices_ok (us (c_draws s)) pop ws E1 Hne) as (k & -> & _); [|reflexivity].
    apply Qnot_le_lt. intros C. apply Qle_bool_iff in C. congruence.
Qed.
