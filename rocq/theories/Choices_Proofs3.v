(** Weighted draws in a loop over all datasets: proofs. *)
From Verif Require Import Base Combined_Model Combined_Proofs Choices_Model Choices_Spec Choices_Proofs Choices_Proofs2.
From Coq Require Import QArith Lia Lqa.
Local Open Scope nat_scope.

(** The weights of the datasets that are left are [c] times their lengths. *)
Inductive in_proportion (c : Q) : list bool -> list (option Q) -> list nat -> Prop :=
| ip_nil : in_proportion c [] [] []
| ip_left w n a ws lens : (w == c * Qn n)%Q -> in_proportion c a ws lens -> in_proportion c (true :: a) (Some w :: ws) (n :: lens)
| ip_gone n a ws lens : in_proportion c a ws lens -> in_proportion c (false :: a) (None :: ws) (n :: lens).

Lemma ip_kill c a ws lens : in_proportion c a ws lens -> forall k,
  in_proportion c (upd k (fun _ => false) a) (upd k (fun _ => None) ws) lens.
Proof.
  induction 1 as [|w n a ws lens H H0 IH|n a ws lens H IH]; intros [|k]; cbn [upd]; constructor; auto.
Qed.
Lemma ip_scale c t a ws lens : ~ (t == 0)%Q -> in_proportion c a ws lens ->
  in_proportion (c / t)%Q a (map (fun w => match w with None => None | Some w => Some (w / t)%Q end) ws) lens.
Proof.
  intros Ht. induction 1 as [|w n a ws lens H _ IH|n a ws lens H IH]; cbn [map]; constructor; auto.
  rewrite H. field. exact Ht.
Qed.
Lemma Qn_plus a b : (Qn (a + b) == Qn a + Qn b)%Q.
Proof. unfold Qn. rewrite Nat2Z.inj_add, inject_Z_plus. reflexivity. Qed.
Lemma ip_sum c a ws lens : in_proportion c a ws lens -> forall i,
  (qsum (firstn i (some_weights ws)) == c * Qn (sum (firstn i (remaining a lens))))%Q.
Proof.
  induction 1 as [|w n a ws lens H _ IH|n a ws lens H IH]; intros i; cbn [some_weights remaining].
  - rewrite !firstn_nil. change (0 == c * 0)%Q. ring.
  - destruct i as [|i]; cbn [firstn qsum]; [change (0 == c * 0)%Q; ring|]. change (sum (n :: firstn i (remaining a lens))) with (n + sum (firstn i (remaining a lens))).
    rewrite Qn_plus, H, (IH i). ring.
  - apply IH.
Qed.
Lemma ip_length c a ws lens : in_proportion c a ws lens -> length (some_weights ws) = length (remaining a lens).
Proof. induction 1; cbn [some_weights remaining length]; congruence. Qed.
Lemma ip_nonneg c a ws lens : (0 < c)%Q -> in_proportion c a ws lens -> Forall (fun w => (0 <= w)%Q) (some_weights ws).
Proof.
  intros Hc. induction 1 as [|w n a ws lens H _ IH|n a ws lens H IH]; cbn [some_weights]; [constructor| |exact IH].
  constructor; [|exact IH].
  rewrite H. apply Qmult_le_0_compat; [lra|]. unfold Qn. change 0%Q with (inject_Z 0). rewrite <- Zle_Qle. lia.
Qed.

(** Positions among those that are left. *)
Lemma left_position : forall a lens s i k, length a = length lens ->
  nth_error (map fst (filter snd (combine (seq s (length a)) a))) i = Some k ->
  exists j, k = s + j /\ nth_error a j = Some true /\
    firstn i (remaining a lens) = remaining (firstn j a) (firstn j lens) /\ nth_error (remaining a lens) i = nth_error lens j.
Proof.
  induction a as [|b a IH]; intros [|n lens] s i k L E; try discriminate; cbn [length seq combine filter map] in E.
  { destruct i; discriminate. }
  cbn [length] in L. destruct b; cbn [snd map fst] in E.
  - destruct i as [|i]; cbn [nth_error] in E.
    + injection E as <-. exists 0. split; [lia|]. repeat split; reflexivity.
    + destruct (IH lens (S s) i k ltac:(lia) E) as (j & -> & H1 & H2 & H3). exists (S j). split; [lia|]. split; [exact H1|].
      cbn [remaining firstn nth_error]. rewrite H2. auto.
  - destruct (IH lens (S s) i k ltac:(lia) E) as (j & -> & H1 & H2 & H3). exists (S j). split; [lia|]. split; [exact H1|].
    cbn [remaining firstn nth_error]. auto.
Qed.

Lemma remaining_length : forall a lens, length a = length lens -> length (remaining a lens) = nalive a.
Proof.
  unfold nalive. induction a as [|[] a IH]; intros [|n lens] L; try discriminate; cbn [remaining filter length]; [reflexivity| |];
    cbn [length] in L; rewrite IH by lia; reflexivity.
Qed.

Section P.
Context {A : Type} (rng : nat -> list nat -> list Q -> nat).
Context (Hrng : forall n l ws, l <> [] -> In (rng n l ws) l).
Implicit Types s : cit A.

Definition Prp (lens : list nat) s : Prop := exists c, (0 < c)%Q /\ in_proportion c (c_alive s) (c_wts s) lens.

Lemma next_all_prp lens m B ws0 : forall fuel s x s', Inv s -> Prp lens s -> next_all rng fuel m B ws0 s = Yield x s' -> Prp lens s'.
Proof.
  induction fuel as [|fuel IH]; intros s x s' HI HP E; cbn [next_all] in E; [discriminate|].
  pose proof HI as (L & D & W & N & C & K).
  assert (GS : forall k s0 y s1, Prp lens s0 -> get_sample k s0 = Ok (y, s1) -> Prp lens s1).
  { intros k s0 y s1 HP0 G. unfold get_sample in G. destruct (nth_error (c_iters s0) k) as [[|z l]|]; try discriminate.
    destruct (length (c_counts s0) <=? k); [discriminate|]. injection G as _ <-. exact HP0. }
  destruct (left_indexes (c_alive s)) as [|k0 [|k1 lf]] eqn:El; [discriminate| |].
  - destruct (get_sample k0 s) as [[y s1]|[]] eqn:G; try discriminate. injection E as <- <-. eapply GS; [exact HP|exact G].
  - assert (Hna : 2 <= nalive (c_alive s)) by (rewrite <- left_length, El; cbn; lia).
    destruct (get_index_ok rng Hrng m B s HI) as (k & s1 & Eg & (S1 & S2 & S3 & S4) & I1 & Hk & Hal). rewrite Eg in E.
    assert (HP1 : Prp lens s1) by (destruct HP as (c & Hc & Hp); exists c; rewrite S2, S3; auto).
    destruct (get_sample k s1) as [[y s2]|[]] eqn:G; try discriminate; [injection E as <- <-; eapply GS; [exact HP1|exact G]|].
    assert (Hn' : 1 <= nalive (upd k (fun _ => false) (c_alive s))).
    { destruct Hal as [Ha|[Ha _]]; [pose proof (nalive_kill _ _ Ha); lia|rewrite (nalive_dead _ _ Ha); lia]. }
    pose proof (pos_weights_kill _ _ k W) as W1. destruct (qsum_pos _ _ W1) as [_ Q]. destruct (Q Hn') as [Qp _].
    destruct (renormalise_ok _ _ W1 Hn') as (ws' & Er & Wr).
    assert (Ex : exhaust k s1 = Ok {| c_iters := c_iters s1; c_alive := upd k (fun _ => false) (c_alive s1); c_wts := ws';
                c_draws := c_draws s1; c_counts := c_counts s1; c_cur := c_cur s1; c_inb := c_inb s1 |}).
    { unfold exhaust. rewrite S3, Er. reflexivity. }
    rewrite Ex in E. eapply IH; [| |exact E].
    + assert (Ei : nth_error (c_iters s) k = Some []).
      { unfold get_sample in G. rewrite S1 in G. destruct (nth_error (c_iters s) k) as [[|z l]|]; [reflexivity| |discriminate].
        destruct (length (c_counts s1) <=? k); discriminate. }
      split; [cbn; rewrite upd_length, S2, S1; exact L|]. split; [|split; [cbn; rewrite S2; exact Wr|split; [cbn; rewrite S2; exact Hn'|apply I1]]].
      cbn [c_alive c_iters]. rewrite S1, S2. intros i Hi. destruct (Nat.eq_dec k i) as [<-|Hne]; [exact Ei|].
      rewrite nth_error_upd_neq in Hi by exact Hne. apply D. exact Hi.
    + destruct HP as (c & Hc & Hp). set (t := qsum (some_weights (upd k (fun _ => None) (c_wts s)))) in *.
      exists (c / t)%Q. split; [apply Qlt_shift_div_l; [exact Qp|lra]|]. cbn [c_alive c_wts]. rewrite S2.
      unfold renormalise in Er. fold t in Er. destruct (Qeq_bool t 0 && _); [discriminate|]. injection Er as <-.
      apply ip_scale; [intros Z; rewrite Z in Qp; apply Qlt_irrefl in Qp; exact Qp|]. apply ip_kill. exact Hp.
Qed.

Lemma after_prp lens m B ws0 : forall n s out s', Inv s -> Prp lens s -> after rng true m B ws0 n s = Some (out, s') ->
  Inv s' /\ Prp lens s'.
Proof.
  induction n as [|n IH]; intros s out s' HI HP E; cbn [after] in E; [injection E as _ <-; auto|].
  pose proof (c_next_all_ok rng Hrng m B ws0 s HI) as H.
  destruct (c_next rng true m B ws0 s) as [x s1|s1|e] eqn:En; try discriminate.
  destruct H as (k & l & _ & _ & I1 & _).
  destruct (after rng true m B ws0 n s1) as [[out' s2]|] eqn:Ea; [|discriminate]. injection E as _ <-.
  eapply IH; [exact I1| |exact Ea]. eapply next_all_prp; [exact HI|exact HP|exact En].
Qed.
End P.

Lemma prp_init {A} (lens : list nat) ws (members : list (list A)) : length lens = length members -> lens <> [] -> Forall (fun n => 1 <= n) lens ->
  init_weights true None lens = Ok ws -> Prp lens (c_init members ws None) /\ length ws = length members /\ Forall (fun w => (0 < w)%Q) ws.
Proof.
  intros L Hne F E. cbn [init_weights] in E. destruct (sum lens =? 0) eqn:E0; [discriminate|]. injection E as <-.
  apply Nat.eqb_neq in E0. assert (P : (0 < inject_Z (Z.of_nat (sum lens)))%Q).
  { change 0%Q with (inject_Z 0). rewrite <- Zlt_Qlt. lia. }
  set (t := inject_Z (Z.of_nat (sum lens))) in *. clearbody t.
  split; [|split; [rewrite map_length; exact L|]].
  - exists (1 / t)%Q. split; [apply Qlt_shift_div_l; lra|]. cbn [c_init c_alive c_wts]. rewrite <- L. clear -P.
    induction lens as [|n lens IH]; cbn [length repeat map]; constructor; [|exact IH].
    unfold Qn. field. intros Z. rewrite Z in P. apply Qlt_irrefl in P. exact P.
  - apply Forall_forall. intros w Hw. apply in_map_iff in Hw. destruct Hw as (n & <- & Hn). rewrite Forall_forall in F.
    specialize (F n Hn). apply Qlt_shift_div_l; [exact P|]. rewrite Qmult_0_l. change 0%Q with (inject_Z 0). rewrite <- Zlt_Qlt. lia.
Qed.

Lemma draw_left {A} us (Hus : forall n, (0 <= us n < 1)%Q) lens (s : cit A) : Inv s -> Prp lens s -> length lens = length (c_iters s) ->
  exists k len, new_index (pick us) s = Ok (k, set_draw s (S (c_draws s)) (c_cur s) (c_inb s)) /\
    nth_error (c_alive s) k = Some true /\ nth_error lens k = Some len /\
    (Qn (sum (remaining (firstn k (c_alive s)) (firstn k lens))) <= us (c_draws s) * Qn (sum (remaining (c_alive s) lens)))%Q /\
    (us (c_draws s) * Qn (sum (remaining (c_alive s) lens)) < Qn (sum (remaining (firstn k (c_alive s)) (firstn k lens)) + len))%Q.
Proof.
  intros HI (c & Hc & Hp) HL. pose proof HI as (L & D & W & N & C & K).
  destruct (new_index_ok (pick us) (pick_In us) s HI) as (k & s1 & E & Hk & ->).
  assert (Hne : left_indexes (c_alive s) <> []) by (intros Z; rewrite Z in Hk; exact Hk).
  rewrite new_index_choices in E by exact Hne. destruct (choices _ _ _) as [k'|] eqn:Ec; [|discriminate]. injection E as ->.
  destruct (qsum_pos _ _ W) as [_ Q]. destruct (Q N) as [Qp _].
  destruct (choices_interval _ _ _ _ ltac:(rewrite (pos_weights_count _ _ W), left_length; reflexivity) Hne Qp (ip_nonneg _ _ _ _ Hc Hp) (Hus _) Ec)
    as (i & Ei & Hi & I1 & I2).
  unfold left_indexes in Ei. destruct (left_position (c_alive s) lens 0 i k ltac:(congruence) Ei) as (j & Ej & Ha & Hf & Hn). cbn in Ej. subst j.
  assert (Hlen : i < length (remaining (c_alive s) lens)) by (rewrite <- (ip_length _ _ _ _ Hp); exact Hi).
  destruct (nth_error lens k) as [len|] eqn:Elen; [|apply nth_error_None in Hn; lia].
  exists k, len. rewrite new_index_choices by exact Hne. rewrite Ec. split; [reflexivity|]. split; [exact Ha|]. split; [exact Elen|].
  pose proof (ip_sum _ _ _ _ Hp (length (some_weights (c_wts s)))) as T. rewrite firstn_all in T.
  rewrite (ip_length _ _ _ _ Hp), firstn_all in T.
  pose proof (ip_sum _ _ _ _ Hp i) as T1. pose proof (ip_sum _ _ _ _ Hp (S i)) as T2. rewrite Hf in T1.
  assert (Es : sum (firstn (S i) (remaining (c_alive s) lens)) = sum (remaining (firstn k (c_alive s)) (firstn k lens)) + len).
  { rewrite <- Hf. clear -Hn. revert i Hn. induction (remaining (c_alive s) lens) as [|v r IH]; intros [|i] Hn; try discriminate; cbn [nth_error] in Hn.
    - injection Hn as ->. cbn. lia.
    - change (sum (firstn (S (S i)) (v :: r))) with (v + sum (firstn (S i) r)). rewrite (IH i Hn).
      change (sum (firstn (S i) (v :: r))) with (v + sum (firstn i r)). lia. }
  rewrite Es in T2. rewrite T in I1, I2. rewrite T1 in I1. rewrite T2 in I2.
  set (u := us (c_draws s)) in *. set (a := Qn (sum (remaining (firstn k (c_alive s)) (firstn k lens)))) in *.
  set (b := Qn (sum (remaining (c_alive s) lens))) in *. set (d := Qn (sum (remaining (firstn k (c_alive s)) (firstn k lens)) + len)) in *.
  clearbody u a b d. split.
  - apply Qmult_le_l with c; [exact Hc|]. setoid_replace (c * (u * b))%Q with (u * (c * b))%Q by ring. exact I1.
  - apply Qmult_lt_l with c; [exact Hc|]. setoid_replace (c * (u * b))%Q with (u * (c * b))%Q by ring. exact I2.
Qed.
