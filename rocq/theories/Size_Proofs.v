From Coq Require Import String Decimal DecimalN DecimalFacts.
From Verif Require Import Base Names_Model Names_Spec Names_Proofs Size_Model.
From Coq Require Import NArith ZArith.
Local Open Scope list_scope.
Local Open Scope nat_scope.
Local Ltac Zify.zify_post_hook ::= idtac.

(** Rounding. *)
Local Open Scope N_scope.

Lemma pow2_pos n : 0 < 2 ^ n. Proof. apply N.neq_0_lt_0, N.pow_nonzero. discriminate. Qed.
Lemma den_pos q e : 0 < q -> 0 < den q e.
Proof. intros H. unfold den. pose proof (pow2_pos (Z.to_N e)). nia. Qed.
Lemma num_pos q e : 0 < q -> 0 < num q e.
Proof. intros H. unfold num. pose proof (pow2_pos (Z.to_N (- e))). nia. Qed.

Lemma num_pred p e q : (forall c, c * den q e <= num p e -> 2 * c * den q (e - 1) <= num p (e - 1)) /\
  (forall c, num p e < c * den q e -> num p (e - 1) < 2 * c * den q (e - 1)).
Proof.
  unfold num, den. destruct (Z.le_gt_cases e 0) as [He|He].
  - replace (Z.to_N e) with 0 by lia. replace (Z.to_N (e - 1)) with 0 by lia.
    replace (Z.to_N (- (e - 1))) with (N.succ (Z.to_N (- e))) by lia. rewrite N.pow_succ_r'. split; intros c H; nia.
  - replace (Z.to_N (- e)) with 0 by lia. replace (Z.to_N (- (e - 1))) with 0 by lia.
    replace (Z.to_N e) with (N.succ (Z.to_N (e - 1))) by lia. rewrite N.pow_succ_r'. split; intros c H; nia.
Qed.

Lemma scaled_bounds p q : 0 < p -> 0 < q ->
  let e := (Z.of_N (N.log2 p) - Z.of_N (N.log2 q) - 52)%Z in
  2 ^ 51 * den q e <= num p e /\ num p e < 2 ^ 53 * den q e.
Proof.
  intros Hp Hq e. pose proof (N.log2_spec p Hp) as [P1 P2]. pose proof (N.log2_spec q Hq) as [Q1 Q2].
  unfold num, den. set (lp := N.log2 p) in *. set (lq := N.log2 q) in *.
  destruct (Z.le_gt_cases e 0) as [He|He].
  - replace (Z.to_N e) with 0 by lia. set (d := Z.to_N (- e)). change (2 ^ 0) with 1.
    assert (Hd : lp + d = lq + 52) by (unfold d, e in *; lia).
    assert (E1 : 2 ^ lp * 2 ^ d = 2 ^ lq * 2 ^ 52) by (rewrite <- !N.pow_add_r, Hd; reflexivity).
    rewrite N.pow_succ_r' in P2, Q2. pose proof (pow2_pos d) as Hpd. revert E1 P1 P2 Q1 Q2 Hpd.
    generalize (2 ^ d) (2 ^ lp) (2 ^ lq). intros D LP LQ E1 P1 P2 Q1 Q2 Hpd.
    change (2 ^ 52) with (2 * 2 ^ 51) in E1. change (2 ^ 53) with (4 * 2 ^ 51). generalize dependent (2 ^ 51). intros K E1.
    split; nia.
  - replace (Z.to_N (- e)) with 0 by lia. set (d := Z.to_N e). change (2 ^ 0) with 1.
    assert (Hd : lp = lq + 52 + d) by (unfold d, e in *; lia).
    assert (E1 : 2 ^ lp = 2 ^ lq * 2 ^ 52 * 2 ^ d) by (rewrite Hd, !N.pow_add_r; reflexivity).
    rewrite N.pow_succ_r' in P2, Q2. pose proof (pow2_pos d) as Hpd. revert E1 P1 P2 Q1 Q2 Hpd.
    generalize (2 ^ d) (2 ^ lp) (2 ^ lq). intros D LP LQ E1 P1 P2 Q1 Q2 Hpd.
    change (2 ^ 52) with (2 * 2 ^ 51) in E1. change (2 ^ 53) with (4 * 2 ^ 51). generalize dependent (2 ^ 51). intros K E1.
    subst LP. split; [|nia]. assert (2 * (LQ * K * D) <= p) by nia. assert (K * (q * D) < 2 * (LQ * K * D) \/ K = 0) by nia. nia.
Qed.

(** The mantissa has 53 bits. *)
Lemma exponent_bounds p q : 0 < p -> 0 < q ->
  let e := exponent p q in 2 ^ 52 * den q e <= num p e /\ num p e < 2 ^ 53 * den q e.
Proof.
  intros Hp Hq e. unfold e, exponent. pose proof (scaled_bounds p q Hp Hq) as H. cbv zeta in *.
  set (e0 := (Z.of_N (N.log2 p) - Z.of_N (N.log2 q) - 52)%Z) in *. destruct H as [H1 H2].
  pose proof (den_pos q e0 Hq) as Hd.
  destruct (N.ltb_spec (num p e0 / den q e0) (2 ^ 52)) as [Hlt|Hge].
  - assert (H3 : num p e0 < 2 ^ 52 * den q e0).
    { rewrite N.mul_comm. apply N.div_lt_upper_bound in Hlt || (pose proof (N.mul_succ_div_gt (num p e0) (den q e0)); nia). }
    destruct (num_pred p e0 q) as [A B]. apply A in H1. apply B in H3.
    change (2 ^ 52) with (2 * 2 ^ 51). change (2 ^ 53) with (2 * 2 ^ 52). split; assumption.
  - split; [|exact H2]. pose proof (N.mul_div_le (num p e0) (den q e0)). nia.
Qed.

Lemma nearest_error a b : 0 < b -> 2 * (nearest a b * b) <= 2 * a + b /\ 2 * a <= 2 * (nearest a b * b) + b.
Proof.
  intros Hb. unfold nearest. pose proof (N.div_mod a b ltac:(lia)) as E. pose proof (N.mod_lt a b ltac:(lia)) as L.
  set (q := a / b) in *. set (r := a mod b) in *.
  destruct ((b <? 2 * r) || ((b =? 2 * r) && N.odd q)) eqn:C.
  - assert (b <= 2 * r).
    { apply orb_true_iff in C. destruct C as [C|C]; [apply N.ltb_lt in C; lia|].
      apply andb_true_iff in C. destruct C as [C _]. apply N.eqb_eq in C. lia. }
    split; nia.
  - apply orb_false_iff in C. destruct C as [C _]. apply N.ltb_ge in C. split; nia.
Qed.

Lemma nearest_exact x b : 0 < b -> nearest (x * b) b = x.
Proof.
  intros Hb. unfold nearest. rewrite N.div_mul, N.mod_mul by lia.
  replace (b <? 2 * 0) with false by (symmetry; apply N.ltb_ge; lia).
  replace (b =? 2 * 0) with false by (symmetry; apply N.eqb_neq; lia). reflexivity.
Qed.

(** [x] represents p/q up to 2^-53, relatively. *)
Lemma round_error p q : 0 < q -> let x := round p q in
  2 ^ 53 * (den (fst x) (snd x) * q) <= (2 ^ 53 + 1) * (p * num 1 (snd x)) /\
  (2 ^ 53 - 1) * (p * num 1 (snd x)) <= 2 ^ 53 * (den (fst x) (snd x) * q).
Proof.
  intros Hq x. unfold x, round. destruct (N.eqb_spec p 0) as [->|Hp]; cbn [fst snd].
  { unfold den, num. cbn. lia. }
  assert (Hp' : 0 < p) by lia. pose proof (exponent_bounds p q Hp' Hq) as H. cbv zeta in H. set (e := exponent p q) in *.
  pose proof (nearest_error (num p e) (den q e) (den_pos q e Hq)) as [E1 E2].
  set (m := nearest (num p e) (den q e)) in *. clearbody m. unfold den, num in *.
  destruct (Z.le_gt_cases e 0) as [He|He].
  - replace (Z.to_N e) with 0 in * by lia. change (2 ^ 0) with 1 in *. clearbody e. 
    generalize dependent (2 ^ Z.to_N (- e)). intros D. change (2 ^ 53) with (2 * 2 ^ 52). generalize dependent (2 ^ 52). intros; nia.
  - replace (Z.to_N (- e)) with 0 in * by lia. change (2 ^ 0) with 1 in *. clearbody e.
    generalize dependent (2 ^ Z.to_N e). intros D. change (2 ^ 53) with (2 * 2 ^ 52). generalize dependent (2 ^ 52). intros; nia.
Qed.

Lemma round_exact x q : 0 < q -> x < 2 ^ 53 -> let r := round (x * q) q in den (fst r) (snd r) = x * num 1 (snd r).
Proof.
  intros Hq Hx r. unfold r, round. destruct (N.eqb_spec (x * q) 0) as [H0|H0]; cbn [fst snd].
  { assert (x = 0) by nia. subst. reflexivity. }
  assert (Hp : 0 < x * q) by lia. pose proof (exponent_bounds (x * q) q Hp Hq) as H. cbv zeta in H.
  set (e := exponent (x * q) q) in *. destruct H as [H1 H2].
  destruct (Z.le_gt_cases e 0) as [He|He].
  - unfold num, den in *. replace (Z.to_N e) with 0 in * by lia. change (2 ^ 0) with 1 in *.
    replace (x * q * 2 ^ Z.to_N (- e)) with (x * 2 ^ Z.to_N (- e) * (q * 1)) by lia.
    rewrite nearest_exact by lia. lia.
  - exfalso. unfold num, den in *. replace (Z.to_N (- e)) with 0 in * by lia. change (2 ^ 0) with 1 in *.
    assert (2 <= 2 ^ Z.to_N e).
    { replace (Z.to_N e) with (N.succ (Z.to_N (e - 1))) by lia. rewrite N.pow_succ_r'. pose proof (pow2_pos (Z.to_N (e - 1))). lia. }
    generalize dependent (2 ^ Z.to_N e). intros D. change (2 ^ 53) with (2 * 2 ^ 52) in Hx. generalize dependent (2 ^ 52). intros; nia.
Qed.

(** Integers are exact. *)
Lemma size_exact n ratio : n * ratio < 2 ^ 53 -> 0 < ratio -> truncate (times (round n 1) ratio) = n * ratio.
Proof.
  intros H Hr. assert (Hn : n < 2 ^ 53) by nia. pose proof (round_exact n 1 ltac:(lia) Hn) as E. cbv zeta in E.
  rewrite N.mul_1_r in E. destruct (round n 1) as [m e]. cbn [fst snd] in E. unfold times. cbn [fst snd].
  assert (E' : den (m * ratio) e = n * ratio * num 1 e) by (unfold den in *; nia). rewrite E'.
  pose proof (round_exact (n * ratio) (num 1 e) (num_pos 1 e ltac:(lia)) H) as F. cbv zeta in F.
  destruct (round (n * ratio * num 1 e) (num 1 e)) as [m' e']. cbn [fst snd] in F. unfold truncate. cbn [fst snd].
  rewrite F. apply N.div_mul. pose proof (num_pos 1 e' ltac:(lia)). lia.
Qed.

(** Decimal fractions are off by less than two. *)
Lemma size_error m k ratio : 0 < k -> m * ratio < 2 ^ 51 * k -> 
  let r := truncate (times (round m k) ratio) in
  10 * r * k <= 10 * (m * ratio) + 6 * k /\ 10 * (m * ratio) < 10 * (r + 1) * k + 6 * k.
Proof.
  intros Hk H r. unfold r. clear r. pose proof (round_error m k Hk) as E. cbv zeta in E. destruct (round m k) as [m1 e1].
  cbn [fst snd] in E. unfold times. cbn [fst snd].
  assert (E0 : den (m1 * ratio) e1 = den m1 e1 * ratio) by (unfold den; lia). rewrite E0.
  set (A := den m1 e1) in *. assert (HB : 0 < num 1 e1) by (apply num_pos; lia). set (B := num 1 e1) in *. clearbody A B. clear E0.
  pose proof (round_error (A * ratio) B HB) as F. cbv zeta in F. destruct (round (A * ratio) B) as [m2 e2]. cbn [fst snd] in F.
  unfold truncate. cbn [fst snd]. set (C := den m2 e2) in *. assert (HD : 0 < num 1 e2) by (apply num_pos; lia).
  set (D := num 1 e2) in *. clearbody C D.
  pose proof (N.mul_div_le C D ltac:(lia)) as G1. pose proof (N.mul_succ_div_gt C D ltac:(lia)) as G2. set (r := C / D) in *. clearbody r.
  destruct E as [E1 E2], F as [F1 F2].
  (* multiply out: C/D <= (1+u)^2 m ratio / k *)
  assert (X1 : 2 ^ 106 * (C * k * B) <= (2 ^ 53 + 1) * (2 ^ 53 + 1) * (m * ratio * D * B)).
  { change (2 ^ 106) with (2 ^ 53 * 2 ^ 53). generalize dependent (2 ^ 53). intros K; intros.
    assert (K * (K * (C * B)) * k <= K * ((K + 1) * (A * ratio * D)) * k) by (apply N.mul_le_mono_r, N.mul_le_mono_l; nia).
    assert (K * (A * k) * ((K + 1) * (ratio * D)) <= (K + 1) * (m * B) * ((K + 1) * (ratio * D))) by (apply N.mul_le_mono_r; nia). nia. }
  assert (X2 : (2 ^ 53 - 1) * (2 ^ 53 - 1) * (m * ratio * D * B) <= 2 ^ 106 * (C * k * B)).
  { change (2 ^ 106) with (2 ^ 53 * 2 ^ 53). generalize dependent (2 ^ 53 - 1). generalize dependent (2 ^ 53). intros K; intros. rename n into J.
    assert (K * (J * (A * ratio * D)) * k <= K * (K * (C * B)) * k) by (apply N.mul_le_mono_r, N.mul_le_mono_l; nia).
    assert (J * (m * B) * (J * (ratio * D)) <= K * (A * k) * (J * (ratio * D))) by (apply N.mul_le_mono_r; nia).
    replace (J * J * (m * ratio * D * B)) with (J * (m * B) * (J * (ratio * D))) by ring.
    replace (K * K * (C * k * B)) with (K * (K * (C * B)) * k) by ring.
    replace (K * (J * (A * ratio * D)) * k) with (K * (A * k) * (J * (ratio * D))) in H0 by ring. lia. }
  assert (Y1 : 2 ^ 106 * (C * k) <= (2 ^ 53 + 1) * (2 ^ 53 + 1) * (m * ratio * D)) by nia.
  assert (Y2 : (2 ^ 53 - 1) * (2 ^ 53 - 1) * (m * ratio * D) <= 2 ^ 106 * (C * k)) by nia. clear X1 X2 E1 E2 F1 F2.
  set (x := m * ratio) in *. clearbody x. clear A B HB.
  change ((2 ^ 53 + 1) * (2 ^ 53 + 1)) with (2 ^ 106 + 2 ^ 54 + 1) in Y1.
  change ((2 ^ 53 - 1) * (2 ^ 53 - 1)) with (2 ^ 106 - 2 ^ 54 + 1) in Y2.
  assert (Z1 : 2 ^ 106 * (r * k) <= (2 ^ 106 + 2 ^ 54 + 1) * x) by nia.
  assert (Z2 : (2 ^ 106 - 2 ^ 54 + 1) * x < 2 ^ 106 * ((r + 1) * k)) by nia.
  clear Y1 Y2 G1 G2 C D HD. change (2 ^ 106) with 81129638414606681695789005144064 in *. change (2 ^ 54) with 18014398509481984 in *.
  change (2 ^ 51) with 2251799813685248 in *. split; lia.
Qed.

Local Open Scope nat_scope.

(** Strings. *)
Definition blanks (s : str) : Prop := Forall (fun c => blank c = true) s.

Lemma blank_lower c : blank (lower_char c) = blank c.
Proof.
  unfold lower_char. destruct ((65 <=? c) && (c <=? 90))%N eqn:E; [|reflexivity].
  apply andb_true_iff in E. destruct E as [E1 E2]. apply N.leb_le in E1, E2. unfold blank.
  destruct (N.leb_spec (c + 32) 13); destruct (N.leb_spec (c + 32) 32); destruct (N.leb_spec c 13); destruct (N.leb_spec c 32); lia.
Qed.
Lemma lower_lower s : lower (lower s) = lower s.
Proof.
  unfold lower. rewrite map_map. apply map_ext. intros c. unfold lower_char at 1.
  destruct ((65 <=? lower_char c) && (lower_char c <=? 90))%N eqn:E; [|reflexivity].
  apply andb_true_iff in E. destruct E as [E1 E2]. apply N.leb_le in E1, E2. unfold lower_char in *.
  destruct ((65 <=? c) && (c <=? 90))%N eqn:E; [|apply andb_false_iff in E; destruct E as [E|E]; apply N.leb_gt in E; lia].
  apply andb_true_iff in E. destruct E as [E3 E4]. apply N.leb_le in E3, E4. lia.
Qed.
Lemma lstrip_blanks b s : blanks b -> lstrip (b ++ s) = lstrip s.
Proof. induction 1 as [|c b Hc _ IH]; [reflexivity|]. cbn. rewrite Hc. exact IH. Qed.
Lemma blanks_rev b : blanks b -> blanks (rev b).
Proof. intros H. apply Forall_rev. exact H. Qed.
(** A word: it neither begins nor ends with a blank. *)
Definition word (s : str) : Prop :=
  match s with [] => False | c :: _ => blank c = false end /\ match rev s with [] => False | c :: _ => blank c = false end.
Lemma lstrip_word c s : blank c = false -> lstrip (c :: s) = c :: s.
Proof. intros H. cbn. rewrite H. reflexivity. Qed.
Lemma strip_word a s b : blanks a -> blanks b -> word s -> strip (a ++ s ++ b) = s.
Proof.
  intros Ha Hb [H1 H2]. unfold strip. rewrite lstrip_blanks by exact Ha.
  destruct s as [|c s]; [contradiction|]. cbn [app]. rewrite (lstrip_word c (s ++ b) H1).
  replace (rev (c :: s ++ b)) with (rev b ++ rev (c :: s)) by (rewrite <- rev_app_distr; reflexivity).
  rewrite lstrip_blanks by (apply blanks_rev; exact Hb).
  destruct (rev (c :: s)) as [|d r] eqn:E; [contradiction|]. rewrite (lstrip_word d r H2), <- E. apply rev_involutive.
Qed.
Lemma word_lower s : word s -> word (lower s).
Proof.
  unfold word, lower. intros [H1 H2]. rewrite <- map_rev. split.
  - destruct s; [exact H1|]. cbn. rewrite blank_lower. exact H1.
  - destruct (rev s); [exact H2|]. cbn. rewrite blank_lower. exact H2.
Qed.
Lemma blanks_lower s : blanks s -> blanks (lower s).
Proof. unfold blanks, lower. intros H. apply Forall_map. eapply Forall_impl; [|exact H]. intros c Hc. rewrite blank_lower. exact Hc. Qed.

Lemma digit_not_blank c : is_digit c -> blank c = false.
Proof.
  unfold is_digit, blank. intros H.
  destruct (N.leb_spec c 13); [lia|]. destruct (N.leb_spec c 32); [lia|]. rewrite !andb_false_r. reflexivity.
Qed.
Lemma digit_lower c : is_digit c -> lower_char c = c.
Proof. unfold is_digit, lower_char. intros H. destruct (N.leb_spec 65 c); [lia|reflexivity]. Qed.
Lemma starts_refl p s : starts p (p ++ s) = true.
Proof. apply starts_app. Qed.
Lemma starts_spec p s : starts p s = true -> exists t, s = p ++ t.
Proof.
  revert s; induction p as [|a p IH]; intros s H; [exists s; reflexivity|]. destruct s as [|b s]; [discriminate H|].
  cbn in H. apply andb_true_iff in H. destruct H as [H1 H2]. apply N.eqb_eq in H1. subst. destruct (IH s H2) as [t ->]. exists t. reflexivity.
Qed.
Lemma ends_spec p s : ends p s = true <-> exists t, s = t ++ p.
Proof.
  unfold ends. split.
  - intros H. apply starts_spec in H. destruct H as [t H]. exists (rev t).
    rewrite <- (rev_involutive s), H, rev_app_distr, rev_involutive. reflexivity.
  - intros [t ->]. rewrite rev_app_distr. apply starts_app.
Qed.

(** Text that ends with one of the units. *)
Lemma convert_unit other unit ratio us x : 
  In (unit, ratio) us -> length unit = 2 -> Forall (fun u => length (fst u) = 2) us -> NoDup (map fst us) ->
  word x -> lower x = x -> ends unit x = true ->
  convert_from other us x =
    match literal (firstn (length x - 2) x) with
    | Some (m, k) => Ok (Z.of_N (truncate (times (round m (10 ^ N.of_nat k)) ratio)))
    | None => other (firstn (length x - 2) x) ratio
    end.
Proof.
  intros Hin Hu2. revert Hin. induction us as [|[u r] us IH]; intros Hin Hl Hd Hw Hlow He; [contradiction|].
  cbn [convert_from]. rewrite Hlow. pose proof (strip_word [] x [] ltac:(constructor) ltac:(constructor) Hw) as S. cbn [app] in S.
  rewrite app_nil_r in S. rewrite S. rewrite Hlow.
  inversion Hl as [|? ? Hlu Hl']; subst. cbn [fst] in Hlu. cbn [map fst] in Hd. inversion Hd as [|? ? Hn Hd']; subst.
  destruct (ends u x) eqn:E.
  - assert (u = unit).
    { apply ends_spec in E, He. destruct E as [t1 E], He as [t2 He]. rewrite E in He.
      apply app_inj_tail_iff in He || idtac.
      assert (L : length t1 = length t2) by (apply (f_equal (@length N)) in He; rewrite !app_length in He; lia).
      clear - He L. revert t2 He L. induction t1 as [|a t1 IHt]; intros [|b t2] He L; cbn in *; try lia; [exact He|].
      injection He as _ He. apply (IHt t2 He). lia. }
    subst u. destruct Hin as [Heq|Hin]; [injection Heq as ->; rewrite Hu2; reflexivity|].
    exfalso. apply Hn. apply (in_map fst) in Hin. exact Hin.
  - destruct Hin as [Heq|Hin]; [injection Heq as -> ->; congruence|]. apply IH; assumption.
Qed.

Lemma units_ok : Forall (fun u => length (fst u) = 2) units /\ NoDup (map fst units) /\
  Forall (fun u => forall c, In c (fst u) -> blank c = false) units.
Proof.
  split; [repeat constructor|]. split.
  - cbn. repeat constructor; cbn; intuition discriminate.
  - repeat constructor; cbn; intros c H; repeat (destruct H as [<-|H]; [reflexivity|]); contradiction.
Qed.

Lemma convert_lower other us a x b : blanks a -> blanks b -> word x -> us <> [] ->
  convert_from other us (a ++ x ++ b) = convert_from other us (lower x).
Proof.
  intros Ha Hb Hx Hus. destruct us as [|[u r] us]; [congruence|]. cbn [convert_from].
  assert (E : strip (lower (a ++ x ++ b)) = strip (lower (lower x))).
  { unfold lower. rewrite !map_app. fold (lower a) (lower x) (lower b).
    rewrite strip_word by (apply blanks_lower || apply word_lower; assumption).
    fold (lower (lower x)). rewrite lower_lower.
    pose proof (strip_word [] (lower x) [] ltac:(constructor) ltac:(constructor) (word_lower x Hx)) as S. cbn [app] in S.
    rewrite app_nil_r in S. symmetry. exact S. }
  rewrite E. reflexivity.
Qed.

(** Digits are read in base ten. *)
Lemma of_uint_acc_value u : forall acc, N.pos (Pos.of_uint_acc u acc) = fold_left (fun v c => 10 * v + (c - 48))%N (digits u) (N.pos acc).
Proof.
  induction u; intros acc; cbn [Pos.of_uint_acc digits fold_left]; [reflexivity|..]; rewrite IHu; f_equal; lia.
Qed.
Lemma of_uint_value u : N.of_uint u = value (digits u).
Proof.
  unfold value, N.of_uint. induction u; cbn [Pos.of_uint digits fold_left]; [reflexivity|exact IHu|..]; apply of_uint_acc_value.
Qed.
Lemma undigits_ok s : Forall is_digit s -> exists u, undigits s = Some u /\ digits u = s.
Proof.
  induction 1 as [|c s Hc _ IH]; [exists Decimal.Nil; split; reflexivity|].
  destruct IH as (u & E & D). cbn [undigits]. rewrite E.
  assert (C : In c [48; 49; 50; 51; 52; 53; 54; 55; 56; 57]%N).
  { unfold is_digit in Hc. cbn. lia. }
  cbn in C. repeat (destruct C as [<-|C]; [eexists; split; [reflexivity|cbn; rewrite D; reflexivity]|]). contradiction.
Qed.
Lemma number_value s : Forall is_digit s -> number s = Some (value s).
Proof. intros H. destruct (undigits_ok s H) as (u & E & D). unfold number. rewrite E, of_uint_value, D. reflexivity. Qed.

Lemma decimal_chars s m k : decimal s m k -> s <> [] /\ Forall (fun c => is_digit c \/ c = dot) s.
Proof.
  intros (i & f & Hi & Hf & Hn & _ & _ & H). split.
  - destruct H as [->|[-> ->]]; [destruct i; discriminate|]. rewrite app_nil_r in Hn. exact Hn.
  - destruct H as [->|[-> ->]].
    + apply Forall_app. split; [eapply Forall_impl; [|exact Hi]; tauto|]. constructor; [right; reflexivity|].
      eapply Forall_impl; [|exact Hf]; tauto.
    + eapply Forall_impl; [|exact Hi]; tauto.
Qed.

Lemma chars_word s : s <> [] -> Forall (fun c => is_digit c \/ c = dot) s -> word s.
Proof.
  intros Hn H. assert (G : forall t, t <> [] -> Forall (fun c => is_digit c \/ c = dot) t -> match t with [] => False | c :: _ => blank c = false end).
  { intros [|c t] Ht F; [congruence|]. inversion F as [|? ? [Hc|Hc] _]; subst; [apply digit_not_blank; exact Hc|reflexivity]. }
  split; [apply G; assumption|]. apply G; [|apply Forall_rev; exact H].
  intros E. apply Hn. rewrite <- (rev_involutive s), E. reflexivity.
Qed.
Lemma chars_lower s : Forall (fun c => is_digit c \/ c = dot) s -> lower s = s.
Proof. induction 1 as [|c s [Hc|Hc] _ IH]; [reflexivity| |]; unfold lower in *; cbn [map]; rewrite IH; [rewrite digit_lower by exact Hc; reflexivity|subst; reflexivity]. Qed.

Lemma literal_decimal s m k b : decimal s m k -> blanks b -> literal (s ++ b) = Some (m, k).
Proof.
  intros H Hb. pose proof (decimal_chars s m k H) as [Hn Hc]. unfold literal.
  pose proof (strip_word [] s b ltac:(constructor) Hb (chars_word s Hn Hc)) as S. cbn [app] in S. rewrite S.
  destruct H as (i & f & Hi & Hf & Hne & Hm & Hk & H).
  assert (Hm' : number (i ++ f) = Some m) by (rewrite number_value by (apply Forall_app; split; assumption); rewrite Hm; reflexivity).
  clear Hm. rename Hm' into Hm. destruct H as [->|[-> ->]].
  - rewrite split_at by (apply digits_not; [exact Hi|exact not_digit_dot]).
    rewrite split_none by (apply digits_not; [exact Hf|exact not_digit_dot]).
    rewrite Hm, Hk. destruct i as [|c i]; [|reflexivity]. destruct f as [|d f]; [contradiction Hne; reflexivity|reflexivity].
  - rewrite split_none by (apply digits_not; [exact Hi|exact not_digit_dot]).
    rewrite app_nil_r in Hm, Hne. rewrite Hm. cbn in Hk. subst. destruct i; [congruence|reflexivity].
Qed.

(** blanks, a decimal literal, blanks, a unit in any case, blanks. *)
Lemma convert_decimal other pre s m k mid u post unit ratio :
  blanks pre -> decimal s m k -> blanks mid -> blanks post -> In (unit, ratio) units -> lower u = unit ->
  convert other (pre ++ (s ++ mid ++ u) ++ post) = Ok (Z.of_N (truncate (times (round m (10 ^ N.of_nat k)) ratio))).
Proof.
  intros Hpre Hs Hmid Hpost Hu Hlu. destruct units_ok as (U1 & U2 & U3).
  pose proof (decimal_chars s m k Hs) as [Hn Hc].
  assert (Lu : length unit = 2) by (rewrite Forall_forall in U1; exact (U1 _ Hu)).
  assert (Bu : Forall (fun c => blank c = false) u).
  { rewrite Forall_forall in *. intros c Hin. rewrite <- blank_lower. apply (U3 _ Hu). cbn [fst]. rewrite <- Hlu. apply in_map. exact Hin. }
  assert (Lu' : length u = 2) by (rewrite <- Lu, <- Hlu; unfold lower; rewrite map_length; reflexivity).
  assert (W : word (s ++ mid ++ u)).
  { pose proof (chars_word s Hn Hc) as [W1 _]. split.
    - destruct s; [congruence|]. exact W1.
    - rewrite !rev_app_distr. pose proof (Forall_rev Bu) as Br. destruct (rev u) as [|c r] eqn:E.
      + apply (f_equal (@length N)) in E. rewrite rev_length in E. cbn in E. lia.
      + cbn. inversion Br; assumption. }
  unfold convert. rewrite convert_lower by (assumption || discriminate).
  assert (El : lower (s ++ mid ++ u) = s ++ lower mid ++ unit).
  { unfold lower in *. rewrite !map_app. rewrite Hlu. f_equal. apply chars_lower. exact Hc. }
  rewrite (convert_unit other unit ratio units).
  - rewrite El. rewrite !app_length. rewrite Lu. replace (length s + (length (lower mid) + 2) - 2) with (length s + length (lower mid)) by lia.
    rewrite app_assoc, firstn_app, app_length, Nat.sub_diag, firstn_O, app_nil_r, <- app_length, firstn_all.
    rewrite (literal_decimal s m k (lower mid) Hs) by (apply blanks_lower; exact Hmid). reflexivity.
  - exact Hu.
  - exact Lu.
  - exact U1.
  - exact U2.
  - apply word_lower. exact W.
  - apply lower_lower.
  - apply ends_spec. rewrite El. exists (s ++ lower mid). rewrite app_assoc. reflexivity.
Qed.

(** Without one of the units there is a ValueError. *)
Lemma strip_split s : exists a b, blanks a /\ blanks b /\ s = a ++ strip s ++ b.
Proof.
  assert (L : forall s, exists a, blanks a /\ s = a ++ lstrip s).
  { induction s0 as [|c s0 IH]; [exists []; split; [constructor|reflexivity]|]. cbn. destruct (blank c) eqn:E.
    - destruct IH as (a & Ha & IH). exists (c :: a). split; [constructor; assumption|]. cbn. rewrite <- IH. reflexivity.
    - exists []. split; [constructor|reflexivity]. }
  destruct (L s) as (a & Ha & Ea). destruct (L (rev (lstrip s))) as (b & Hb & Eb).
  exists a, (rev b). split; [exact Ha|]. split; [apply blanks_rev; exact Hb|]. unfold strip.
  rewrite <- rev_app_distr, <- Eb, rev_involutive. exact Ea.
Qed.

Lemma convert_no_unit other us : forall s,
  (forall t u post unit ratio, In (unit, ratio) us -> lower u = unit -> blanks post -> s <> t ++ u ++ post) ->
  convert_from other us s = Err ValueError.
Proof.
  induction us as [|[u r] us IH]; intros s H; [reflexivity|]. cbn [convert_from].
  destruct (strip_split (lower s)) as (a & b & Ha & Hb & E). set (x := strip (lower s)) in *.
  assert (Lx : lower x = x).
  { pose proof (lower_lower s) as LL. rewrite E in LL at 1. unfold lower in LL. rewrite !map_app in LL. fold (lower s) in LL. 
    rewrite E in LL. 
    assert (La : length (map lower_char a) = length a) by apply map_length.
    assert (G : forall (p p' q q' : str), length p = length p' -> p ++ q = p' ++ q' -> p = p' /\ q = q').
    { clear. induction p as [|c p IH]; intros [|d p'] q q' L H; cbn in *; try lia; [auto|]. injection H as -> H.
      destruct (IH p' q q' ltac:(lia) H) as [-> ->]. auto. }
    apply G in LL; [|exact La]. destruct LL as [_ LL]. apply G in LL; [|apply map_length]. exact (proj1 LL). }
  rewrite Lx.
  assert (T : forall t p q, lower s = t ++ p ++ q -> exists t' p' q', s = t' ++ p' ++ q' /\ lower p' = p /\ lower q' = q).
  { intros t p q Hs. unfold lower in Hs. apply map_eq_app in Hs. destruct Hs as (t' & s' & -> & _ & Hs).
    apply map_eq_app in Hs. destruct Hs as (p' & q' & -> & Hp & Hq). exists t', p', q'. auto. }
  destruct (ends u x) eqn:En.
  - exfalso. apply ends_spec in En. destruct En as [t Et]. rewrite Et in E. rewrite <- app_assoc, app_assoc in E.
    destruct (T _ _ _ E) as (t' & p' & q' & -> & Hp & Hq). apply (H t' p' q' u r); [left; reflexivity|exact Hp| |reflexivity].
    unfold blanks in *. rewrite <- Hq in Hb. unfold lower in Hb. rewrite Forall_map in Hb. eapply Forall_impl; [|exact Hb].
    intros c Hc. cbn beta in Hc. rewrite blank_lower in Hc. exact Hc.
  - apply IH. intros t v post unit ratio Hin Hv Hpost Hx. subst unit.
    rewrite Hx in E. rewrite <- !app_assoc in E. 
    destruct (T (a ++ t) v (post ++ b)) as (t' & p' & q' & -> & Hp & Hq); [rewrite E, <- app_assoc; reflexivity|].
    apply (H t' p' q' (lower v) ratio); [right; exact Hin|rewrite <- Hp, lower_lower; reflexivity| |reflexivity].
    assert (Hb' : blanks (lower q')) by (rewrite Hq; apply Forall_app; split; assumption).
    unfold blanks, lower in *. rewrite Forall_map in Hb'. eapply Forall_impl; [|exact Hb'].
    intros c Hc. cbn beta in Hc. rewrite blank_lower in Hc. exact Hc.
Qed.


Lemma blanks_iff s : blanks s <-> Forall is_blank s.
Proof.
  unfold blanks. apply Forall_iff || (split; apply Forall_impl); intros c; unfold is_blank, blank;
  destruct (N.leb_spec 9 c), (N.leb_spec c 13), (N.leb_spec 28 c), (N.leb_spec c 32); cbn; lia.
Qed.

Lemma size_unit_iff u ratio : size_unit u ratio <-> exists unit, In (unit, ratio) units /\ lower u = unit.
Proof.
  split.
  - intros [a b Ha Hb|a b Ha Hb|a b Ha Hb|a b Ha Hb]; cbn in Ha, Hb; eexists; (split; [|reflexivity]);
    destruct Ha as [<-|[<-|[]]], Hb as [<-|[<-|[]]]; cbn; tauto.
  - intros (unit & Hin & <-).
    assert (L : forall c x, (97 <= x <= 122)%N -> lower_char c = x -> In c [x - 32; x]%N).
    { intros c x Hx H. cbn. unfold lower_char in H. destruct (N.leb_spec 65 c), (N.leb_spec c 90); cbn in H; lia. }
    cbn in Hin.
    assert (U : forall x y r, (97 <= x <= 122)%N -> (97 <= y <= 122)%N -> ([x; y], r) = (lower u, ratio) ->
              exists a b, u = [a; b] /\ In a [x - 32; x]%N /\ In b [y - 32; y]%N /\ r = ratio).
    { intros x y r Hx Hy H. injection H as H ->. destruct u as [|a [|b [|c u]]]; try discriminate H.
      cbn in H. injection H as H1 H2. exists a, b. split; [reflexivity|]. split; [apply L; auto|]. split; [apply L; auto|reflexivity]. }
    destruct Hin as [H|[H|[H|[H|[]]]]]; apply U in H; try lia; destruct H as (a & b & -> & Ha & Hb & <-); constructor; assumption.
Qed.

Lemma size_decimal other pre s m k mid u post ratio :
  Forall is_blank pre -> decimal s m k -> Forall is_blank mid -> size_unit u ratio -> Forall is_blank post ->
  convert other (pre ++ s ++ mid ++ u ++ post) = Ok (Z.of_N (truncate (times (round m (10 ^ N.of_nat k)) ratio))).
Proof.
  intros H1 H2 H3 H4 H5. apply size_unit_iff in H4. destruct H4 as (unit & Hin & Hl). apply blanks_iff in H1, H3, H5.
  rewrite <- (convert_decimal other pre s m k mid u post unit ratio H1 H2 H3 H5 Hin Hl). f_equal. rewrite <- !app_assoc. reflexivity.
Qed.

Lemma size_no_unit other s :
  (forall t u ratio post, size_unit u ratio -> Forall is_blank post -> s <> t ++ u ++ post) -> convert other s = Err ValueError.
Proof.
  intros H. apply convert_no_unit. intros t u post unit ratio Hin Hl Hp. apply H with ratio; [apply size_unit_iff; exists unit; auto|apply blanks_iff; exact Hp].
Qed.
