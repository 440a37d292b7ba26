(** Integers stored in a column of floats and the other way round. *)
From Verif Require Import Base Format_Model Codec_Model Codec_Spec Codec_Proofs.
From Coq Require Import NArith ZArith Lia.
Local Ltac Zify.zify_post_hook ::= idtac.
Local Open Scope N_scope.

Lemma pow_split a b : a <= b -> 2 ^ b = 2 ^ (b - a) * 2 ^ a.
Proof. intros H. rewrite <- N.pow_add_r. f_equal. lia. Qed.

Lemma int_to_float_bits z :
  (z <> 0)%Z -> (Z.abs z < 2 ^ 53)%Z ->
  let n := Z.to_N (Z.abs z) in
  exists k m, k <= 52 /\ m < 2 ^ 52 /\ m + 2 ^ 52 = n * 2 ^ (52 - k) /\
    int_to_float z = Ok ((if (z <? 0)%Z then 2 ^ 63 else 0) + ((1023 + k) * 2 ^ 52 + m)).
Proof.
  intros Hz Hb n. exists (N.log2 n).
  assert (Hn : 0 < n) by (unfold n; lia).
  assert (Hn2 : n < 2 ^ 53) by (unfold n; change (2 ^ 53) with (Z.to_N (2 ^ 53)); lia).
  pose proof (N.log2_spec n Hn) as [L1 L2].
  assert (Hk : N.log2 n <= 52).
  { destruct (N.le_gt_cases (N.log2 n) 52) as [H|H]; [exact H|]. exfalso.
    assert (2 ^ 53 <= 2 ^ N.log2 n) by (apply N.pow_le_mono_r; lia). lia. }
  assert (H1 : 2 ^ 52 <= n * 2 ^ (52 - N.log2 n)).
  { rewrite (pow_split (N.log2 n) 52) by exact Hk. rewrite N.mul_comm. apply N.mul_le_mono_r. exact L1. }
  assert (H2 : n * 2 ^ (52 - N.log2 n) < 2 ^ 53).
  { change 53 with (N.succ 52). rewrite N.pow_succ_r'.
    rewrite (pow_split (N.log2 n) 52) by exact Hk.
    rewrite N.pow_succ_r' in L2. assert (0 < 2 ^ (52 - N.log2 n)) by (apply N.neq_0_lt_0, N.pow_nonzero; lia). nia. }
  exists (n * 2 ^ (52 - N.log2 n) - 2 ^ 52). split; [exact Hk|]. split.
  { assert (E : 2 ^ 53 = 2 ^ 52 + 2 ^ 52) by reflexivity. lia. }
  split; [lia|].
  unfold int_to_float. fold n.
  rewrite (proj2 (N.eqb_neq n 0)) by lia. cbv zeta.
  rewrite (proj2 (N.leb_gt 1024 (N.log2 n))) by lia.
  rewrite (proj2 (N.leb_le (N.log2 n) 52)) by exact Hk.
  rewrite (proj2 (N.leb_gt _ _)); [reflexivity|].
  assert (E : 2047 * 2 ^ 52 = 1076 * 2 ^ 52 + 971 * 2 ^ 52) by reflexivity.
  assert (E2 : 2 ^ 53 = 2 ^ 52 + 2 ^ 52) by reflexivity.
  assert ((1023 + N.log2 n) * 2 ^ 52 <= 1075 * 2 ^ 52) by (apply N.mul_le_mono_r; lia).
  lia.
Qed.

(** The fields of a double. *)
Lemma float_fields (s e m : N) :
  s = 0 \/ s = 2 ^ 63 -> e < 2048 -> m < 2 ^ 52 ->
  let bits := s + (e * 2 ^ 52 + m) in
  (bits / 2 ^ 52) mod 2048 = e /\ bits mod 2 ^ 52 = m /\ (bits <? 2 ^ 63) = (s =? 0).
Proof.
  intros Hs He Hm bits.
  assert (Hb : bits = (if s =? 0 then 0 else 2048) * 2 ^ 52 + (e * 2 ^ 52 + m)).
  { unfold bits. destruct Hs as [->| ->]; reflexivity. }
  assert (D : bits / 2 ^ 52 = (if s =? 0 then 0 else 2048) + e).
  { symmetry. apply (N.div_unique _ _ _ m); [exact Hm|]. rewrite Hb. ring. }
  split; [|split].
  - rewrite D. destruct (s =? 0).
    + apply N.mod_small. exact He.
    + symmetry. apply (N.mod_unique _ _ 1); lia.
  - symmetry. apply (N.mod_unique _ _ ((if s =? 0 then 0 else 2048) + e)); [exact Hm|]. rewrite Hb. ring.
  - assert (E : 2 ^ 63 = 2048 * 2 ^ 52) by reflexivity.
    destruct Hs as [->| ->]; unfold bits.
    + cbn [N.eqb]. apply N.ltb_lt. nia.
    + replace (2 ^ 63 =? 0) with false by reflexivity. apply N.ltb_ge. lia.
Qed.

Local Opaque N.pow.

Lemma div_pow M e : 1023 <= e -> e < 1075 -> (M * 2 ^ e) / 2 ^ 1075 = M / 2 ^ (1075 - e).
Proof.
  intros _ H. rewrite (pow_split e 1075) by lia. apply N.div_mul_cancel_r; apply N.pow_nonzero; lia.
Qed.

Lemma float_to_int_ok bits :
  finite bits -> float_to_int bits = Ok (Z.quot (double_scaled bits) (Z.of_N (2 ^ 1075))).
Proof.
  intros Hf. unfold float_to_int, double_scaled. fold (double_exp bits).
  rewrite (proj2 (N.eqb_neq (double_exp bits) 2047)) by exact Hf. cbv zeta.
  set (e := double_exp bits) in *. set (m := bits mod 2 ^ 52).
  assert (Hm : m < 2 ^ 52) by (apply N.mod_lt, N.pow_nonzero; lia).
  assert (P : forall k, 2 ^ k <> 0) by (intros k; apply N.pow_nonzero; lia).
  set (a := if e =? 0 then m * 2 else (m + 2 ^ 52) * 2 ^ e).
  set (n := if e <? 1023 then 0 else if e <? 1075 then (m + 2 ^ 52) / 2 ^ (1075 - e) else (m + 2 ^ 52) * 2 ^ (e - 1075)).
  assert (E : n = a / 2 ^ 1075).
  { unfold n, a. destruct (N.ltb_spec e 1023) as [H|H].
    - symmetry. apply N.div_small. destruct (N.eqb_spec e 0) as [->|H0].
      + assert (2 ^ 53 <= 2 ^ 1075) by (apply N.pow_le_mono_r; lia).
        change 53 with (N.succ 52) in H0. rewrite N.pow_succ_r' in H0. lia.
      + assert (2 ^ 1075 = 2 ^ 53 * 2 ^ 1022) by (rewrite <- N.pow_add_r; reflexivity).
        assert (2 ^ e <= 2 ^ 1022) by (apply N.pow_le_mono_r; lia).
        assert (E53 : 2 ^ 53 = 2 * 2 ^ 52) by (rewrite <- N.pow_succ_r'; reflexivity).
        pose proof (P 1022) as P2. rewrite H1, E53. nia.
    - rewrite (proj2 (N.eqb_neq e 0)) by lia. destruct (N.ltb_spec e 1075) as [H2|H2].
      + symmetry. apply div_pow; assumption.
      + rewrite (pow_split 1075 e) by exact H2. rewrite N.mul_assoc, N.div_mul by apply P. reflexivity. }
  rewrite E. f_equal.
  assert (Hq : Z.of_N (a / 2 ^ 1075) = Z.quot (Z.of_N a) (Z.of_N (2 ^ 1075))).
  { rewrite N2Z.inj_div. symmetry. apply Z.quot_div_nonneg; [lia|]. specialize (P 1075). lia. }
  rewrite Hq. destruct (bits <? 2 ^ 63); [reflexivity|]. rewrite Z.quot_opp_l; [reflexivity|]. specialize (P 1075). lia.
Qed.

Lemma int_to_float_exact z :
  (Z.abs z < 2 ^ 53)%Z ->
  exists x, int_to_float z = Ok x /\ x < 2 ^ 64 /\ finite x /\ double_scaled x = (z * Z.of_N (2 ^ 1075))%Z.
Proof.
  intros Hb. destruct (Z.eq_dec z 0) as [->|Hz].
  - exists 0. split; [reflexivity|]. split; [reflexivity|]. split; [discriminate|]. reflexivity.
  - destruct (int_to_float_bits z Hz Hb) as (k & m & Hk & Hm & E & ->).
    set (s := if (z <? 0)%Z then 2 ^ 63 else 0).
    eexists. split; [reflexivity|].
    assert (Hs : s = 0 \/ s = 2 ^ 63) by (unfold s; destruct (z <? 0)%Z; auto).
    destruct (float_fields s (1023 + k) m Hs) as (F1 & F2 & F3); [lia|exact Hm|].
    split; [|split].
    + assert (E64 : 2 ^ 64 = 2 ^ 63 + 2048 * 2 ^ 52) by reflexivity. pose proof (N.pow_nonzero 2 52 ltac:(lia)).
      rewrite E64. assert ((1023 + k) * 2 ^ 52 <= 1075 * 2 ^ 52) by (apply N.mul_le_mono_r; lia).
      destruct Hs as [-> | ->]; lia.
    + unfold finite, double_exp. rewrite F1. lia.
    + unfold double_scaled, double_exp. rewrite F1, F2, F3.
      rewrite (proj2 (N.eqb_neq (1023 + k) 0)) by lia. rewrite E.
      assert (G : Z.to_N (Z.abs z) * 2 ^ (52 - k) * 2 ^ (1023 + k) = Z.to_N (Z.abs z) * 2 ^ 1075).
      { rewrite <- N.mul_assoc, <- N.pow_add_r. do 2 f_equal. lia. }
      rewrite G, N2Z.inj_mul, Z2N.id by lia.
      assert (S : (s =? 0) = negb (z <? 0)%Z).
      { unfold s. destruct (z <? 0)%Z; [|reflexivity]. apply N.eqb_neq. apply N.pow_nonzero. lia. }
      rewrite S. destruct (Z.ltb_spec z 0); cbn [negb]; rewrite ?Z.abs_neq, ?Z.abs_eq by lia; lia.
Qed.

Theorem ints_in_float_column pickle unpickle z :
  (Z.abs z < 2 ^ 53)%Z ->
  exists b f x, serialize pickle SFloat (LInt z) = Ok (b, f) /\
    deserialize unpickle (Fmt SFloat None) b = Ok (LFloat x) /\
    finite x /\ double_scaled x = (z * Z.of_N (2 ^ 1075))%Z.
Proof.
  intros H. destruct (int_to_float_exact z H) as (x & E & Hx & Hf & Hv). cbn [serialize]. rewrite E. cbn [bind].
  exists (le 8 x), (Fmt SFloat None), x. split; [reflexivity|]. split; [|split; assumption].
  cbn [deserialize]. rewrite (whole_ok 8 1) by (rewrite ?le_length; lia).
  cbn [bind Nat.eqb]. rewrite firstn_all2 by (rewrite le_length; lia). rewrite un_le_le; [reflexivity|exact Hx].
Qed.

Theorem floats_in_int_column pickle unpickle bits b f :
  finite bits -> serialize pickle SInt (LFloat bits) = Ok (b, f) ->
  deserialize unpickle (Fmt SInt None) b = Ok (LInt (Z.quot (double_scaled bits) (Z.of_N (2 ^ 1075)))).
Proof.
  intros Hf. cbn [serialize]. rewrite float_to_int_ok by exact Hf. cbn [bind].
  set (q := Z.quot _ _). destruct (int64 q) as [b'|e] eqn:E; cbn [bind]; [|discriminate].
  intros H; injection H as <- _. destruct (int64_ok q b' E) as [L U].
  cbn [deserialize]. rewrite (whole_ok 8 1) by (rewrite ?L; lia). cbn [bind Nat.eqb].
  rewrite firstn_all2 by lia. rewrite U. reflexivity.
Qed.
