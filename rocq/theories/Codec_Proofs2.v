(** The decoding of strings is strict: bytes that decode are the encoding of what they decode to. *)
From Coq Require Import NArith ZArith Lia.
From Verif Require Import Base Codec_Model Codec_Proofs.
Local Open Scope list_scope.

Ltac bool_facts := repeat match goal with
  | H : (_ && _)%bool = true |- _ => apply andb_true_iff in H; destruct H
  | H : (_ || _)%bool = false |- _ => apply orb_false_iff in H; destruct H
  | H : (_ <=? _)%N = true |- _ => apply N.leb_le in H
  | H : (_ <? _)%N = true |- _ => apply N.ltb_lt in H
  | H : (_ <=? _)%N = false |- _ => apply N.leb_gt in H
  | H : (_ <? _)%N = false |- _ => apply N.ltb_ge in H
  | H : negb ?b = false |- _ => apply negb_false_iff in H
  end.

Lemma checked_ok lo c d : checked lo c = Ok d ->
  d = c /\ (lo <= c)%N /\ ((55296 <=? c) && (c <? 57344))%N = false /\ (c < 1114112)%N.
Proof.
  unfold checked. destruct (_ || _)%bool eqn:E; [discriminate|]. intros H. injection H as <-.
  apply orb_false_iff in E. destruct E as [E E3]. apply orb_false_iff in E. destruct E as [E1 E2]. bool_facts. auto.
Qed.

Lemma char2 x y : (192 <= x)%N -> (x < 224)%N -> cont y = true -> forall c, checked 128 ((x - 192) * 64 + (y - 128))%N = Ok c ->
  utf8_char c = Ok [x; y].
Proof.
  intros H1 H2 Hy c H. apply checked_ok in H. destruct H as (-> & L & _ & _). unfold cont in Hy. bool_facts. unfold utf8_char.
  rewrite (proj2 (N.ltb_ge _ 128)) by lia. rewrite (proj2 (N.ltb_lt _ 2048)) by lia.
  assert (E1 : (((x - 192) * 64 + (y - 128)) / 64 = x - 192)%N) by (symmetry; apply N.div_unique with (r := (y - 128)%N); lia).
  assert (E2 : (((x - 192) * 64 + (y - 128)) mod 64 = y - 128)%N) by (symmetry; apply N.mod_unique with (q := (x - 192)%N); lia).
  rewrite E1, E2. do 2 f_equal; [lia|]. f_equal. lia.
Qed.

Lemma char3 x y z : (224 <= x)%N -> (x < 240)%N -> cont y = true -> cont z = true ->
  forall c, checked 2048 ((x - 224) * 4096 + (y - 128) * 64 + (z - 128))%N = Ok c -> utf8_char c = Ok [x; y; z].
Proof.
  intros H1 H2 Hy Hz c H. apply checked_ok in H. destruct H as (-> & L & S & _). unfold cont in Hy, Hz. bool_facts. unfold utf8_char.
  rewrite (proj2 (N.ltb_ge _ 128)) by lia. rewrite (proj2 (N.ltb_ge _ 2048)) by lia. rewrite (proj2 (N.ltb_lt _ 65536)) by lia. rewrite S.
  set (c := ((x - 224) * 4096 + (y - 128) * 64 + (z - 128))%N) in *.
  assert (E1 : (c / 4096 = x - 224)%N) by (symmetry; apply N.div_unique with (r := ((y - 128) * 64 + (z - 128))%N); unfold c; lia).
  assert (E2 : (c mod 64 = z - 128)%N) by (symmetry; apply N.mod_unique with (q := ((x - 224) * 64 + (y - 128))%N); unfold c; lia).
  assert (E3 : (c / 64 = (x - 224) * 64 + (y - 128))%N) by (symmetry; apply N.div_unique with (r := (z - 128)%N); unfold c; lia).
  assert (E4 : ((c / 64) mod 64 = y - 128)%N) by (rewrite E3; symmetry; apply N.mod_unique with (q := (x - 224)%N); lia).
  rewrite E1, E2, E4. do 2 f_equal; [lia|]. f_equal; [lia|]. f_equal. lia.
Qed.

Lemma char4 x y z w : (240 <= x)%N -> (x < 248)%N -> cont y = true -> cont z = true -> cont w = true ->
  forall c, checked 65536 ((x - 240) * 262144 + (y - 128) * 4096 + (z - 128) * 64 + (w - 128))%N = Ok c -> utf8_char c = Ok [x; y; z; w].
Proof.
  intros H1 H2 Hy Hz Hw c H. apply checked_ok in H. destruct H as (-> & L & S & M). unfold cont in Hy, Hz, Hw. bool_facts. unfold utf8_char.
  rewrite (proj2 (N.ltb_ge _ 128)) by lia. rewrite (proj2 (N.ltb_ge _ 2048)) by lia. rewrite (proj2 (N.ltb_ge _ 65536)) by lia.
  rewrite (proj2 (N.ltb_lt _ 1114112)) by lia. clear S M.
  set (c := ((x - 240) * 262144 + (y - 128) * 4096 + (z - 128) * 64 + (w - 128))%N) in *.
  assert (E1 : (c / 262144 = x - 240)%N) by (symmetry; apply N.div_unique with (r := ((y - 128) * 4096 + (z - 128) * 64 + (w - 128))%N); unfold c; lia).
  assert (E2 : (c mod 64 = w - 128)%N) by (symmetry; apply N.mod_unique with (q := ((x - 240) * 4096 + (y - 128) * 64 + (z - 128))%N); unfold c; lia).
  assert (E3 : (c / 64 = (x - 240) * 4096 + (y - 128) * 64 + (z - 128))%N) by (symmetry; apply N.div_unique with (r := (w - 128)%N); unfold c; lia).
  assert (E4 : ((c / 64) mod 64 = z - 128)%N) by (rewrite E3; symmetry; apply N.mod_unique with (q := ((x - 240) * 64 + (y - 128))%N); lia).
  assert (E5 : (c / 4096 = (x - 240) * 64 + (y - 128))%N) by (symmetry; apply N.div_unique with (r := ((z - 128) * 64 + (w - 128))%N); unfold c; lia).
  assert (E6 : ((c / 4096) mod 64 = y - 128)%N) by (rewrite E5; symmetry; apply N.mod_unique with (q := (x - 240)%N); lia).
  rewrite E1, E2, E4, E6. do 2 f_equal; [lia|]. f_equal; [lia|]. f_equal; [lia|]. f_equal. lia.
Qed.

Lemma utf8_un_utf8 : forall n b s, length b <= n -> un_utf8 b = Ok s -> utf8 s = Ok b.
Proof.
  induction n as [|n IH]; intros b s Hn; [destruct b; [|cbn in Hn; lia]; intros H; injection H as <-; reflexivity|].
  destruct b as [|x r]; [intros H; injection H as <-; reflexivity|]. cbn [un_utf8]. cbn [length] in Hn.
  assert (K : forall r' pre c s', length r' <= n -> utf8_char c = Ok pre -> bind (un_utf8 r') (fun s => Ok (c :: s)) = Ok s' -> utf8 s' = Ok (pre ++ r')).
  { intros r' pre c s' L E H. destruct (un_utf8 r') as [t|] eqn:Er; cbn [bind] in H; [|discriminate]. injection H as <-.
    cbn [utf8]. rewrite E, (IH _ _ L Er). reflexivity. }
  destruct (N.ltb_spec x 128) as [H0|H0].
  { apply (K r [x] x); [lia|]. unfold utf8_char. rewrite (proj2 (N.ltb_lt x 128)) by lia. reflexivity. }
  destruct (N.ltb_spec x 192) as [H1|H1]; [discriminate|].
  destruct r as [|y r]; [discriminate|]. cbn [length] in Hn. destruct (negb (cont y)) eqn:Hy; [discriminate|]. apply negb_false_iff in Hy.
  destruct (N.ltb_spec x 224) as [H2|H2].
  { destruct (checked _ _) as [c|] eqn:Ec; cbn [bind]; [|discriminate]. apply (K r [x; y] c); [lia|]. apply char2; assumption. }
  destruct r as [|z r]; [discriminate|]. cbn [length] in Hn. destruct (negb (cont z)) eqn:Hz; [discriminate|]. apply negb_false_iff in Hz.
  destruct (N.ltb_spec x 240) as [H3|H3].
  { destruct (checked _ _) as [c|] eqn:Ec; cbn [bind]; [|discriminate]. apply (K r [x; y; z] c); [lia|]. apply char3; assumption. }
  destruct r as [|w r]; [discriminate|]. cbn [length] in Hn. destruct (negb (cont w)) eqn:Hw; [discriminate|]. apply negb_false_iff in Hw.
  destruct (N.leb_spec 248 x) as [H4|H4]; [discriminate|].
  destruct (checked _ _) as [c|] eqn:Ec; cbn [bind]; [|discriminate]. apply (K r [x; y; z; w] c); [lia|]. apply char4; assumption.
Qed.
