From Verif Require Import Base Format_Model Format_Proofs Codec_Model Codec_Spec.
From Coq Require Import NArith ZArith Lia.
Local Open Scope nat_scope.

(** * Little endian *)
Lemma le_length k : forall x, length (le k x) = k.
Proof. induction k as [|k IH]; intros x; cbn; [reflexivity|]. rewrite IH. reflexivity. Qed.

Lemma un_le_le k : forall x, (x < 256 ^ N.of_nat k)%N -> un_le (le k x) = x.
Proof.
  induction k as [|k IH]; intros x Hx.
  - cbn in *. lia.
  - cbn [le un_le]. rewrite Nat2N.inj_succ, N.pow_succ_r in Hx by lia.
    rewrite IH.
    + pose proof (N.div_mod x 256). lia.
    + apply N.div_lt_upper_bound; lia.
Qed.

Lemma int64_ok z b : int64 z = Ok b -> length b = 8 /\ un_int64 b = z.
Proof.
  unfold int64. destruct (_ && _)%bool eqn:E; [|discriminate]. intros H.
  assert (Hb : b = le 8 (Z.to_N (z mod two64))) by congruence. rewrite Hb.
  split; [apply le_length|]. unfold un_int64.
  assert (Hm : (0 <= z mod two64 < two64)%Z) by (apply Z.mod_pos_bound; reflexivity).
  rewrite un_le_le.
  - rewrite Z2N.id by lia.
    apply andb_true_iff in E. destruct E as [E1 E2]. apply Z.leb_le in E1. apply Z.ltb_lt in E2.
    assert (T : (two64 = 2 * two63)%Z) by reflexivity.
    destruct (Z.le_gt_cases 0 z) as [Hz|Hz].
    + rewrite Z.mod_small by lia. rewrite (proj2 (Z.ltb_lt z two63)) by lia. reflexivity.
    + assert (Hz2 : (z mod two64 = z + two64)%Z).
      { symmetry. apply (Z.mod_unique z two64 (-1)); lia. }
      rewrite Hz2. rewrite (proj2 (Z.ltb_ge (z + two64) two63)) by lia. lia.
  - apply N2Z.inj_lt. rewrite Z2N.id by lia. change (Z.of_N (256 ^ N.of_nat 8)) with two64. lia.
Qed.

Lemma int64_total z : (- 2 ^ 63 <= z < 2 ^ 63)%Z -> exists b, int64 z = Ok b.
Proof.
  intros H. unfold int64. destruct (_ && _)%bool eqn:E; [eexists; reflexivity|].
  exfalso. apply andb_false_iff in E. change two63 with (2 ^ 63)%Z in E.
  destruct E as [E|E]; [apply Z.leb_gt in E|apply Z.ltb_ge in E]; lia.
Qed.

Lemma int64_refused z : ~ (- 2 ^ 63 <= z < 2 ^ 63)%Z -> int64 z = Err GenericException.
Proof.
  intros H. unfold int64. destruct (_ && _)%bool eqn:E; [|reflexivity].
  exfalso. apply andb_true_iff in E. change two63 with (2 ^ 63)%Z in E. destruct E as [E1 E2].
  apply Z.leb_le in E1. apply Z.ltb_lt in E2. lia.
Qed.

(** * UTF-8 *)
Ltac nsolve := zify; Z.div_mod_to_equations; lia.

Ltac ok_eq := match goal with |- Ok ?x = Ok ?b -> _ => let H := fresh in intros H; assert (b = x) by congruence; clear H; subst b end.

Lemma un_utf8_char c b r :
  utf8_char c = Ok b -> un_utf8 (b ++ r) = bind (un_utf8 r) (fun s => Ok (c :: s)).
Proof.
  unfold utf8_char.
  destruct (N.ltb_spec c 128) as [H1|H1].
  { ok_eq. cbn [app un_utf8].
    rewrite (proj2 (N.ltb_lt c 128) H1). reflexivity. }
  destruct (N.ltb_spec c 2048) as [H2|H2].
  { ok_eq. cbn [app un_utf8]. unfold cont.
    assert (A : (c / 64 < 32 /\ 2 <= c / 64 /\ c mod 64 < 64)%N) by (split; [|split]; nsolve).
    rewrite (proj2 (N.ltb_ge (192 + c / 64) 128)) by lia.
    rewrite (proj2 (N.ltb_ge (192 + c / 64) 192)) by lia.
    rewrite (proj2 (N.leb_le 128 (128 + c mod 64))) by lia.
    rewrite (proj2 (N.ltb_lt (128 + c mod 64) 192)) by lia. cbn [negb andb].
    rewrite (proj2 (N.ltb_lt (192 + c / 64) 224)) by lia.
    replace ((192 + c / 64 - 192) * 64 + (128 + c mod 64 - 128))%N with c by nsolve.
    unfold checked. rewrite (proj2 (N.ltb_ge c 128)) by lia.
    rewrite (proj2 (N.leb_gt 55296 c)) by lia. rewrite (proj2 (N.leb_gt 1114112 c)) by lia. reflexivity. }
  destruct (N.ltb_spec c 65536) as [H3|H3].
  { destruct ((55296 <=? c) && (c <? 57344))%N eqn:Es; [discriminate|].
    ok_eq. cbn [app un_utf8]. unfold cont.
    assert (A : (c / 4096 < 16 /\ (c / 64) mod 64 < 64 /\ c mod 64 < 64)%N) by (split; [|split]; nsolve).
    rewrite (proj2 (N.ltb_ge (224 + c / 4096) 128)) by lia.
    rewrite (proj2 (N.ltb_ge (224 + c / 4096) 192)) by lia.
    rewrite (proj2 (N.leb_le 128 (128 + (c / 64) mod 64))) by lia.
    rewrite (proj2 (N.ltb_lt (128 + (c / 64) mod 64) 192)) by lia. cbn [negb andb].
    rewrite (proj2 (N.ltb_ge (224 + c / 4096) 224)) by lia.
    rewrite (proj2 (N.leb_le 128 (128 + c mod 64))) by lia.
    rewrite (proj2 (N.ltb_lt (128 + c mod 64) 192)) by lia. cbn [negb andb].
    rewrite (proj2 (N.ltb_lt (224 + c / 4096) 240)) by lia.
    replace ((224 + c / 4096 - 224) * 4096 + (128 + (c / 64) mod 64 - 128) * 64 + (128 + c mod 64 - 128))%N with c by nsolve.
    unfold checked. rewrite (proj2 (N.ltb_ge c 2048)) by lia. rewrite Es.
    rewrite (proj2 (N.leb_gt 1114112 c)) by lia. reflexivity. }
  destruct (N.ltb_spec c 1114112) as [H4|H4]; [|discriminate].
  ok_eq. cbn [app un_utf8]. unfold cont.
  assert (A : (c / 262144 < 5 /\ (c / 4096) mod 64 < 64 /\ (c / 64) mod 64 < 64 /\ c mod 64 < 64)%N)
    by (split; [|split; [|split]]; nsolve).
  rewrite (proj2 (N.ltb_ge (240 + c / 262144) 128)) by lia.
  rewrite (proj2 (N.ltb_ge (240 + c / 262144) 192)) by lia.
  rewrite (proj2 (N.leb_le 128 (128 + (c / 4096) mod 64))) by lia.
  rewrite (proj2 (N.ltb_lt (128 + (c / 4096) mod 64) 192)) by lia. cbn [negb andb].
  rewrite (proj2 (N.ltb_ge (240 + c / 262144) 224)) by lia.
  rewrite (proj2 (N.leb_le 128 (128 + (c / 64) mod 64))) by lia.
  rewrite (proj2 (N.ltb_lt (128 + (c / 64) mod 64) 192)) by lia. cbn [negb andb].
  rewrite (proj2 (N.ltb_ge (240 + c / 262144) 240)) by lia.
  rewrite (proj2 (N.leb_le 128 (128 + c mod 64))) by lia.
  rewrite (proj2 (N.ltb_lt (128 + c mod 64) 192)) by lia. cbn [negb andb].
  rewrite (proj2 (N.leb_gt 248 (240 + c / 262144))) by lia.
  replace ((240 + c / 262144 - 240) * 262144 + (128 + (c / 4096) mod 64 - 128) * 4096
           + (128 + (c / 64) mod 64 - 128) * 64 + (128 + c mod 64 - 128))%N with c by nsolve.
  unfold checked. rewrite (proj2 (N.ltb_ge c 65536)) by lia.
  rewrite (proj2 (N.ltb_ge c 57344)) by lia. rewrite andb_false_r.
  rewrite (proj2 (N.leb_gt 1114112 c)) by lia. reflexivity.
Qed.

Lemma un_utf8_utf8 s : forall b, utf8 s = Ok b -> un_utf8 b = Ok s.
Proof.
  induction s as [|c s IH]; intros b; cbn [utf8].
  - intros H; injection H as <-. reflexivity.
  - destruct (utf8_char c) as [x|e] eqn:E; cbn [bind]; [|discriminate].
    destruct (utf8 s) as [y|e]; cbn [bind]; [|discriminate]. intros H; injection H as <-.
    rewrite (un_utf8_char c x y E), (IH y eq_refl). reflexivity.
Qed.

Lemma utf8_char_total c : (c < 1114112)%N -> ~ surrogate c -> exists b, utf8_char c = Ok b.
Proof.
  intros Hc Hs. unfold utf8_char, surrogate in *.
  destruct (N.ltb_spec c 128); [eexists; reflexivity|].
  destruct (N.ltb_spec c 2048); [eexists; reflexivity|].
  destruct (N.ltb_spec c 65536).
  - destruct ((55296 <=? c) && (c <? 57344))%N eqn:E; [|eexists; reflexivity].
    exfalso. apply andb_true_iff in E. destruct E as [E1 E2]. apply N.leb_le in E1. apply N.ltb_lt in E2. lia.
  - rewrite (proj2 (N.ltb_lt c 1114112)) by lia. eexists; reflexivity.
Qed.

Lemma utf8_total s :
  Forall (fun c => c < 1114112)%N s -> Forall (fun c => ~ surrogate c) s -> exists b, utf8 s = Ok b.
Proof.
  induction s as [|c s IH]; cbn [utf8]; [eexists; reflexivity|].
  intros H1 H2. inversion H1; inversion H2; subst.
  destruct (utf8_char_total c) as [b ->]; [assumption|assumption|]. cbn [bind].
  destruct IH as [r ->]; [assumption|assumption|]. eexists; reflexivity.
Qed.

Lemma utf8_surrogate s : ~ Forall (fun c => ~ surrogate c) s -> exists e, utf8 s = Err e.
Proof.
  induction s as [|c s IH]; cbn [utf8]; intros H; [exfalso; apply H; constructor|].
  destruct (utf8_char c) as [b|e] eqn:E; cbn [bind]; [|eexists; reflexivity].
  destruct (utf8 s) as [r|e]; cbn [bind]; [|eexists; reflexivity].
  exfalso. apply H. constructor.
  - intros [A B]. unfold utf8_char in E.
    rewrite (proj2 (N.ltb_ge c 128)) in E by lia. rewrite (proj2 (N.ltb_ge c 2048)) in E by lia.
    rewrite (proj2 (N.ltb_lt c 65536)) in E by lia. rewrite (proj2 (N.leb_le 55296 c)) in E by lia.
    rewrite (proj2 (N.ltb_lt c 57344)) in E by lia. discriminate E.
  - destruct (Forall_dec (fun c => ~ surrogate c)) with (l := s) as [F|F]; [| exact F |].
    + intros x. unfold surrogate. destruct (N.ltb_spec0 x 55296); destruct (N.ltb_spec0 x 57344);
        (left; lia) || (right; lia).
    + exfalso. destruct (IH F) as [e He]. discriminate He.
Qed.

(** ASCII text has as many bytes as characters. *)
Lemma utf8_ascii s b : Forall (fun c => c < 128)%N s -> utf8 s = Ok b -> length b = length s.
Proof.
  revert b; induction s as [|c s IH]; intros b H; cbn [utf8].
  - intros E; injection E as <-. reflexivity.
  - inversion H; subst. unfold utf8_char. rewrite (proj2 (N.ltb_lt c 128)) by assumption. cbn [bind].
    destruct (utf8 s) as [r|]; cbn [bind]; [|discriminate]. intros E; injection E as <-.
    cbn [app length]. rewrite (IH r); [reflexivity|assumption|reflexivity].
Qed.

(** * Headers *)
Lemma one32_le32 x : small x -> one32 (le32 x) = Ok x.
Proof.
  intros H. unfold one32. rewrite <- (app_nil_r (le32 x)). rewrite frombuffer_cons.
  - reflexivity.
  - exact H.
Qed.

Lemma read_header_ok i shape body :
  small i -> Forall small shape -> small (N.of_nat (length shape)) ->
  read_header (array_header i shape ++ body) = Ok (i, shape, body).
Proof.
  intros Hi Hs Hl. unfold read_header, array_header. rewrite <- !app_assoc.
  rewrite (firstn_app_exact (le32 i)) by reflexivity. rewrite one32_le32 by exact Hi. cbn [bind].
  rewrite (skipn_app_exact (le32 i)) by reflexivity.
  rewrite (firstn_app_exact (le32 (N.of_nat (length shape)))) by reflexivity.
  rewrite one32_le32 by exact Hl. cbn [bind]. rewrite Nat2N.id.
  change 8 with (4 + 4) at 1. rewrite <- skipn_skipn'.
  rewrite (skipn_app_exact (le32 i)) by reflexivity.
  rewrite (skipn_app_exact (le32 (N.of_nat (length shape)))) by reflexivity.
  rewrite (firstn_app_exact (flat_map le32 shape)) by (rewrite flat_map_le32_length; reflexivity).
  rewrite frombuffer_le32_nil by exact Hs. cbn [bind]. rewrite Nat.eqb_refl.
  replace (8 + 4 * length shape) with (4 + (4 + 4 * length shape)) by lia.
  rewrite <- !skipn_skipn'.
  rewrite (skipn_app_exact (le32 i)) by reflexivity.
  rewrite (skipn_app_exact (le32 (N.of_nat (length shape)))) by reflexivity.
  rewrite (skipn_app_exact (flat_map le32 shape)) by (rewrite flat_map_le32_length; reflexivity).
  reflexivity.
Qed.

Lemma whole_ok k n b : 0 < k -> length b = k * n -> whole k b = Ok n.
Proof.
  intros Hk Hb. unfold whole. rewrite Hb, (Nat.mul_comm k n), Nat.mod_mul, Nat.div_mul by lia. reflexivity.
Qed.

Lemma torch_round d : torch_dtype (torch_index d) = Ok d.
Proof. destruct d; reflexivity. Qed.

Lemma torch_size_pos d : 0 < torch_itemsize d.
Proof. destruct d; cbn; lia. Qed.

Lemma numpy_size_pos d k : nth_error numpy_itemsizes d = Some k -> 0 < k.
Proof. do 15 (destruct d as [|d]; [intros E; injection E as <-; lia|]). destruct d; discriminate. Qed.

Lemma numpy_size_ok d : d < 14 -> exists k, nth_error numpy_itemsizes d = Some k /\ numpy_size (N.of_nat d) = Ok k.
Proof.
  intros H. unfold numpy_size. rewrite Nat2N.id.
  do 14 (destruct d as [|d]; [eexists; split; reflexivity|]). lia.
Qed.

Lemma blen_nat (b : bytes) k n : blen b = (N.of_nat k * n)%N -> length b = k * N.to_nat n.
Proof. unfold blen. intros H. apply (f_equal N.to_nat) in H. rewrite Nat2N.id, N2Nat.inj_mul, Nat2N.id in H. exact H. Qed.

Lemma cut_images_ok (images : list bytes) : cut_images (concat images) (map blen images) = images.
Proof.
  induction images as [|x l IH]; [reflexivity|]. cbn [map concat cut_images].
  unfold blen at 1 2. rewrite Nat2N.id. rewrite firstn_app_exact, skipn_app_exact by reflexivity. rewrite IH. reflexivity.
Qed.

Section Fits.
Context (pickle : leaf -> bytes) (unpickle : bytes -> res leaf).
Context (Hpickle : forall l, unpickle (pickle l) = Ok l).

(** A value that the serializer of a format entry reproduces. *)
Definition fits_entry (f : fmt) (l : leaf) : Prop :=
  match f, l with
  | Fmt SStr _, LStr _ | Fmt SBool _, LBool _ | Fmt SInt _, LInt _ | Fmt SFloat _, LFloat _
  | Fmt SPil _, LPil _ _ _ _ | Fmt SJpegs _, LJpegs _ | Fmt SBytes _, LBytes _ => True
  | Fmt SNoHeadNumpy (Some i), LArr d [_] _ => i = N.of_nat d /\ d < 14
  | Fmt SNumpy _, LArr d _ _ => d < 14
  | Fmt SNoHeadTensor (Some i), LTensor d [_] _ => i = torch_index d
  | Fmt STensor _, LTensor _ _ _ => True
  | Fmt SPickle _, _ => True
  | _, _ => False
  end.

Lemma small_index d : small (torch_index d).
Proof. destruct d; reflexivity. Qed.

Lemma tensor_bytes_ok d data : d <> BF16 -> tensor_bytes d data = Ok data.
Proof. destruct d; intros H; try reflexivity. congruence. Qed.

Lemma prod_one n : prod [n] = n.
Proof. cbn. apply N.mul_1_r. Qed.

Lemma fits_round f l :
  fits_entry f l -> valid l -> storable l ->
  exists b f', serialize pickle (fmt_serializer f) l = Ok (b, f') /\
    declared_size (fmt_serializer f) b = blen b /\ deserialize unpickle f b = Ok l.
Proof.
  destruct f as [s dt]. intros Hf Hv Hs. cbn [fmt_serializer].
  destruct s; cbn [fits_entry] in Hf.
  - (* str *) destruct l; try contradiction. cbn [serialize]. destruct (utf8_total s) as [b E]; [exact Hv|exact Hs|].
    rewrite E. exists b. eexists. split; [reflexivity|]. split; [reflexivity|].
    cbn [deserialize]. rewrite (un_utf8_utf8 s b E). reflexivity.
  - (* bool *) destruct l; try contradiction. cbn [serialize bind]. eexists. eexists. split; [reflexivity|].
    split; [reflexivity|]. destruct b; reflexivity.
  - (* int *) destruct l; try contradiction. cbn [serialize]. destruct (int64_total z Hs) as [b E]. rewrite E.
    destruct (int64_ok z b E) as [L U]. exists b. eexists. split; [reflexivity|].
    split; [unfold declared_size, blen; rewrite L; reflexivity|].
    cbn [deserialize]. rewrite (whole_ok 8 1) by (rewrite ?L; lia). cbn [bind Nat.eqb].
    rewrite firstn_all2 by lia. rewrite U. reflexivity.
  - (* float *) destruct l; try contradiction. cbn [serialize bind]. exists (le 8 bits). eexists. split; [reflexivity|].
    split; [reflexivity|]. cbn [deserialize]. rewrite (whole_ok 8 1) by (rewrite ?le_length; lia).
    cbn [bind Nat.eqb]. rewrite firstn_all2 by (rewrite le_length; lia). rewrite un_le_le; [reflexivity|exact Hv].
  - (* pil *) destruct l; try contradiction. cbn [valid] in Hv. destruct Hv as (Hw & Hh & Hm & Hl).
    cbn [serialize]. destruct (utf8_total mode) as [m E].
    { eapply Forall_impl; [|exact Hm]. cbn. intros; lia. }
    { eapply Forall_impl; [|exact Hm]. unfold surrogate. cbn. intros; lia. }
    rewrite E. cbn [bind]. eexists. eexists. split; [reflexivity|]. split; [reflexivity|].
    cbn [deserialize].
    assert (Lm : length m = length mode) by (apply (utf8_ascii mode m Hm E)).
    assert (Sm : small (blen m)) by (unfold blen; rewrite Lm; exact Hl).
    replace (le32 width ++ le32 height ++ le32 (blen m) ++ m ++ raw)
      with ((le32 width ++ le32 height ++ le32 (blen m)) ++ m ++ raw) by (rewrite <- !app_assoc; reflexivity).
    rewrite firstn_app_exact by reflexivity. rewrite skipn_app_exact by reflexivity.
    rewrite (frombuffer_cons width) by exact Hw. rewrite (frombuffer_cons height) by exact Hh.
    rewrite <- (app_nil_r (le32 (blen m))). rewrite (frombuffer_cons (blen m)) by exact Sm. cbn [frombuffer32 bind].
    unfold blen. rewrite Nat2N.id, firstn_app_exact, skipn_app_exact by reflexivity.
    rewrite (un_utf8_utf8 mode m E). reflexivity.
  - (* jpegs *) destruct l; try contradiction. cbn [valid] in Hv. destruct Hv as (Hne & Hn & Hsz).
    cbn [serialize bind]. eexists. eexists. split; [reflexivity|]. split; [reflexivity|].
    cbn [deserialize]. rewrite firstn_app_exact by reflexivity. rewrite one32_le32 by exact Hn. cbn [bind].
    rewrite Nat2N.id. destruct images as [|i0 images0]; [congruence|].
    set (images := i0 :: images0) in *.
    change (length images =? 0) with false. cbv iota.
    rewrite app_length, le32_length, app_length, flat_map_le32_length, map_length.
    destruct (Nat.ltb_spec (4 + (4 * length images + length (concat images))) (4 + 4 * length images)) as [Hlt|_]; [lia|].
    rewrite skipn_app_exact by reflexivity.
    rewrite firstn_app_exact by (rewrite flat_map_le32_length, map_length; reflexivity).
    rewrite frombuffer_le32_nil.
    + cbn [bind]. rewrite <- skipn_skipn'. rewrite skipn_app_exact by reflexivity.
      rewrite skipn_app_exact by (rewrite flat_map_le32_length, map_length; reflexivity).
      rewrite cut_images_ok. reflexivity.
    + rewrite Forall_map. exact Hsz.
  - (* bytes *) destruct l; try contradiction. cbn [serialize bind]. eexists. eexists. split; [reflexivity|].
    split; reflexivity.
  - (* no_header_numpy *) destruct dt as [i|]; [|contradiction]. destruct l as [| | | | | | |d shape data| | |]; try contradiction.
    destruct shape as [|n [|? ?]]; try contradiction. destruct Hf as [-> Hd].
    destruct (numpy_size_ok d Hd) as (k & Ek & Hk). cbn [valid] in Hv. rewrite Ek in Hv. destruct Hv as (_ & _ & Hv).
    cbn [serialize]. unfold numpy_index. rewrite Ek. cbn [bind]. exists data. eexists. split; [reflexivity|].
    split; [reflexivity|]. cbn [deserialize]. rewrite Hk. cbn [bind].
    rewrite prod_one in Hv. apply blen_nat in Hv.
    rewrite (whole_ok k (N.to_nat n)); [|exact (numpy_size_pos d k Ek)|exact Hv]. cbn [bind].
    rewrite N2Nat.id, Nat2N.id. reflexivity.
  - (* numpy *) destruct l as [| | | | | | |d shape data| | |]; try contradiction.
    destruct (numpy_size_ok d Hf) as (k & Ek & Hk). cbn [valid] in Hv. rewrite Ek in Hv. destruct Hv as (Hsh & Hr & Hv).
    cbn [serialize]. unfold numpy_index. rewrite Ek. cbn [bind]. eexists. eexists. split; [reflexivity|].
    split; [reflexivity|]. cbn [deserialize]. rewrite read_header_ok; [|unfold small, two32; lia|exact Hsh|exact Hr].
    cbn [bind]. rewrite Hk. cbn [bind]. apply blen_nat in Hv.
    rewrite (whole_ok k (N.to_nat (prod shape))); [|exact (numpy_size_pos d k Ek)|exact Hv]. cbn [bind].
    rewrite N2Nat.id, N.eqb_refl, Nat2N.id. reflexivity.
  - (* no_header_tensor *) destruct dt as [i|]; [|contradiction].
    destruct l as [| | | | | | | |d shape data| |]; try contradiction.
    destruct shape as [|n [|? ?]]; try contradiction. subst i. cbn [valid storable] in Hv, Hs.
    destruct Hv as (_ & _ & Hv). cbn [serialize]. rewrite tensor_bytes_ok by exact Hs. cbn [bind].
    exists data. eexists. split; [reflexivity|]. split; [reflexivity|]. cbn [deserialize].
    rewrite torch_round. cbn [bind]. rewrite prod_one in Hv. apply blen_nat in Hv.
    rewrite (whole_ok _ (N.to_nat n)); [|apply torch_size_pos|exact Hv]. cbn [bind]. rewrite N2Nat.id. reflexivity.
  - (* tensor *) destruct l as [| | | | | | | |d shape data| |]; try contradiction. cbn [valid storable] in Hv, Hs.
    destruct Hv as (Hsh & Hr & Hv). cbn [serialize]. rewrite tensor_bytes_ok by exact Hs. cbn [bind].
    eexists. eexists. split; [reflexivity|]. split; [reflexivity|]. cbn [deserialize].
    rewrite read_header_ok; [|apply small_index|exact Hsh|exact Hr]. cbn [bind]. rewrite torch_round. cbn [bind].
    pose proof (torch_size_pos d) as Hp. destruct data as [|x data].
    + rewrite (proj2 (N.eqb_eq (prod shape) 0)); [reflexivity|].
      unfold blen in Hv. cbn [length] in Hv. destruct (prod shape); [reflexivity|]. destruct (torch_itemsize d); [lia|].
      exfalso. lia.
    + apply blen_nat in Hv. rewrite (whole_ok _ (N.to_nat (prod shape))); [|exact Hp|exact Hv]. cbn [bind].
      rewrite N2Nat.id, N.eqb_refl. reflexivity.
  - (* pickle *) cbn [serialize bind]. eexists. eexists. split; [reflexivity|]. split; [reflexivity|].
    cbn [deserialize]. apply Hpickle.
Qed.

End Fits.

Section Round.
Context (isfile : list N -> bool) (pickle : leaf -> bytes) (unpickle : bytes -> res leaf).
Context (Hpickle : forall l, unpickle (pickle l) = Ok l).

(** The entry that the first sample puts into the data format. *)
Definition entry (l : leaf) : fmt :=
  match l with
  | LStr s => Fmt (if isfile s then SPickle else SStr) None
  | LBool _ => Fmt SBool None
  | LInt _ => Fmt SInt None
  | LFloat _ => Fmt SFloat None
  | LBytes _ => Fmt SBytes None
  | LPil _ _ _ _ => Fmt SPil None
  | LJpegs _ => Fmt SJpegs None
  | LArr d [] _ => Fmt SPickle None
  | LArr d [_] _ => Fmt SNoHeadNumpy (Some (N.of_nat d))
  | LArr d _ _ => Fmt SNumpy None
  | LTensor d [_] _ => Fmt SNoHeadTensor (Some (torch_index d))
  | LTensor d _ _ => Fmt STensor None
  | LNone | LOther _ => Fmt SPickle None
  end.

Lemma serialize_new_entry l b f :
  serialize_new isfile pickle l = Ok (b, f) -> f = entry l /\ serialize pickle (fmt_serializer (entry l)) l = Ok (b, f).
Proof.
  assert (P : forall s (r : res bytes) b f, bind r (fun b => Ok (b, Fmt s None)) = Ok (b, f) -> f = Fmt s None).
  { intros s r b' f'. destruct r; cbn; [|discriminate]. intros E; injection E as _ <-. reflexivity. }
  unfold serialize_new, serializers.
  destruct l as [s| | | | | | |d shape data|d shape data| |]; cbn [first_match can_serialize entry].
  - destruct (isfile s); cbn [negb fmt_serializer]; intros H; split; try exact H; eapply P; exact H.
  - intros H; split; [|exact H]; eapply P; exact H.
  - intros H; split; [|exact H]; eapply P; exact H.
  - intros H; split; [|exact H]; eapply P; exact H.
  - intros H; split; [|exact H]; eapply P; exact H.
  - intros H; split; [|exact H]; eapply P; exact H.
  - intros H; split; [|exact H]; eapply P; exact H.
  - destruct shape as [|n [|m shape]]; cbn [length Nat.eqb Nat.ltb Nat.leb entry fmt_serializer].
    + intros H; split; [|exact H]; eapply P; exact H.
    + intros H; split; [|exact H]. cbn [serialize] in H. unfold numpy_index in H.
      destruct (nth_error numpy_itemsizes d); cbn [bind] in H; [|discriminate]. congruence.
    + intros H; split; [|exact H]; eapply P; exact H.
  - destruct shape as [|n [|m shape]]; cbn [length Nat.eqb negb entry fmt_serializer].
    + intros H; split; [|exact H]; eapply P; exact H.
    + intros H; split; [|exact H]. cbn [serialize] in H. destruct (tensor_bytes d data); cbn [bind] in H; [|discriminate]. congruence.
    + intros H; split; [|exact H]; eapply P; exact H.
  - intros H; split; [|exact H]; eapply P; exact H.
  - intros H; split; [|exact H]; eapply P; exact H.
Qed.

Lemma serialize_new_by_entry l : serialize_new isfile pickle l = serialize pickle (fmt_serializer (entry l)) l.
Proof.
  unfold serialize_new, serializers.
  destruct l as [s| | | | | | |d shape data|d shape data| |]; try reflexivity; cbn [first_match can_serialize entry].
  - destruct (isfile s); reflexivity.
  - destruct shape as [|n [|m shape]]; reflexivity.
  - destruct shape as [|n [|m shape]]; reflexivity.
Qed.

Lemma entry_fits l : storable l -> fits_entry (entry l) l.
Proof.
  destruct l as [s| | | | | | |d shape data|d shape data| |]; cbn [entry]; intros H; try exact I.
  - destruct (isfile s); exact I.
  - destruct shape as [|n [|m shape]]; cbn [fits_entry]; [exact I| |].
    + destruct H as [H|H]; [discriminate H|]. split; [reflexivity|exact H].
    + destruct H as [H|H]; [discriminate H|exact H].
  - destruct shape as [|n [|m shape]]; cbn [fits_entry]; [exact I|reflexivity|exact I].
Qed.

Lemma same_kind_fits l0 l : same_kind l0 l -> storable l -> fits_entry (entry l0) l.
Proof.
  destruct l0 as [s| | | | | | |d shape data|d shape data| |]; cbn [entry same_kind]; intros H Hs;
    try (destruct l; try contradiction; exact I).
  - destruct l; try contradiction. destruct (isfile s); exact I.
  - destruct shape as [|n [|m shape]]; cbn [fits_entry].
    + exact I.
    + destruct l as [| | | | | | |d' [|n' [|? ?]] data'| | |]; try contradiction. subst d'.
      destruct Hs as [Hs|Hs]; [discriminate Hs|]. split; [reflexivity|exact Hs].
    + destruct l; try contradiction. exact H.
  - destruct shape as [|n [|m shape]]; cbn [fits_entry].
    + destruct l; try contradiction. exact I.
    + destruct l as [| | | | | | | |d' [|n' [|? ?]] data'| |]; try contradiction. subst d'. reflexivity.
    + destruct l; try contradiction. exact I.
Qed.

Theorem new_round l :
  valid l -> storable l ->
  exists b f, serialize_new isfile pickle l = Ok (b, f) /\ deserialize unpickle f b = Ok l.
Proof.
  intros Hv Hs. destruct (fits_round pickle unpickle Hpickle (entry l) l (entry_fits l Hs) Hv Hs) as (b & f' & E & _ & D).
  rewrite <- serialize_new_by_entry in E. exists b, f'. split; [exact E|].
  destruct (serialize_new_entry l b f' E) as [-> _]. exact D.
Qed.

Theorem same_kind_round l0 b0 f l :
  serialize_new isfile pickle l0 = Ok (b0, f) -> same_kind l0 l -> valid l -> storable l ->
  exists b f', serialize pickle (fmt_serializer f) l = Ok (b, f') /\ deserialize unpickle f b = Ok l.
Proof.
  intros H0 Hk Hv Hs. destruct (serialize_new_entry l0 b0 f H0) as [-> _].
  destruct (fits_round pickle unpickle Hpickle (entry l0) l (same_kind_fits l0 l Hk Hs) Hv Hs) as (b & f' & E & _ & D).
  exists b, f'. split; assumption.
Qed.

(** What cannot be stored is refused, except arrays of objects. *)
Theorem new_refused l :
  ~ storable l -> (forall shape data, l <> LArr numpy_object shape data) ->
  (forall s, l = LStr s -> isfile s = false) ->
  exists e, serialize_new isfile pickle l = Err e.
Proof.
  intros H Ho Hfile. rewrite serialize_new_by_entry.
  destruct l as [s| | | | | | |d shape data|d shape data| |]; cbn [storable] in H; try (exfalso; apply H; exact I).
  - cbn [entry]. rewrite (Hfile s eq_refl). cbn [fmt_serializer serialize].
    destruct (utf8_surrogate s H) as [e ->]. eexists; reflexivity.
  - cbn [entry fmt_serializer serialize]. rewrite int64_refused by exact H. eexists; reflexivity.
  - assert (Hd : nth_error numpy_itemsizes d = None).
    { apply nth_error_None. cbn. assert (d <> 14) by (intros ->; apply (Ho shape data); reflexivity).
      assert (~ d < 14) by (intros F; apply H; right; exact F). lia. }
    destruct shape as [|n [|m shape]]; cbn [entry fmt_serializer serialize].
    + exfalso. apply H. left. reflexivity.
    + unfold numpy_index. rewrite Hd. eexists; reflexivity.
    + unfold numpy_index. rewrite Hd. eexists; reflexivity.
  - assert (Hb : tensor_bytes d data = Err TypeError) by (destruct d; try (exfalso; apply H; discriminate); reflexivity).
    destruct shape as [|n [|m shape]]; cbn [entry fmt_serializer serialize]; rewrite Hb; eexists; reflexivity.
Qed.

End Round.
