From Verif Require Import Base Dict Shuffle_Proofs Assign_Model Assign_Spec Config_Model Config_Spec Config_Proofs
  Iter_Model Iter_Spec Iter_Proofs Epoch_Proofs
  Format_Model Format_Proofs Codec_Model Codec_Spec Codec_Proofs Tree_Model Tree_Spec Tree_Proofs Sample_Model Sample_Spec Sample_Proofs
  Writer_Model Writer_Spec Encrypt_Model Encrypt_Spec Encrypt_Proofs Dataset_Model Dataset_Spec Dataset_Proofs Dataset_Proofs2
  Optimize_Spec.
Local Ltac Zify.zify_post_hook ::= idtac.

(** ** Samples of one form *)
Lemma alike_entry isfile a b : alike isfile a b -> entry isfile a = entry isfile b.
Proof.
  unfold alike, pickled. intros [(H1 & H2 & H3)|H].
  - destruct a as [s| | | | | | |d [|? ?] data| | |], b as [s'| | | | | | |d' [|? ?] data'| | |]; cbn [entry] in *; try contradiction; try reflexivity.
    rewrite H1, H2. reflexivity.
  - destruct a as [s| | | | | | |d [|? [|? ?]] data|d [|? [|? ?]] data| |], b as [s'| | | | | | |d' [|? [|? ?]] data'|d' [|? [|? ?]] data'| |];
      cbn [entry] in *; try contradiction; try reflexivity; try (subst; reflexivity); try (destruct H; cbn in *; congruence).
    destruct H as [-> ->]. reflexivity.
Qed.

Lemma alike_kind isfile a b : alike isfile a b -> storable b -> same_kind a b.
Proof.
  unfold alike, pickled. intros [(H1 & H2 & H3)|H] Hs.
  - destruct a as [s| | | | | | |d [|? ?] data| | |]; try contradiction; destruct b as [s'| | | | | | |d' [|? ?] data'| | |]; try contradiction; exact I.
  - destruct a as [s| | | | | | |d [|? [|? ?]] data|d [|? [|? ?]] data| |], b as [s'| | | | | | |d' [|? [|? ?]] data'|d' [|? [|? ?]] data'| |];
      cbn [same_kind storable length] in *; try contradiction; try exact I; try exact H; try (destruct H; congruence); try tauto.
    destruct Hs as [Hs|Hs]; [discriminate|exact Hs].
Qed.

Lemma uniform_storable isfile rw rr t ts : uniform isfile rw rr (t :: ts) -> storable_samples rw rr (t :: ts).
Proof.
  intros [HF HU]. inversion HF as [|? ? (H1 & H2 & H3 & H4) HF']; subst. cbn [storable_samples].
  repeat (apply conj; [assumption|]). apply Forall_forall. intros u Hu. rewrite Forall_forall in HF'.
  destruct (HF' u Hu) as (_ & _ & _ & Hg). split; [|exact Hg].
  destruct (HU t u (or_introl eq_refl) (or_intror Hu)) as [S1 S2]. split; [exact S1|].
  unfold good_values in Hg. clear -S2 Hg. induction S2 as [|a b l m Hab _ IH]; [constructor|].
  inversion Hg as [|? ? [_ Hs] Hg']; subst. constructor; [eapply alike_kind; eauto|auto].
Qed.

Lemma uniform_incl isfile rw rr ts us : incl us ts -> uniform isfile rw rr ts -> uniform isfile rw rr us.
Proof.
  intros Hi [HF HU]. split.
  - apply Forall_forall. intros t Ht. rewrite Forall_forall in HF. apply HF, Hi, Ht.
  - intros t u Ht Hu. apply HU; apply Hi; assumption.
Qed.

Lemma uniform_formats isfile rw rr ts t u : uniform isfile rw rr ts -> In t ts -> In u ts ->
  formats isfile t = formats isfile u /\ spec_of t = spec_of u.
Proof.
  intros [_ HU] Ht Hu. destruct (HU t u Ht Hu) as [S1 S2]. split; [|apply same_structure_spec; exact S1].
  unfold formats. clear -S2. induction S2 as [|a b l m Hab _ IH]; [reflexivity|]. cbn [map]. rewrite IH. f_equal. apply alike_entry. exact Hab.
Qed.

(** ** The chunks of a dataset, each with its file and its samples *)
Definition piece := ((cinfo * nat) * (nat * bytes) * list (tree leaf))%type.
Definition z_row (z : piece) := fst (fst z).
Definition z_file (z : piece) := snd (fst z).
Definition z_group (z : piece) := snd z.

Section Pieces.
Context (unpickle : bytes -> res leaf) (compress : bytes -> bytes) (e : option cipher) (conf : list fmt * spec key).
Definition good_piece (z : piece) : Prop :=
  fst (z_file z) = k_file (fst (z_row z)) /\ k_size (fst (z_row z)) = length (z_group z) /\ z_group z <> [] /\
  exists f raws, snd (z_file z) = compress f /\ snd (z_row z) = length f /\ holds e f raws /\
    Forall2 (fun b t => deserialize_sample unpickle conf b = Ok t) raws (z_group z).
End Pieces.

Lemma find_nodup {B} (l : list (nat * B)) f : NoDup (map fst l) -> In f l -> find (fun g => fst g =? fst f) l = Some f.
Proof.
  induction l as [|g l IH]; [intros _ []|]. cbn [map find]. intros HN Hin. inversion HN as [|? ? Hn HN']; subst.
  destruct Hin as [->|Hin]; [rewrite Nat.eqb_refl; reflexivity|].
  destruct (Nat.eqb_spec (fst g) (fst f)) as [E|]; [|auto]. exfalso. apply Hn. rewrite E. apply in_map. exact Hin.
Qed.

Lemma Forall2_nth_l {A B} (R : A -> B -> Prop) l m i y :
  Forall2 R l m -> nth_error m i = Some y -> exists x, nth_error l i = Some x /\ R x y.
Proof. apply Forall2_nth. Qed.

Lemma pieces_find unpickle rr compress decompress e conf x zs :
  codec_ok compress decompress -> open_config rr (x_format x) = Ok conf -> x_enc x = option_map enc_state e ->
  map z_row zs = x_chunks x -> (forall z, In z zs -> find (fun h => fst h =? fst (z_file z)) (x_files x) = Some (z_file z)) ->
  Forall (good_piece unpickle compress e conf) zs ->
  exists o, open_dataset rr decompress x = Ok o /\ reads unpickle o e x (flat_map z_group zs).
Proof.
  intros Hc Hconf Henc Hrows Hfiles Hgood. destruct x as [rows fmt0 enc files]. cbn [x_chunks x_format x_enc x_files] in *.
  set (rs := map z_group zs).
  assert (Hsz : map k_size (map fst rows) = map (@length _) rs).
  { subst rows. unfold rs. rewrite !map_map. apply map_ext_in. intros z Hz. rewrite Forall_forall in Hgood.
    destruct (Hgood z Hz) as (_ & H & _). exact H. }
  unfold open_dataset. cbn [x_format x_chunks x_enc x_files]. rewrite Hconf. cbn [bind].
  rewrite sizes_by_item. cbn [bind]. unfold generate_roi. rewrite Hsz.
  rewrite sizes_by_item. cbn [bind]. rewrite Hsz. unfold generate_intervals.
  pose proof (loop_full (map (@length _) rs) [] 0) as Hloop. cbn [length app] in Hloop. rewrite Hloop. cbn [bind].
  eexists. split; [reflexivity|]. unfold reads. cbn [o_ivs o_disk]. rewrite full_ivs_length.
  assert (Hcat : flat_map z_group zs = concat rs) by (unfold rs; apply flat_map_concat_map).
  split.
  { rewrite full_samples, Hcat, length_concat. reflexivity. }
  intros st c i Hst Hin. rewrite map_length in Hin.
  destruct (full_sample_in rs 0 0 c i Hin) as (r & p & iv & t & _ & H2 & H3 & H4 & _ & H6 & H7).
  rewrite Nat.sub_0_r in *. subst i.
  unfold rs in H2. rewrite nth_error_map in H2. destruct (nth_error zs c) as [z|] eqn:Ez; [|discriminate]. injection H2 as <-.
  assert (Hz : In z zs) by (eapply nth_error_In; exact Ez).
  rewrite Forall_forall in Hgood. destruct (Hgood z Hz) as (G1 & G2 & _ & f & raws & G3 & G4 & G5 & G6).
  assert (Erow : nth_error rows c = Some (z_row z)) by (subst rows; exact (map_nth_error z_row c zs Ez)).
  unfold read_sample. cbn [o_chunks o_ivs o_enc o_disk o_conf]. rewrite Erow, H3.
  destruct (z_row z) as [ci sz] eqn:Er. cbn [fst snd] in *.
  destruct (Forall2_nth _ _ _ _ _ G6 H6) as (b & Eb & Db).
  assert (Hloc : local_files decompress files (k_file ci) = Some f).
  { unfold local_files. rewrite <- G1, (Hfiles z Hz), G3, Hc. reflexivity. }
  rewrite Henc.
  destruct (load_bytes_ok e (local_files decompress files) (paths_of (Written rows fmt0 enc files)) (k_file ci) c sz f raws st (iv_start iv) p b Hst)
    as (st' & El & Hst').
  { unfold paths_of. cbn [x_chunks]. rewrite Erow. reflexivity. }
  { exact Hloc. } { lia. } { exact G5. } { exact Eb. }
  rewrite El. cbn [bind fst snd]. rewrite Db. cbn [bind]. exists t, st'.
  split; [reflexivity|]. split; [|exact Hst'].
  rewrite Hcat. exact H7.
Qed.

Lemma pieces_read unpickle rr compress decompress e conf x zs :
  codec_ok compress decompress -> open_config rr (x_format x) = Ok conf -> x_enc x = option_map enc_state e ->
  map z_row zs = x_chunks x -> (forall z, In z zs -> In (z_file z) (x_files x)) -> NoDup (map fst (x_files x)) ->
  Forall (good_piece unpickle compress e conf) zs ->
  exists o, open_dataset rr decompress x = Ok o /\ reads unpickle o e x (flat_map z_group zs).
Proof.
  intros Hc Hconf Henc Hrows Hfiles Hnd Hgood. apply (pieces_find unpickle rr compress decompress e conf x zs Hc Hconf Henc Hrows); [|exact Hgood].
  intros z Hz. exact (find_nodup (x_files x) (z_file z) Hnd (Hfiles z Hz)).
Qed.

(** ** What one worker writes *)
Lemma Forall2_of_nth {A B} (R : A -> B -> Prop) : forall l m, length l = length m ->
  (forall j a b, nth_error l j = Some a -> nth_error m j = Some b -> R a b) -> Forall2 R l m.
Proof.
  induction l as [|a l IH]; intros [|b m] Hl H; try discriminate; [constructor|].
  constructor; [exact (H 0 a b eq_refl eq_refl)|]. apply IH; [cbn in Hl; lia|]. intros j x y Hx Hy. exact (H (S j) x y Hx Hy).
Qed.
Lemma Forall2_combine {A B} (R : A -> B -> Prop) l m : Forall2 R l m -> Forall (fun p => R (fst p) (snd p)) (combine l m).
Proof. induction 1; constructor; assumption. Qed.
Lemma Forall2_fst {A B C} (R : A -> B -> Prop) (g : A -> C) l m : Forall2 R l m -> map (fun p => g (fst p)) (combine l m) = map g l.
Proof. induction 1 as [|a b l m _ _ IH]; [reflexivity|]. cbn [combine map fst]. rewrite IH. reflexivity. Qed.
Lemma Forall2_snd {A B C} (R : A -> B -> Prop) (g : B -> list C) l m : Forall2 R l m -> flat_map (fun p => g (snd p)) (combine l m) = flat_map g m.
Proof. induction 1 as [|a b l m _ _ IH]; [reflexivity|]. cbn [combine flat_map snd]. rewrite IH. reflexivity. Qed.
Lemma Forall2_nth_r {A B} (R : A -> B -> Prop) l m i x :
  Forall2 R l m -> nth_error l i = Some x -> exists y, nth_error m i = Some y /\ R x y.
Proof.
  intros H; revert i; induction H as [|a b l m Hab _ IH]; intros [|i] E; cbn in E; try discriminate.
  - injection E as <-. exists b. auto.
  - apply IH in E. exact E.
Qed.
Lemma mapM_Forall2 {A B} (f : A -> res B) : forall l r, mapM f l = Ok r -> Forall2 (fun a b => f a = Ok b) l r.
Proof.
  induction l as [|a l IH]; intros r; [intros H; injection H as <-; constructor|]. rewrite mapM_cons.
  destruct (f a) as [y|] eqn:E; cbn [bind]; [|discriminate]. destruct (mapM f l) as [ys|]; cbn [bind]; [|discriminate].
  intros H; injection H as <-. constructor; [exact E|]. apply IH. reflexivity.
Qed.
Lemma Forall2_mapM {A B} (f : A -> res B) l r : Forall2 (fun a b => f a = Ok b) l r -> mapM f l = Ok r.
Proof. induction 1 as [|a b l r E _ IH]; [reflexivity|]. rewrite mapM_cons, E, IH. reflexivity. Qed.

Section Worker.
Context (isfile : list N -> bool) (pickle : leaf -> bytes) (unpickle : bytes -> res leaf).
Context (rw rr : nat -> bool) (Hpickle : forall x, unpickle (pickle x) = Ok x).

Lemma samples_config t0 ts bs c :
  tree_valid t0 -> tree_plain rw rr t0 -> leaves t0 <> [] ->
  good_values t0 -> Forall (fun t => like t0 t /\ good_values t) ts ->
  write_samples isfile pickle rw (t0 :: ts) = Ok (bs, c) ->
  exists j, spec_to_json rw (spec_of t0) = Ok j /\ c = (Some (formats isfile t0), Some j) /\ open_config rr c = Ok (formats isfile t0, spec_of t0).
Proof.
  intros Hv Hp Hne Hg H. unfold write_samples. cbn [serialize_all].
  destruct (first_sample isfile pickle unpickle Hpickle t0 Hv Hg) as (b & E & D). rewrite E. cbn [bind fst snd].
  destruct (later_samples isfile pickle unpickle Hpickle t0 ts Hv Hne H) as (bs' & Es & Ds). rewrite Es. cbn [bind fst snd].
  unfold get_config. cbn [f_spec f_format]. destruct (spec_json rw rr t0 Hp) as (j & Ej & Dj).
  rewrite Ej. cbn [bind]. intros W; injection W as _ <-. exists j. split; [reflexivity|]. split; [reflexivity|].
  cbn [open_config]. rewrite Dj. reflexivity.
Qed.

Theorem written_pieces cb cs compress e t0 ts x :
  key_ok e -> storable_samples rw rr (t0 :: ts) ->
  write_dataset isfile pickle rw cb cs compress e (t0 :: ts) = Ok x ->
  (exists j, spec_to_json rw (spec_of t0) = Ok j /\ x_format x = (Some (formats isfile t0), Some j)) /\
  open_config rr (x_format x) = Ok (formats isfile t0, spec_of t0) /\
  x_enc x = option_map enc_state e /\ x_chunks x <> [] /\
  map (fun f => fst f) (x_files x) = seq 0 (length (x_files x)) /\
  (small_chunks x -> exists zs, map z_row zs = x_chunks x /\ map z_file zs = x_files x /\ flat_map z_group zs = t0 :: ts /\
     Forall (good_piece unpickle compress e (formats isfile t0, spec_of t0)) zs).
Proof.
  intros Hk Hts Hw. pose proof (storable_leaves _ _ _ Hts) as Hlv. destruct Hts as (H1 & H2 & H3 & H4 & H5).
  destruct (samples_round isfile pickle unpickle rw rr Hpickle t0 ts H1 H2 H3 H4 H5) as (bs & fc & Ews & Lbs & Hround).
  destruct (samples_config t0 ts bs fc H1 H2 H3 H4 H5 Ews) as (j & Ej & Efc & Hop).
  assert (Hne : Forall (fun b => 1 <= length b) bs).
  { unfold write_samples in Ews. destruct (serialize_all isfile pickle fresh (t0 :: ts)) as [[bs' st']|] eqn:E; cbn [bind fst snd] in Ews; [|discriminate].
    destruct (get_config rw st'); cbn [bind] in Ews; [|discriminate]. injection Ews as <- _.
    eapply serialize_all_nonempty; eauto. }
  unfold write_dataset in Hw. rewrite Ews in Hw. cbn [bind fst snd] in Hw.
  destruct (write_items cb cs compress e (map (fun b => Item b None) bs)) as [s|] eqn:Es; cbn [bind] in Hw; [|discriminate].
  injection Hw as <-. cbn [x_format x_enc x_chunks x_files].
  assert (Hne' : Forall (fun x => 1 <= it_bytes x) (map (fun b => Item b None) bs)).
  { apply Forall_forall. intros y Hy. apply in_map_iff in Hy. destruct Hy as (b & <- & Hb).
    rewrite Forall_forall in Hne. exact (Hne b Hb). }
  destruct (write_items_ok cb cs compress e _ s Hk Hne' Es) as (rs & E1 & E2 & Hof & Hrne).
  set (chs := w_chunks s) in *.
  assert (Lrs : length chs = length rs).
  { apply Forall2_len in E2. rewrite map_length in E2. exact E2. }
  split; [exists j; auto|]. split; [exact Hop|]. split; [reflexivity|]. split.
  { intros E. apply map_eq_nil in E. rewrite E in Lrs. destruct rs; [|discriminate]. cbn [concat] in E1.
    destruct bs; [|discriminate]. cbn in Lbs. discriminate. }
  split.
  { rewrite map_map. cbn [fst]. rewrite map_length. apply nth_error_ext. intros k. rewrite nth_error_map.
    destruct (nth_error chs k) as [ch|] eqn:Ek; cbn [option_map].
    - destruct (Hof k ch Ek) as (-> & _). cbn [Nat.add]. symmetry.
      assert (k < length chs) by (apply nth_error_Some; congruence).
      rewrite (nth_error_nth' _ 0) by (rewrite seq_length; assumption). rewrite seq_nth by assumption. reflexivity.
    - apply nth_error_None in Ek. symmetry. apply nth_error_None. rewrite seq_length. exact Ek. }
  intros Hsm.
  assert (Hch : forall k c r, nth_error chs k = Some c -> nth_error rs k = Some r -> exists f, ch_file c = compress f /\
      ch_bytes c = length f /\ holds e f (map it_data r) /\ ch_size c = length r /\ Forall (fun x => (blen (it_data x) < two32)%N) r).
  { intros k c r Hj Er.
    assert (HF : Forall2 (sealed_of e) (ch_items c) r) by exact (Forall2_at _ ch_items _ _ _ _ _ E2 Hj Er).
    assert (Hb : (N.of_nat (ch_bytes c) < two32)%N).
    { unfold small_chunks in Hsm. cbn [x_chunks] in Hsm. rewrite Forall_forall in Hsm.
      apply (Hsm (Ci (ch_index c) (ch_size c) (ch_dim c), ch_bytes c)).
      apply in_map_iff. exists c. split; [reflexivity|]. eapply nth_error_In; eauto. }
    destruct (chunk_holds cb cs compress e k c r Hk (Hof k c Hj) HF Hb) as (f & F1 & F2 & F3 & _ & F5 & F6).
    exists f. tauto. }
  assert (Hsb : Forall (fun b => (blen b < two32)%N) bs).
  { assert (H : Forall (fun x => (blen (it_data x) < two32)%N) (concat rs)).
    { apply Forall_concat. apply Forall_forall. intros r Hr. apply In_nth_error in Hr. destruct Hr as [k Hk'].
      destruct (nth_error chs k) as [c|] eqn:Ej'; [|apply nth_error_None in Ej'; assert (k < length rs) by (apply nth_error_Some; congruence); lia].
      destruct (Hch k c r Ej' Hk') as (f & _ & _ & _ & _ & H). exact H. }
    rewrite E1 in H. apply Forall_map in H. exact H. }
  specialize (Hround Hsb). unfold read_samples in Hround. cbn [snd fst] in Hround. rewrite Hop in Hround. cbn [bind] in Hround.
  apply mapM_Forall2 in Hround.
  set (conf := (formats isfile t0, spec_of t0)) in *.
  assert (HI : Forall2 (fun it t => deserialize_sample unpickle conf (it_data it) = Ok t) (concat rs) (t0 :: ts)).
  { rewrite E1. clear -Hround. induction Hround; cbn [map]; constructor; assumption. }
  destruct (Forall2_concat _ _ _ HI) as (gs & G1 & G2).
  assert (HP : Forall2 (fun ch g => ch_size ch = length g /\ g <> [] /\ exists f raws, ch_file ch = compress f /\ ch_bytes ch = length f /\
      holds e f raws /\ Forall2 (fun b t => deserialize_sample unpickle conf b = Ok t) raws g) chs gs).
  { apply Forall2_of_nth; [rewrite Lrs; exact (Forall2_len _ _ _ G2)|]. intros k ch g Hk1 Hk2.
    destruct (Forall2_nth _ _ _ _ _ G2 Hk2) as (r & Er & HR).
    destruct (Hch k ch r Hk1 Er) as (f & F1 & F2 & F3 & F4 & _). pose proof (Forall2_len _ _ _ HR) as HL. split; [congruence|]. split.
    { intros ->. rewrite Forall_forall in Hrne. apply (Hrne r (nth_error_In _ _ Er)). destruct r; [reflexivity|discriminate]. }
    exists f, (map it_data r). split; [exact F1|]. split; [exact F2|]. split; [exact F3|].
    clear -HR. induction HR; cbn [map]; constructor; assumption. }
  exists (map (fun p => (((Ci (ch_index (fst p)) (ch_size (fst p)) (ch_dim (fst p)), ch_bytes (fst p)), (ch_index (fst p), ch_file (fst p))), snd p)) (combine chs gs)).
  split; [rewrite map_map; exact (Forall2_fst _ (fun ch => (Ci (ch_index ch) (ch_size ch) (ch_dim ch), ch_bytes ch)) _ _ HP)|].
  split; [rewrite map_map; exact (Forall2_fst _ (fun ch => (ch_index ch, ch_file ch)) _ _ HP)|].
  split.
  { rewrite flat_map_concat_map, map_map, <- flat_map_concat_map. etransitivity; [exact (Forall2_snd _ (fun g => g) _ _ HP)|].
    rewrite flat_map_concat_map, map_id. exact G1. }
  apply Forall_map. eapply Forall_impl; [|exact (Forall2_combine _ _ _ HP)]. intros [ch g]. cbn [fst snd].
  intros (A1 & A2 & f & raws & A3 & A4 & A5 & A6). unfold good_piece, z_file, z_row, z_group. cbn [fst snd k_file k_size].
  split; [reflexivity|]. split; [exact A1|]. split; [exact A2|]. exists f, raws. auto.
Qed.
End Worker.
