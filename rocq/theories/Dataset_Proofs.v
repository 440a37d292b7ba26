From Verif Require Import Base Dict Shuffle_Proofs Assign_Model Assign_Spec Config_Model Config_Spec Config_Proofs Iter_Model Iter_Spec
  Format_Model Format_Proofs Codec_Model Codec_Spec Tree_Model Tree_Spec Tree_Proofs Sample_Model Sample_Spec Sample_Proofs
  Writer_Model Writer_Spec Encrypt_Model Encrypt_Spec Encrypt_Proofs Dataset_Model Dataset_Spec.
Local Ltac Zify.zify_post_hook ::= idtac.

(** ** The intervals of a complete dataset *)
Fixpoint full_ivs (b : nat) (sizes : list nat) : list interval :=
  match sizes with [] => [] | n :: s => Iv b (b + 0) (b + n) (b + n) :: full_ivs (b + n) s end.

Lemma loop_full : forall sizes pre b,
  intervals_loop (length pre) b sizes (Some (pre ++ map (fun n => (0, n)) sizes)) = Ok (full_ivs b sizes).
Proof.
  induction sizes as [|n sizes IH]; intros pre b; cbn [intervals_loop]; [reflexivity|].
  rewrite nth_error_app2, Nat.sub_diag by lia. cbn [map nth_error bind fst snd].
  specialize (IH (pre ++ [(0, n)]) (b + n)). rewrite app_length in IH. cbn [length] in IH.
  rewrite Nat.add_1_r, <- app_assoc in IH. cbn [app] in IH. rewrite IH. reflexivity.
Qed.

Lemma sizes_by_item cs : Config_Model.sizes_of ByItem cs = Ok (map k_size cs).
Proof. induction cs as [|c cs IH]; [reflexivity|]. cbn [Config_Model.sizes_of num_samples bind]. rewrite IH. reflexivity. Qed.

Lemma full_ivs_length : forall sizes b, length (full_ivs b sizes) = length sizes.
Proof. induction sizes as [|n s IH]; intros b; cbn; [reflexivity|]. f_equal; apply IH. Qed.

Lemma full_samples : forall sizes k b,
  map snd (dataset_samples (seq k (length sizes)) (full_ivs b sizes)) = seq b (sum sizes).
Proof.
  induction sizes as [|n s IH]; intros k b; [reflexivity|].
  cbn [length seq full_ivs]. unfold dataset_samples. cbn [combine flat_map]. rewrite map_app.
  fold (dataset_samples (seq (S k) (length s)) (full_ivs (b + n) s)). rewrite IH.
  unfold samples_of. cbn [fst snd iv_rs iv_re]. rewrite map_map. cbn [snd]. rewrite map_id.
  replace (b + n - (b + 0)) with n by lia. rewrite Nat.add_0_r. cbn [sum]. rewrite <- seq_app. reflexivity.
Qed.

Lemma full_sample_in {A} : forall (rs : list (list A)) k b c i,
  In (c, i) (dataset_samples (seq k (length rs)) (full_ivs b (map (@length A) rs))) ->
  exists r p iv x, k <= c /\ nth_error rs (c - k) = Some r /\ nth_error (full_ivs b (map (@length A) rs)) (c - k) = Some iv /\
    i = iv_start iv + p /\ b <= i /\ nth_error r p = Some x /\ nth_error (concat rs) (i - b) = Some x.
Proof.
  induction rs as [|r rs IH]; intros k b c i H; [destruct H|].
  cbn [length map full_ivs seq] in H. unfold dataset_samples in H. cbn [combine flat_map] in H. apply in_app_or in H.
  destruct H as [H|H].
  - unfold samples_of in H. cbn [fst snd iv_rs iv_re] in H. apply in_map_iff in H. destruct H as (j & E & Hj).
    injection E as <- <-. apply in_seq in Hj. replace (b + length r - (b + 0)) with (length r) in Hj by lia.
    destruct (nth_error r (j - b)) as [x|] eqn:Ex; [|apply nth_error_None in Ex; lia].
    exists r, (j - b), (Iv b (b + 0) (b + length r) (b + length r)), x. rewrite Nat.sub_diag. cbn [nth_error map full_ivs concat iv_start].
    repeat split; auto; try lia. rewrite nth_error_app1; [exact Ex|]. lia.
  - fold (dataset_samples (seq (S k) (length rs)) (full_ivs (b + length r) (map (@length A) rs))) in H.
    destruct (IH _ _ _ _ H) as (r' & p & iv & x & H1 & H2 & H3 & H4 & H5 & H6 & H7).
    exists r', p, iv, x. replace (c - k) with (S (c - S k)) by lia. cbn [nth_error map full_ivs concat].
    repeat split; auto; try lia. rewrite nth_error_app2 by lia. replace (i - b - length r) with (i - (b + length r)) by lia. exact H7.
Qed.

Lemma addresses_samples : forall ivs k,
  addresses k ivs = map (fun s => (snd s, fst s)) (dataset_samples (seq k (length ivs)) ivs).
Proof.
  induction ivs as [|iv ivs IH]; intros k; [reflexivity|].
  cbn [addresses length seq]. unfold dataset_samples. cbn [combine flat_map]. rewrite map_app.
  fold (dataset_samples (seq (S k) (length ivs)) ivs). rewrite <- IH. f_equal.
  unfold samples_of. cbn [fst snd]. rewrite map_map. reflexivity.
Qed.

(** ** Encoded samples *)
Lemma serialize_nonempty isfile pickle st t b st' :
  leaves t <> [] -> serialize_sample isfile pickle st t = Ok (b, st') -> 1 <= length b.
Proof.
  intros Hne. unfold serialize_sample. cbv zeta. rewrite tree_flatten_ok. cbn [fst snd].
  assert (G : forall rs, rs <> [] -> 1 <= length (encode_with rs)).
  { intros rs H. unfold encode_with, encode_fields. rewrite app_length, flat_map_le32_length, map_length.
    destruct rs; [congruence|cbn [length]; lia]. }
  destruct (f_format st) as [[|f fs]|].
  - discriminate.
  - destruct (leaves t) as [|l ls]; [congruence|]. cbn [combine]. rewrite mapM_cons.
    destruct (bind (serialize pickle _ _) _) as [r|]; cbn [bind]; [|discriminate].
    destruct (mapM _ (combine ls fs)) as [rs|]; cbn [bind]; [|discriminate].
    intros H; injection H as <- _. apply G. discriminate.
  - destruct (leaves t) as [|l ls]; [congruence|]. rewrite mapM_cons.
    destruct (serialize_new isfile pickle l) as [r|]; cbn [bind]; [|discriminate].
    destruct (mapM _ ls) as [rs|]; cbn [bind]; [|discriminate].
    intros H; injection H as <- _. apply G. discriminate.
Qed.

Lemma serialize_all_nonempty isfile pickle : forall ts st bs st',
  Forall (fun t => leaves t <> []) ts -> serialize_all isfile pickle st ts = Ok (bs, st') ->
  Forall (fun b => 1 <= length b) bs.
Proof.
  induction ts as [|t ts IH]; intros st bs st' H; cbn [serialize_all].
  - intros E; injection E as <- _. constructor.
  - destruct (serialize_sample isfile pickle st t) as [[b st1]|] eqn:E1; cbn [bind fst snd]; [|discriminate].
    destruct (serialize_all isfile pickle st1 ts) as [[bs1 st2]|] eqn:E2; cbn [bind fst snd]; [|discriminate].
    intros E; injection E as <- _. inversion H; subst. constructor; [|eapply IH; eauto].
    eapply serialize_nonempty; eauto.
Qed.

Lemma mapM_nth {A B} (f : A -> res B) : forall l r i x, mapM f l = Ok r -> nth_error l i = Some x ->
  exists y, f x = Ok y /\ nth_error r i = Some y.
Proof.
  induction l as [|a l IH]; intros r i x; [destruct i; discriminate|]. rewrite mapM_cons.
  destruct (f a) as [y|] eqn:E; cbn [bind]; [|discriminate]. destruct (mapM f l) as [ys|] eqn:E2; cbn [bind]; [|discriminate].
  intros H; injection H as <-. destruct i as [|i]; cbn [nth_error]; [intros H; injection H as <-; eauto|]. eapply IH; reflexivity.
Qed.

Lemma storable_leaves rw rr ts : storable_samples rw rr ts -> Forall (fun t => leaves t <> []) ts.
Proof.
  destruct ts as [|t0 ts]; [intros []|]. intros (_ & _ & Hne & _ & HF). constructor; [exact Hne|].
  eapply Forall_impl; [|exact HF]. cbn beta. intros t ([_ H2] & _). intros E. rewrite E in H2. inversion H2. congruence.
Qed.

Lemma Forall2_at {A B C} (R : B -> C -> Prop) (g : A -> B) l : forall rs j a r,
  Forall2 R (map g l) rs -> nth_error l j = Some a -> nth_error rs j = Some r -> R (g a) r.
Proof.
  induction l as [|x l IH]; intros rs j a r H Hj Hr; [destruct j; discriminate|]. cbn [map] in H. inversion H; subst.
  destruct j as [|j]; cbn [nth_error] in *; [injection Hj as <-; injection Hr as <-; assumption|eapply IH; eauto].
Qed.

(** ** The dataset *)
Section Written.
Context (isfile : list N -> bool) (pickle : leaf -> bytes) (unpickle : bytes -> res leaf).
Context (rw rr : nat -> bool) (Hpickle : forall x, unpickle (pickle x) = Ok x).

Definition paths_of (x : written) : nat -> option nat := fun c => option_map (fun e => k_file (fst e)) (nth_error (x_chunks x) c).

Lemma local_ok compress decompress (chs : list chunk) k ch f :
  codec_ok compress decompress -> (forall j c, nth_error chs j = Some c -> ch_index c = j) ->
  nth_error chs k = Some ch -> ch_file ch = compress f ->
  local_files decompress (map (fun ch => (ch_index ch, ch_file ch)) chs) (ch_index ch) = Some f.
Proof.
  intros Hc Hi Hk Hf. unfold local_files.
  assert (G : forall (l : list chunk) b, (forall j c, nth_error l j = Some c -> ch_index c = b + j) ->
     forall k, nth_error l k = Some ch -> find (fun f => fst f =? b + k) (map (fun ch => (ch_index ch, ch_file ch)) l) = Some (ch_index ch, ch_file ch)).
  { clear. induction l as [|c l IH]; intros b H k E; [destruct k; discriminate|]. cbn [map find fst].
    pose proof (H 0 c eq_refl) as H0. destruct k as [|k]; cbn [nth_error] in E.
    - injection E as <-. replace (ch_index c =? b + 0) with true by (symmetry; apply Nat.eqb_eq; exact H0). reflexivity.
    - replace (ch_index c =? b + S k) with false by (symmetry; apply Nat.eqb_neq; lia).
      rewrite <- Nat.add_succ_comm. apply IH; [|exact E]. intros j c' Hj. rewrite (H (S j) c' Hj). lia. }
  rewrite (Hi _ _ Hk). pose proof (G chs 0 Hi k Hk) as G0. cbn [Nat.add] in G0. rewrite G0. cbn [snd]. rewrite Hf, Hc. reflexivity.
Qed.

Theorem dataset_reads cb cs compress decompress e ts x :
  key_ok e -> codec_ok compress decompress -> storable_samples rw rr ts ->
  write_dataset isfile pickle rw cb cs compress e ts = Ok x -> small_chunks x ->
  exists o, open_dataset rr decompress x = Ok o /\ length (o_ivs o) = length (x_chunks x) /\ o_disk o = local_files decompress (x_files x) /\
    map snd (dataset_samples (seq 0 (length (o_ivs o))) (o_ivs o)) = seq 0 (length ts) /\
    Forall (fun iv => iv_rs iv < iv_re iv) (o_ivs o) /\
    forall st c i, loader_ok e (o_disk o) (paths_of x) st -> In (c, i) (dataset_samples (seq 0 (length (o_ivs o))) (o_ivs o)) ->
      exists t st', read_sample unpickle o e st c i = Ok (t, st') /\ nth_error ts i = Some t /\
                    loader_ok e (o_disk o) (paths_of x) st'.
Proof.
  intros Hk Hc Hts Hw Hsm. pose proof (storable_leaves _ _ _ Hts) as Hlv.
  assert (Hround : exists bs c, write_samples isfile pickle rw ts = Ok (bs, c) /\ length bs = length ts /\
     (Forall (fun b => (blen b < two32)%N) bs -> read_samples unpickle rr (bs, c) = Ok ts)).
  { destruct ts as [|t0 ts]; [destruct Hts|]. destruct Hts as (H1 & H2 & H3 & H4 & H5).
    exact (samples_round isfile pickle unpickle rw rr Hpickle t0 ts H1 H2 H3 H4 H5). }
  destruct Hround as (bs & fc & Ews & Lbs & Hround).
  assert (Hne : Forall (fun b => 1 <= length b) bs).
  { unfold write_samples in Ews. destruct (serialize_all isfile pickle fresh ts) as [[bs' st']|] eqn:E; cbn [bind fst snd] in Ews; [|discriminate].
    destruct (get_config rw st'); cbn [bind] in Ews; [|discriminate]. injection Ews as <- _.
    eapply serialize_all_nonempty; eauto. }
  unfold write_dataset in Hw. rewrite Ews in Hw. cbn [bind fst snd] in Hw.
  destruct (write_items cb cs compress e (map (fun b => Item b None) bs)) as [s|] eqn:Es; cbn [bind] in Hw; [|discriminate].
  injection Hw as <-.
  assert (Hne' : Forall (fun x => 1 <= it_bytes x) (map (fun b => Item b None) bs)).
  { apply Forall_forall. intros y Hy. apply in_map_iff in Hy. destruct Hy as (b & <- & Hb).
    rewrite Forall_forall in Hne. exact (Hne b Hb). }
  destruct (write_items_ok cb cs compress e _ s Hk Hne' Es) as (rs & E1 & E2 & Hof & Hrne).
  set (chs := w_chunks s) in *.
  assert (Hidx : forall j c, nth_error chs j = Some c -> ch_index c = j) by (intros j c H; apply (Hof j c H)).
  assert (Lrs : length chs = length rs).
  { apply Forall2_len in E2. rewrite map_length in E2. exact E2. }
  assert (Hch : forall j c, nth_error chs j = Some c -> exists r f, nth_error rs j = Some r /\ ch_file c = compress f /\
      ch_bytes c = length f /\ holds e f (map it_data r) /\ ch_size c = length r /\ Forall (fun x => (blen (it_data x) < two32)%N) r).
  { intros j c Hj. destruct (nth_error rs j) as [r|] eqn:Er; [|apply nth_error_None in Er; assert (j < length chs) by (apply nth_error_Some; congruence); lia].
    assert (HF : Forall2 (sealed_of e) (ch_items c) r).
    { exact (Forall2_at _ ch_items _ _ _ _ _ E2 Hj Er). }
    assert (Hb : (N.of_nat (ch_bytes c) < two32)%N).
    { unfold small_chunks in Hsm. cbn [x_chunks] in Hsm. rewrite Forall_forall in Hsm.
      apply (Hsm (Ci (ch_index c) (ch_size c) (ch_dim c), ch_bytes c)).
      apply in_map_iff. exists c. split; [reflexivity|]. eapply nth_error_In; eauto. }
    destruct (chunk_holds cb cs compress e j c r Hk (Hof j c Hj) HF Hb) as (f & F1 & F2 & F3 & _ & F5 & F6).
    exists r, f. tauto. }
  assert (Hsz : map ch_size chs = map (@length item) rs).
  { apply nth_error_ext. intros j. rewrite !nth_error_map. destruct (nth_error chs j) as [c|] eqn:Ej; cbn [option_map].
    - destruct (Hch j c Ej) as (r & f & -> & _ & _ & _ & -> & _). reflexivity.
    - apply nth_error_None in Ej. rewrite (proj2 (nth_error_None rs j)) by lia. reflexivity. }
  assert (Hsb : Forall (fun b => (blen b < two32)%N) bs).
  { assert (H : Forall (fun x => (blen (it_data x) < two32)%N) (concat rs)).
    { apply Forall_concat. apply Forall_forall. intros r Hr. apply In_nth_error in Hr. destruct Hr as [j Hj].
      destruct (nth_error chs j) as [c|] eqn:Ej; [|apply nth_error_None in Ej; assert (j < length rs) by (apply nth_error_Some; congruence); lia].
      destruct (Hch j c Ej) as (r' & f & Er & _ & _ & _ & _ & H). rewrite Hj in Er. injection Er as <-. exact H. }
    rewrite E1 in H. apply Forall_map in H. exact H. }
  specialize (Hround Hsb). unfold read_samples in Hround. cbn [snd fst] in Hround.
  unfold open_dataset. cbn [x_format x_chunks x_enc x_files].
  destruct (open_config rr fc) as [conf|]; cbn [bind] in *; [|discriminate].
  unfold generate_roi. rewrite !map_map. cbn [fst]. rewrite sizes_by_item. cbn [bind]. rewrite (map_map _ k_size). cbn [k_size].
  change (map (fun x : chunk => ch_size x) chs) with (map ch_size chs). rewrite Hsz.
  unfold generate_intervals. pose proof (loop_full (map (@length item) rs) [] 0) as Hloop. cbn [length app] in Hloop. rewrite Hloop. cbn [bind].
  eexists. split; [reflexivity|]. cbn [o_ivs o_disk].
  split; [rewrite full_ivs_length, !map_length; symmetry; exact Lrs|]. split; [reflexivity|]. split; [|split].
  - rewrite full_ivs_length, full_samples. f_equal. rewrite <- length_concat, E1, map_length. exact Lbs.
  - clear -Hrne. generalize 0. induction Hrne as [|r rs Hr _ IH]; intros b; cbn [map full_ivs]; constructor; [|apply IH].
    cbn. destruct r; [congruence|cbn; lia].
  - intros st c i Hst Hin. rewrite full_ivs_length in Hin. rewrite map_length in Hin.
    destruct (full_sample_in rs 0 0 c i Hin) as (r & p & iv & it & _ & H2 & H3 & H4 & _ & H6 & H7).
    rewrite Nat.sub_0_r in *. subst i.
    assert (Hc' : exists ch, nth_error chs c = Some ch).
    { destruct (nth_error chs c) eqn:E; [eauto|]. apply nth_error_None in E. assert (c < length rs) by (apply nth_error_Some; congruence). lia. }
    destruct Hc' as [ch Ech]. destruct (Hch c ch Ech) as (r' & f & Er & F1 & F2 & F3 & F4 & _). rewrite H2 in Er. injection Er as <-.
    unfold read_sample. cbn [o_chunks o_ivs o_enc o_disk o_conf]. rewrite nth_error_map, Ech. cbn [option_map]. rewrite H3. cbn [k_file].
    pose proof (local_ok compress decompress chs c ch f Hc Hidx Ech F1) as Hloc.
    destruct (load_bytes_ok e (local_files decompress (map (fun ch => (ch_index ch, ch_file ch)) chs)) (paths_of (Written
        (map (fun ch : chunk => (Ci (ch_index ch) (ch_size ch) (ch_dim ch), ch_bytes ch)) chs) fc (option_map enc_state e)
        (map (fun ch : chunk => (ch_index ch, ch_file ch)) chs)))
        (ch_index ch) c (ch_bytes ch) f (map it_data r) st (iv_start iv) p (it_data it) Hst) as (st' & El & Hst').
    { unfold paths_of. cbn [x_chunks]. rewrite nth_error_map, Ech. reflexivity. }
    { exact Hloc. } { lia. } { exact F3. } { rewrite nth_error_map, H6. reflexivity. }
    rewrite El. cbn [bind fst snd].
    rewrite E1, nth_error_map in H7. destruct (nth_error bs (iv_start iv + p)) as [b|] eqn:Eb; [|discriminate].
    injection H7 as <-. cbn [it_data].
    destruct (mapM_nth _ _ _ _ _ Hround Eb) as (t & Ed & Et). rewrite Ed. cbn [bind].
    exists t, st'. auto.
Qed.

End Written.

(** Several reads. *)
Lemma read_list_ok unpickle o e x ts :
  (forall st c i, loader_ok e (o_disk o) (paths_of x) st -> In (c, i) (dataset_samples (seq 0 (length (o_ivs o))) (o_ivs o)) ->
      exists t st', read_sample unpickle o e st c i = Ok (t, st') /\ nth_error ts i = Some t /\
                    loader_ok e (o_disk o) (paths_of x) st') ->
  forall l st, loader_ok e (o_disk o) (paths_of x) st -> incl l (dataset_samples (seq 0 (length (o_ivs o))) (o_ivs o)) ->
  exists r st', read_list unpickle o e st l = Ok (r, st') /\ at_positions ts (map snd l) r /\ loader_ok e (o_disk o) (paths_of x) st'.
Proof.
  intros H. induction l as [|[c i] l IH]; intros st Hst Hin; cbn [read_list].
  - exists [], st. split; [reflexivity|]. split; [constructor|exact Hst].
  - destruct (H st c i Hst (Hin _ (or_introl eq_refl))) as (t & st1 & -> & Et & H1). cbn [bind fst snd].
    destruct (IH st1 H1 (fun y Hy => Hin y (or_intror Hy))) as (r & st2 & -> & Er & H2). cbn [bind fst snd].
    exists (t :: r), st2. split; [reflexivity|]. split; [constructor; assumption|exact H2].
Qed.

Lemma at_positions_all {A} (l : list A) r : at_positions l (seq 0 (length l)) r -> r = l.
Proof.
  unfold at_positions. intros H. apply nth_error_ext. intros i.
  assert (G : forall (l' : list A) b r, Forall2 (fun i x => nth_error l i = Some x) (seq b (length l')) r ->
     forall i, nth_error r i = if i <? length l' then nth_error l (b + i) else None).
  { clear. induction l' as [|a l' IH]; intros b r H i; cbn [length seq] in H.
    - inversion H; subst. destruct i; reflexivity.
    - inversion H as [|? y ? r' Hy Hr]; subst. destruct i as [|i]; cbn [nth_error]. { rewrite Nat.add_0_r. symmetry. exact Hy. }
      rewrite (IH _ _ Hr). cbn [length]. change (S i <? S (length l')) with (i <? length l'). rewrite Nat.add_succ_comm. reflexivity. }
  rewrite (G l 0 r H i). cbn [Nat.add]. destruct (Nat.ltb_spec i (length l)); [reflexivity|].
  symmetry. apply nth_error_None. assumption.
Qed.

Lemma get_items_ok unpickle o e x ts :
  map snd (dataset_samples (seq 0 (length (o_ivs o))) (o_ivs o)) = seq 0 (length ts) ->
  (forall st c i, loader_ok e (o_disk o) (paths_of x) st -> In (c, i) (dataset_samples (seq 0 (length (o_ivs o))) (o_ivs o)) ->
      exists t st', read_sample unpickle o e st c i = Ok (t, st') /\ nth_error ts i = Some t /\
                    loader_ok e (o_disk o) (paths_of x) st') ->
  forall is st, loader_ok e (o_disk o) (paths_of x) st -> Forall (fun i => i < length ts) is ->
  exists r st', get_items unpickle o e st (map Z.of_nat is) = Ok (r, st') /\ at_positions ts is r /\ loader_ok e (o_disk o) (paths_of x) st'.
Proof.
  intros Hs H. induction is as [|i is IH]; intros st Hst Hin; cbn [map get_items].
  - exists [], st. split; [reflexivity|]. split; [constructor|exact Hst].
  - inversion Hin as [|? ? Hi Hin']; subst. unfold get_item. rewrite get_chunk_index_spec. unfold at_index.
    replace (Z.of_nat i <? 0)%Z with false by (symmetry; apply Z.ltb_ge; lia). rewrite Nat2Z.id.
    set (ds := dataset_samples (seq 0 (length (o_ivs o))) (o_ivs o)) in *.
    assert (Hl : length ds = length ts) by (transitivity (length (map snd ds)); [symmetry; apply map_length|rewrite Hs; apply seq_length]).
    destruct (nth_error ds i) as [[c j]|] eqn:E; [|apply nth_error_None in E; lia].
    assert (Ha : nth_error (addresses 0 (o_ivs o)) i = Some (j, c))
      by (rewrite addresses_samples; exact (map_nth_error (fun s => (snd s, fst s)) i _ E)).
    rewrite Ha. cbn [bind fst snd].
    assert (Ej : j = i).
    { assert (nth_error (map snd ds) i = Some j) by exact (map_nth_error snd i ds E). rewrite Hs in H0.
      apply nth_error_nth with (d := 0) in H0. rewrite seq_nth in H0 by lia. lia. }
    subst j. destruct (H st c i Hst (nth_error_In _ _ E)) as (t & st1 & -> & Et & H1). cbn [bind fst snd].
    destruct (IH st1 H1 Hin') as (r & st2 & -> & Er & H2). cbn [bind fst snd].
    exists (t :: r), st2. split; [reflexivity|]. split; [constructor; assumption|exact H2].
Qed.

