From Verif Require Import Base Dict Shuffle_Proofs Assign_Model Assign_Spec Assign_Proofs Config_Model Config_Spec Config_Proofs
  Iter_Model Iter_Spec Iter_Proofs Epoch_Proofs
  Format_Model Format_Proofs Codec_Model Codec_Spec Tree_Model Tree_Spec Tree_Proofs Sample_Model Sample_Spec Sample_Proofs
  Writer_Model Writer_Spec Writer_Proofs Encrypt_Model Encrypt_Spec Encrypt_Proofs Dataset_Model Dataset_Spec Dataset_Proofs Dataset_Proofs2
  Tokens_Model Tokens_Spec.
Local Ltac Zify.zify_post_hook ::= idtac.

Lemma itemsize_pos k : plain_kind k -> 1 <= itemsize k.
Proof.
  destruct k as [d|i]; cbn [plain_kind itemsize]; [destruct d; cbn; lia|]. intros H.
  do 14 (destruct i as [|i]; [cbn; lia|]). lia.
Qed.
Lemma width_itemsize k : plain_kind k -> itemsize k = width k.
Proof.
  destruct k as [d|i]; cbn [plain_kind]; [destruct d; reflexivity|]. intros H.
  do 14 (destruct i as [|i]; [reflexivity|]). lia.
Qed.
Lemma width_pos k : plain_kind k -> 1 <= width k.
Proof. intros H. rewrite <- (width_itemsize k H). exact (itemsize_pos k H). Qed.
Lemma numpy_known i : i < 14 -> exists s, nth_error numpy_itemsizes i = Some s.
Proof. intros H. do 14 (destruct i as [|i]; [cbn; eauto|]). lia. Qed.

(** ** Groups of bytes *)
Lemma concat_length_uniform {A} k (l : list (list A)) : Forall (fun t => length t = k) l -> length (concat l) = k * length l.
Proof. induction 1 as [|t l E _ IH]; cbn [concat length]; [lia|]. rewrite app_length, E, IH. lia. Qed.
Lemma firstn_uniform {A} k : forall n (l : list (list A)), Forall (fun t => length t = k) l -> firstn (k * n) (concat l) = concat (firstn n l).
Proof.
  induction n as [|n IH]; intros l H; [rewrite Nat.mul_0_r; reflexivity|]. destruct H as [|t l E H]; [rewrite !firstn_nil; reflexivity|].
  cbn [concat firstn]. replace (k * S n) with (length t + k * n) by lia. rewrite firstn_app_2, IH by exact H. reflexivity.
Qed.
Lemma skipn_uniform {A} k : forall n (l : list (list A)), Forall (fun t => length t = k) l -> skipn (k * n) (concat l) = concat (skipn n l).
Proof.
  induction n as [|n IH]; intros l H; [rewrite Nat.mul_0_r; reflexivity|]. destruct H as [|t l E H]; [rewrite !skipn_nil; reflexivity|].
  cbn [concat skipn]. rewrite <- IH by exact H. rewrite skipn_app. rewrite (skipn_all2 t) by lia. cbn [app]. f_equal. lia.
Qed.
Lemma Forall_skipn {A} (P : A -> Prop) n : forall l, Forall P l -> Forall P (skipn n l).
Proof. induction n as [|n IH]; intros l H; [exact H|]. destruct H; [constructor|]. cbn. auto. Qed.

(** ** Blocks *)
Definition blocks_of {A} (block : nat) (l : list A) : list (list A) :=
  map (fun j => firstn block (skipn (block * j) l)) (seq 0 (length l / block)).
Lemma blocks_nth {A} block (l : list A) j b : nth_error (blocks_of block l) j = Some b -> b = firstn block (skipn (block * j) l) /\ j < length l / block.
Proof.
  unfold blocks_of. intros H. rewrite nth_error_map in H. destruct (nth_error (seq 0 (length l / block)) j) as [i|] eqn:E; [|discriminate].
  assert (L : j < length l / block) by (rewrite <- (seq_length (length l / block) 0); apply nth_error_Some; congruence).
  rewrite (nth_error_nth' (seq 0 (length l / block)) 0) in E by (rewrite seq_length; exact L). rewrite seq_nth in E by exact L. injection E as <-. injection H as <-. auto.
Qed.
Lemma concat_firsts {A} block (l : list A) : forall n, block * n <= length l ->
  concat (map (fun j => firstn block (skipn (block * j) l)) (seq 0 n)) = firstn (block * n) l.
Proof.
  induction n as [|n IH]; intros H; [rewrite Nat.mul_0_r; reflexivity|]. rewrite seq_S, map_app, concat_app, IH by lia. cbn [map concat Nat.add]. rewrite app_nil_r.
  replace (block * S n) with (block * n + block) by lia. rewrite <- (firstn_skipn (block * n) l) at 3. rewrite firstn_app.
  rewrite firstn_firstn, Nat.min_r by lia. rewrite firstn_length, Nat.min_l by lia. replace (block * n + block - block * n) with block by lia. reflexivity.
Qed.
Lemma blocks_cut {A} block (l : list A) : 1 <= block -> cut block l (blocks_of block l).
Proof.
  intros H. pose proof (Nat.div_mod (length l) block ltac:(lia)) as E. pose proof (Nat.mod_upper_bound (length l) block ltac:(lia)) as M.
  exists (skipn (block * (length l / block)) l). split; [|split].
  - unfold blocks_of. rewrite concat_firsts by lia. apply firstn_skipn.
  - rewrite skipn_length. lia.
  - apply Forall_forall. intros b Hb. apply In_nth_error in Hb. destruct Hb as [j Hj]. apply blocks_nth in Hj. destruct Hj as [-> Hj].
    rewrite firstn_length, skipn_length. nia.
Qed.

(** ** Serialization *)
Definition fmt_of (k : tkind) : fmt :=
  match k with Torch d => Fmt SNoHeadTensor (Some (torch_index d)) | Numpy i => Fmt SNoHeadNumpy (Some (N.of_nat i)) end.
Definition doc_item (doc : list token) : item := Item (concat doc) (Some (length doc)).
Lemma kind_back k fs : plain_kind k -> token_kind (fmt_of k :: fs) = Ok k.
Proof.
  destruct k as [d|i]; cbn [plain_kind fmt_of token_kind]; [destruct d; intros H; try reflexivity; congruence|].
  intros H. rewrite Nat2N.id. destruct (numpy_known i H) as [s ->]. reflexivity.
Qed.
Section Ser.
Context (isfile : list N -> bool) (pickle : leaf -> bytes).
Lemma serialize_array k doc : plain_kind k -> serialize_new isfile pickle (array k doc) = Ok (concat doc, fmt_of k) /\
  serialize pickle (fmt_serializer (fmt_of k)) (array k doc) = Ok (concat doc, fmt_of k).
Proof.
  destruct k as [d|i]; cbn [plain_kind]; intros H.
  - destruct d; try (split; reflexivity). congruence.
  - destruct (numpy_known i H) as [s E]. cbn [array fmt_of fmt_serializer]. unfold serialize_new, serializers. cbn [first_match can_serialize length Nat.eqb serialize].
    unfold numpy_index. rewrite E. split; reflexivity.
Qed.
Lemma first_dim_array k doc : first_dim (array k doc) = Ok (length doc).
Proof. destruct k; cbn; rewrite Nat2N.id; reflexivity. Qed.
Lemma serialize_first k doc t : plain_kind k -> leaves t = [array k doc] ->
  serialize_tokens isfile pickle fresh t = Ok (doc_item doc, FState (Some [fmt_of k]) (Some (spec_of t))).
Proof.
  intros H L. unfold serialize_tokens. cbv zeta. rewrite tree_flatten_ok. cbn [fst snd fresh f_format]. rewrite L, mapM_cons.
  rewrite (proj1 (serialize_array k doc H)). cbn [bind mapM map fst snd encode_tokens]. rewrite first_dim_array. reflexivity.
Qed.
Lemma serialize_next k s doc t : plain_kind k -> leaves t = [array k doc] ->
  serialize_tokens isfile pickle (FState (Some [fmt_of k]) s) t = Ok (doc_item doc, FState (Some [fmt_of k]) s).
Proof.
  intros H L. unfold serialize_tokens. cbv zeta. rewrite tree_flatten_ok. cbn [fst snd f_format]. rewrite L. cbn [combine]. rewrite mapM_cons. cbn [fst snd].
  rewrite (proj2 (serialize_array k doc H)). cbn [bind mapM map fst snd encode_tokens]. rewrite first_dim_array. reflexivity.
Qed.
Lemma serialize_rest k s : plain_kind k -> forall ts docs, Forall2 (fun t doc => leaves t = [array k doc]) ts docs ->
  serialize_docs isfile pickle (FState (Some [fmt_of k]) s) ts = Ok (map doc_item docs, FState (Some [fmt_of k]) s).
Proof.
  intros H ts docs F. induction F as [|t doc ts docs L F IH]; [reflexivity|]. cbn [serialize_docs map]. rewrite (serialize_next k s doc t H L). cbn [bind fst snd].
  rewrite IH. reflexivity.
Qed.
Lemma serialize_docs_ok k t0 ts docs : plain_kind k -> Forall2 (fun t doc => leaves t = [array k doc]) (t0 :: ts) docs ->
  serialize_docs isfile pickle fresh (t0 :: ts) = Ok (map doc_item docs, FState (Some [fmt_of k]) (Some (spec_of t0))).
Proof.
  intros H F. inversion F as [|? doc ? docs' L F']; subst. cbn [serialize_docs map]. rewrite (serialize_first k doc t0 H L). cbn [bind fst snd].
  rewrite (serialize_rest k _ H ts docs' F'). reflexivity.
Qed.
End Ser.

(** ** Chunks of documents *)
Lemma map_concat_split {A B} (f : A -> B) : forall ls l, concat ls = map f l -> exists gs, map (map f) gs = ls /\ concat gs = l.
Proof.
  induction ls as [|x ls IH]; intros l H; cbn [concat] in H.
  - exists []. destruct l; [auto|discriminate].
  - symmetry in H. apply map_eq_app in H. destruct H as (l1 & l2 & -> & H1 & H2). destruct (IH l2 (eq_sym H2)) as (gs & G1 & G2).
    exists (l1 :: gs). cbn [map concat]. rewrite H1, G1, G2. auto.
Qed.
Lemma sum_lengths {A} (g : list (list A)) : sum (map (@length A) g) = length (concat g).
Proof. symmetry. apply length_concat. Qed.
Lemma doc_units k g : Forall (document k) g -> sum (map weight (map doc_item g)) = length (concat g).
Proof.
  intros H. rewrite <- sum_lengths, map_map. f_equal. apply map_ext_in. intros doc Hd. rewrite Forall_forall in H. destruct (H _ Hd) as [N _].
  unfold weight, doc_item. cbn [it_dim]. destruct doc; [congruence|]. cbn [length]. lia.
Qed.
Lemma doc_bytes k g : Forall (document k) g -> sum (map it_bytes (map doc_item g)) = width k * length (concat g).
Proof.
  induction 1 as [|doc g [_ H] _ IH]; [cbn; lia|]. cbn [map sum concat]. rewrite IH, app_length. unfold it_bytes at 1, doc_item at 1. cbn [it_data].
  rewrite (concat_length_uniform (width k)) by exact H. rewrite Nat.mul_add_distr_l. reflexivity.
Qed.
Lemma within_under o n : within o n -> under o n.
Proof. destruct o as [[|k]|]; cbn; auto. intros [H|H]; [discriminate|exact H]. Qed.

(** ** The written dataset *)
Section Written.
Context (isfile : list N -> bool) (pickle : leaf -> bytes) (rw rr : nat -> bool).

Lemma tokens_written k cb cs compress t0 ts docs :
  plain_kind k -> tree_plain rw rr t0 -> (is_none cb && is_none cs) || (truthy cb && truthy cs) = false ->
  Forall (document k) docs -> Forall2 (fun t doc => leaves t = [array k doc]) (t0 :: ts) docs ->
  exists x j groups chs, write_tokens isfile pickle rw cb cs compress (t0 :: ts) = Ok x /\ spec_of_json rr j = Ok (spec_of t0) /\
    x = Written (map (fun ch => (Ci (ch_index ch) (ch_size ch) (ch_dim ch), ch_bytes ch)) chs) (Some [fmt_of k], Some j) None
                (map (fun ch => (ch_index ch, ch_file ch)) chs) /\
    concat groups = docs /\ Forall (chunk_ok k cb cs) groups /\
    chunks_of (WCfg cb cs (chunk_seal None) compress) 0 chs /\ map ch_items chs = map (map doc_item) groups.
Proof.
  intros H Hp Hcfg Hd HF. unfold write_tokens. rewrite (serialize_docs_ok isfile pickle k t0 ts docs H HF). cbn [bind fst snd].
  unfold write_items. cbv zeta. assert (Es : forall n l, seal_samples None n l = Ok l).
  { intros n l. revert n. induction l as [|x l IH]; intros n; [reflexivity|]. cbn [seal_samples bind]. rewrite IH. reflexivity. }
  rewrite Es. cbn [bind]. unfold create_writer. cbn [c_size c_bytes]. rewrite (andb_comm (is_none cs)), (andb_comm (truthy cs)), Hcfg. cbn [bind].
  set (c := WCfg cb cs (chunk_seal None) compress).
  assert (Hne : Forall (fun x => 1 <= it_bytes x) (map doc_item docs)).
  { apply Forall_forall. intros y Hy. apply in_map_iff in Hy. destruct Hy as (doc & <- & Hdoc). rewrite Forall_forall in Hd. destruct (Hd _ Hdoc) as [N1 N2].
    unfold it_bytes, doc_item. cbn [it_data]. rewrite (concat_length_uniform (width k)) by exact N2. pose proof (width_pos k H). destruct doc; [congruence|]. cbn [length]. nia. }
  destruct (write_in_order c 0 0 (map doc_item docs) Hne) as (s & E & _ & _ & Hof & Hst & Hf & _).
  destruct (add_all c (new_writer 0) 0 (map doc_item docs)) as [s1|]; cbn [bind] in *; [|discriminate]. rewrite E. cbn [bind].
  replace (existsb (chunk_too_long None) (w_chunks s)) with false by (clear; induction (w_chunks s) as [|ch l IH]; [reflexivity|exact IH]).
  unfold get_config. cbn [f_spec f_format]. destruct (spec_json rw rr t0 Hp) as (j & J1 & J2). rewrite J1. cbn [bind].
  destruct (map_concat_split doc_item _ _ Hst) as (groups & G1 & G2).
  exists (Written (map (fun ch => (Ci (ch_index ch) (ch_size ch) (ch_dim ch), ch_bytes ch)) (w_chunks s)) (Some [fmt_of k], Some j) None
                (map (fun ch => (ch_index ch, ch_file ch)) (w_chunks s))), j, groups, (w_chunks s).
  split; [reflexivity|]. split; [exact J2|]. split; [reflexivity|]. split; [exact G2|]. split; [|split; [exact Hof|symmetry; exact G1]].
  rewrite <- G1 in Hf. assert (Hg : Forall (Forall (document k)) groups) by (apply Forall_concat; rewrite G2; exact Hd).
  apply Forall_forall. intros g Hg'. rewrite Forall_forall in Hf, Hg. specialize (Hf _ (in_map (map doc_item) _ _ Hg')). specialize (Hg _ Hg').
  destruct Hf as [N1 N2]. split; [intros ->; apply N1; reflexivity|]. rewrite map_length in N2. destruct N2 as [[F1 F2]|N2]; [right|left; exact N2].
  rewrite (doc_bytes k) in F1 by exact Hg. rewrite (doc_units k) in F2 by exact Hg. cbn [c_bytes c_size c] in F1, F2. split; apply within_under; assumption.
Qed.

Theorem tokens_read k cb cs compress decompress block t0 ts docs :
  plain_kind k -> codec_ok compress decompress -> tree_plain rw rr t0 -> (is_none cb && is_none cs) || (truthy cb && truthy cs) = false -> 1 <= block ->
  Forall (document k) docs -> Forall2 (fun t doc => leaves t = [array k doc]) (t0 :: ts) docs ->
  exists x o groups blocks, write_tokens isfile pickle rw cb cs compress (t0 :: ts) = Ok x /\ open_tokens rr block decompress x = Ok o /\
    concat groups = docs /\ Forall (chunk_ok k cb cs) groups /\ Forall2 (fun g bs => cut block (concat g) bs) groups blocks /\
    map snd (dataset_samples (seq 0 (length (t_ivs o))) (t_ivs o)) = seq 0 (length (concat blocks)) /\
    forall c i, In (c, i) (dataset_samples (seq 0 (length (t_ivs o))) (t_ivs o)) ->
      exists b, read_block o c i = Ok (array k b) /\ nth_error (concat blocks) i = Some b.
Proof.
  intros H Hc Hp Hcfg Hb Hd HF.
  destruct (tokens_written k cb cs compress t0 ts docs H Hp Hcfg Hd HF) as (x & j & groups & chs & Ew & Ej & Ex & Eg & Hok & Hof & Ech).
  assert (Hg : Forall (Forall (document k)) groups) by (apply Forall_concat; rewrite Eg; exact Hd).
  assert (L : length chs = length groups) by (apply (f_equal (@length _)) in Ech; rewrite !map_length in Ech; exact Ech).
  assert (Hch : forall n ch, nth_error chs n = Some ch -> exists g, nth_error groups n = Some g /\ ch_items ch = map doc_item g /\ ch_dim ch = Some (length (concat g)) /\
      ch_index ch = n /\ ch_size ch = length g /\ ch_bytes ch = length (chunk_data (map (@concat N) g)) /\ ch_file ch = compress (chunk_data (map (@concat N) g))).
  { intros n ch Hn. assert (E : nth_error (map ch_items chs) n = Some (ch_items ch)) by (rewrite nth_error_map, Hn; reflexivity).
    rewrite Ech, nth_error_map in E. destruct (nth_error groups n) as [g|] eqn:En; [|discriminate]. cbn [option_map] in E. injection E as E. exists g.
    assert (Hgn : Forall (document k) g) by (rewrite Forall_forall in Hg; apply Hg; eapply nth_error_In; eauto).
    assert (Hgne : g <> []) by (rewrite Forall_forall in Hok; apply (Hok g); eapply nth_error_In; eauto).
    destruct (Hof n ch Hn) as (H1 & H2 & H3 & H4 & _ & H6). rewrite <- E in *. cbn [c_seal c_compress chunk_seal Nat.add] in *.
    assert (Ed : map it_data (map doc_item g) = map (@concat N) g) by (rewrite map_map; apply map_ext; reflexivity). rewrite Ed in *.
    split; [reflexivity|]. split; [reflexivity|]. split.
    { rewrite (H6 (map (@length token) g)).
      - rewrite sum_lengths. reflexivity.
      - rewrite !map_map. reflexivity.
      - destruct g; [congruence|discriminate].
      - apply Forall_forall. intros d Hd'. apply in_map_iff in Hd'. destruct Hd' as (doc & <- & Hdoc). rewrite Forall_forall in Hgn. destruct (Hgn _ Hdoc) as [N _].
        destruct doc; [congruence|cbn; lia]. }
    rewrite map_length in H4. auto. }
  set (blocks := map (fun g => blocks_of block (concat g)) groups).
  assert (Hsz : Config_Model.sizes_of (ByBlock block) (map fst (x_chunks x)) = Ok (map (@length _) blocks)).
  { subst x. cbn [x_chunks]. rewrite map_map. cbn [fst]. subst blocks. clear -L Hch Hb.
    assert (G : forall (cl : list chunk) gl, length cl = length gl -> (forall n ch, nth_error cl n = Some ch -> exists g, nth_error gl n = Some g /\ ch_dim ch = Some (length (concat g))) ->
      Config_Model.sizes_of (ByBlock block) (map (fun ch => Ci (ch_index ch) (ch_size ch) (ch_dim ch)) cl) = Ok (map (@length _) (map (fun g : list (list token) => blocks_of block (concat g)) gl))).
    { induction cl as [|ch cl IH]; intros [|g gs] E HH; try discriminate; [reflexivity|]. cbn [map Config_Model.sizes_of num_samples]. replace (block =? 0) with false by (symmetry; apply Nat.eqb_neq; lia).
      destruct (HH 0 ch eq_refl) as (g' & Eg & Ed). injection Eg as <-. cbn [k_dim]. rewrite Ed. cbn [bind]. rewrite (IH gs); [|cbn in E; lia|intros n c Hn; exact (HH (S n) c Hn)].
      cbn [bind]. do 2 f_equal. unfold blocks_of. rewrite map_length, seq_length. reflexivity. }
    apply G; [exact L|]. intros n ch Hn. destruct (Hch n ch Hn) as (g & A & _ & B & _). eauto. }
  assert (Eo : open_tokens rr block decompress x = Ok (Tokens_ (x_chunks x) k block (full_ivs 0 (map (@length _) blocks)) (local_files decompress (x_files x)))).
  { unfold open_tokens, generate_roi. rewrite Hsz. cbn [bind]. rewrite Ex at 1. cbn [x_format open_config bind]. rewrite Ej. cbn [bind fst]. rewrite (kind_back k [] H). cbn [bind].
    replace (forallb _ (x_chunks x)) with false.
    - pose proof (loop_full (map (@length _) blocks) [] 0) as Hl. cbn [length app] in Hl. unfold generate_intervals. rewrite Hl. reflexivity.
    - symmetry. subst x. cbn [x_chunks]. inversion HF as [|? doc ? docs' _ _]; subst. destruct groups as [|g gs]; [discriminate|]. destruct chs as [|ch chs]; [discriminate|].
      destruct (Hch 0 ch eq_refl) as (g' & _ & _ & Ed & _). cbn [map forallb fst k_dim]. rewrite Ed. reflexivity. }
  exists x. eexists. exists groups, blocks. split; [exact Ew|]. split; [exact Eo|]. split; [exact Eg|]. split; [exact Hok|]. split; [|split].
  - subst blocks. clear -Hb. induction groups as [|g gs IH]; constructor; [apply blocks_cut, Hb|exact IH].
  - cbn [t_ivs]. rewrite full_ivs_length, full_samples, <- length_concat. reflexivity.
  - intros c i Hin. cbn [t_ivs] in Hin. rewrite full_ivs_length, map_length in Hin.
    destruct (full_sample_in blocks 0 0 c i Hin) as (bs & p & iv & b & _ & H2 & H3 & H4 & _ & H6 & H7). rewrite Nat.sub_0_r in *. exists b. split; [|exact H7].
    assert (Hg' : exists g, nth_error groups c = Some g /\ bs = blocks_of block (concat g)).
    { subst blocks. rewrite nth_error_map in H2. destruct (nth_error groups c) as [g|]; [|discriminate]. injection H2 as <-. eauto. }
    destruct Hg' as (g & Egc & ->). assert (Hcc : exists ch, nth_error chs c = Some ch).
    { destruct (nth_error chs c) eqn:E; [eauto|]. apply nth_error_None in E. assert (c < length groups) by (apply nth_error_Some; congruence). lia. }
    destruct Hcc as (ch & Ec). destruct (Hch c ch Ec) as (g' & Eg' & Ei & Ed & Ex1 & Es & Eb & Ef). rewrite Egc in Eg'. injection Eg' as <-.
    unfold read_block. cbn [t_chunks t_ivs t_disk t_kind t_block]. rewrite H3. replace (nth_error (x_chunks x) c) with (Some (Ci (ch_index ch) (ch_size ch) (ch_dim ch), ch_bytes ch)) by (subst x; cbn [x_chunks]; rewrite nth_error_map, Ec; reflexivity).
    cbn [k_file k_size]. unfold load_tokens.
    assert (Hidx : forall j c, nth_error chs j = Some c -> ch_index c = j) by (intros j0 c0 Hj; destruct (Hch j0 c0 Hj) as (? & _ & _ & _ & E & _); exact E).
    replace (local_files decompress (x_files x) (ch_index ch)) with (Some (chunk_data (map (@concat N) g))) by (subst x; cbn [x_files]; symmetry; exact (local_ok compress decompress chs c ch _ Hc Hidx Ec Ef)).
    rewrite Eb, Nat.leb_refl. unfold load_block.
    assert (Et : tokens_buffer (chunk_data (map (@concat N) g)) (ch_size ch) = concat (map (@concat N) g)).
    { etransitivity; [|apply tokens_buffer_ok]. f_equal. rewrite Es. symmetry. apply map_length. }
    rewrite Et.
    assert (Ecc : concat (map (@concat N) g) = concat (concat g)) by (clear; induction g as [|d g IH]; [reflexivity|]; cbn [map concat]; rewrite concat_app, IH; reflexivity). rewrite Ecc.
    assert (Hu : Forall (fun t => length t = width k) (concat g)).
    { rewrite Forall_forall in Hg. specialize (Hg g (nth_error_In _ _ Egc)). apply Forall_concat. eapply Forall_impl; [|exact Hg]. intros d [_ E]. exact E. }
    apply blocks_nth in H6. destruct H6 as [-> Hp']. assert (Hle : block * p + block <= length (concat g)).
    { pose proof (Nat.mul_div_le (length (concat g)) block ltac:(lia)). nia. }
    replace (i - iv_start iv) with p by lia. rewrite (width_itemsize k H), (concat_length_uniform (width k)) by exact Hu.
    replace (width k * p * block) with (width k * (block * p)) by (rewrite (Nat.mul_comm block p); apply Nat.mul_assoc).
    match goal with |- context [if ?c then _ else _] => replace c with false end; [|symmetry; apply Nat.ltb_ge; rewrite <- Nat.mul_add_distr_l; apply Nat.mul_le_mono_l; exact Hle].
    cbv iota.
    rewrite skipn_uniform by exact Hu. rewrite firstn_uniform by (apply Forall_skipn, Hu). cbn [bind]. f_equal. unfold block_of, array.
    rewrite firstn_length, skipn_length, Nat.min_l by lia. reflexivity.
Qed.
End Written.
