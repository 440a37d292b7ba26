From Verif Require Import Base Dict Assign_Model Assign_Spec Assign_Proofs Shuffle_Proofs Config_Model Config_Spec Config_Proofs
  Iter_Model Iter_Spec Iter_Proofs Epoch_Proofs
  Format_Model Format_Proofs Codec_Model Codec_Spec Tree_Model Tree_Spec Tree_Proofs Sample_Model Sample_Spec Sample_Proofs
  Writer_Model Writer_Spec Encrypt_Model Encrypt_Spec Encrypt_Proofs Dataset_Model Dataset_Spec Dataset_Proofs Dataset_Proofs2.
Local Ltac Zify.zify_post_hook ::= idtac.

(** ** The loader after [close] *)

Lemma load_bytes_path conf e d index chunk path begin size st b st' :
  load_bytes conf e d index chunk path begin size st = Ok (b, st') -> y_path st' = Some path.
Proof.
  unfold load_bytes. destruct (open_chunk d path size st) as [st1|] eqn:Eo; cbn [bind]; [|discriminate].
  assert (H1 : y_path st1 = Some path).
  { unfold open_chunk, same_path in Eo. destruct (y_path st) as [q|] eqn:Eq; [destruct (Nat.eqb_spec path q)|].
    - injection Eo as <-. congruence.
    - destruct (d path); [|discriminate]. destruct (_ <=? _); [|discriminate]. injection Eo as <-. reflexivity.
    - destruct (d path); [|discriminate]. destruct (_ <=? _); [|discriminate]. injection Eo as <-. reflexivity. }
  destruct conf as [cf|].
  - unfold load_encrypted. destruct (validate_encryption cf e) as [c|]; cbn [bind]; [|discriminate]. destruct (snd cf).
    + destruct (d path); [|discriminate]. destruct (load_data _ _); cbn [bind]; [|discriminate].
      destruct (e_decrypt _ _); cbn [bind]; [|discriminate]. intros H; injection H as _ <-. exact H1.
    + destruct (dget chunk (y_dec st1)); cbn [bind fst snd].
      * destruct (load_data _ _); cbn [bind]; [|discriminate]. intros H; injection H as _ <-. exact H1.
      * destruct (d path); [|discriminate]. destruct (e_decrypt _ _); cbn [bind fst snd]; [|discriminate].
        destruct (load_data _ _); cbn [bind]; [|discriminate]. intros H; injection H as _ <-. exact H1.
  - destruct (y_handle st1); [|discriminate]. destruct (load_data _ _); cbn [bind]; [|discriminate].
    intros H; injection H as _ <-. exact H1.
Qed.

(** A chunk that is not the one closed: as if nothing were open. *)
Lemma load_other conf e d index chunk path begin size st :
  y_path st <> Some path ->
  load_bytes conf e d index chunk path begin size (close_loader st) =
  load_bytes conf e d index chunk path begin size (PyL None None (y_dec st)).
Proof.
  intros H. unfold load_bytes. f_equal. unfold open_chunk, close_loader, same_path. cbn [y_path y_dec].
  destruct (y_path st) as [q|]; [|reflexivity]. destruct (Nat.eqb_spec path q); [congruence|reflexivity].
Qed.

(** The chunk that was closed, with encryption: the file is opened anew. *)
Lemma load_same_encrypted cf e d index chunk path begin size st b st' :
  y_path st = Some path ->
  load_bytes (Some cf) e d index chunk path begin size st = Ok (b, st') ->
  load_bytes (Some cf) e d index chunk path begin size (close_loader st) = Ok (b, close_loader st').
Proof.
  intros Hp. unfold load_bytes, open_chunk, same_path, close_loader. cbn [y_path y_handle y_dec]. rewrite Hp, Nat.eqb_refl. cbn [bind].
  unfold load_encrypted. destruct (validate_encryption cf e) as [c|]; cbn [bind]; [|discriminate]. destruct (snd cf).
  - destruct (d path); [|discriminate]. destruct (load_data _ _); cbn [bind]; [|discriminate].
    destruct (e_decrypt _ _); cbn [bind]; [|discriminate]. intros H; injection H as <- <-. rewrite Hp. reflexivity.
  - cbn [y_dec]. destruct (dget chunk (y_dec st)); cbn [bind fst snd].
    + destruct (load_data _ _); cbn [bind]; [|discriminate]. intros H; injection H as <- <-. rewrite Hp. reflexivity.
    + destruct (d path); [|discriminate]. destruct (e_decrypt _ _); cbn [bind fst snd]; [|discriminate].
      destruct (load_data _ _); cbn [bind]; [|discriminate]. intros H; injection H as <- <-. cbn [y_path y_dec]. rewrite Hp. reflexivity.
Qed.

Lemma load_same_plain e d index chunk path begin size st :
  y_path st = Some path ->
  load_bytes None e d index chunk path begin size (close_loader st) = Err AssertionError.
Proof.
  intros Hp. unfold load_bytes, open_chunk, same_path, close_loader. cbn [y_path y_handle]. rewrite Hp, Nat.eqb_refl. reflexivity.
Qed.

Section Written.
Context (isfile : list N -> bool) (pickle : leaf -> bytes) (unpickle : bytes -> res leaf).
Context (rw rr : nat -> bool) (Hpickle : forall x, unpickle (pickle x) = Ok x).

Lemma open_fields decompress x o : open_dataset rr decompress x = Ok o -> o_chunks o = x_chunks x /\ o_enc o = x_enc x.
Proof.
  unfold open_dataset. destruct (open_config rr (x_format x)); cbn [bind]; [|discriminate].
  destruct (Config_Model.sizes_of _ _); cbn [bind]; [|discriminate]. destruct (generate_roi _ _); cbn [bind]; [|discriminate].
  destruct (generate_intervals _ _); cbn [bind]; [|discriminate]. intros H; injection H as <-. split; reflexivity.
Qed.

Lemma written_names cb cs compress e ts x :
  key_ok e -> storable_samples rw rr ts -> write_dataset isfile pickle rw cb cs compress e ts = Ok x ->
  x_enc x = option_map enc_state e /\
  forall c y, nth_error (x_chunks x) c = Some y -> k_file (fst y) = c.
Proof.
  intros Hk Hts. unfold write_dataset. destruct (write_samples isfile pickle rw ts) as [[bs fc]|] eqn:Ews; cbn [bind fst snd]; [|discriminate].
  assert (Hne : Forall (fun x => 1 <= it_bytes x) (map (fun b => Item b None) bs)).
  { pose proof (storable_leaves _ _ _ Hts) as Hlv. assert (Hne : Forall (fun b => 1 <= length b) bs).
    { unfold write_samples in Ews. destruct (serialize_all isfile pickle fresh ts) as [[bs' st']|] eqn:E; cbn [bind fst snd] in Ews; [|discriminate].
      destruct (get_config rw st'); cbn [bind] in Ews; [|discriminate]. injection Ews as <- _.
      eapply serialize_all_nonempty; eauto. }
    apply Forall_forall. intros y Hy. apply in_map_iff in Hy. destruct Hy as (b & <- & Hb).
    rewrite Forall_forall in Hne. exact (Hne b Hb). }
  destruct (write_items cb cs compress e _) as [s|] eqn:Es; cbn [bind]; [|discriminate]. intros H; injection H as <-.
  split; [reflexivity|]. cbn [x_chunks]. intros c y. rewrite nth_error_map.
  destruct (nth_error (w_chunks s) c) as [ch|] eqn:E; [|discriminate]. intros H; injection H as <-. cbn [fst k_file].
  destruct (write_items_ok cb cs compress e _ s Hk Hne Es) as (_ & _ & _ & Hof & _). apply (Hof c ch E).
Qed.

(** The chunk of a request. *)
Theorem dataset_after_close cb cs compress decompress e ts x o :
  key_ok e -> codec_ok compress decompress -> storable_samples rw rr ts ->
  write_dataset isfile pickle rw cb cs compress e ts = Ok x -> small_chunks x ->
  open_dataset rr decompress x = Ok o ->
  forall st c i c0,
    loader_ok e (o_disk o) (paths_of x) st -> y_path st = Some c0 ->
    In (c, i) (dataset_samples (seq 0 (length (o_ivs o))) (o_ivs o)) ->
    (e = None /\ c = c0 -> read_sample unpickle o e (close_loader st) c i = Err AssertionError) /\
    (e <> None \/ c <> c0 -> exists t st', read_sample unpickle o e (close_loader st) c i = Ok (t, st') /\ nth_error ts i = Some t).
Proof.
  intros Hk Hc Hts Hw Hsm Ho st c i c0 Hst Hp Hin.
  destruct (dataset_reads isfile pickle unpickle rw rr Hpickle cb cs compress decompress e ts x Hk Hc Hts Hw Hsm)
    as (o' & Ho' & Hl & _ & Hpos & _ & Hread). rewrite Ho in Ho'. injection Ho' as <-.
  destruct (open_fields _ _ _ Ho) as [Oc Oe]. destruct (written_names _ _ _ _ _ _ Hk Hts Hw) as [Xe Hnm]. rewrite Xe in Oe.
  assert (Hci : exists ce size iv, nth_error (o_chunks o) c = Some (ce, size) /\ nth_error (o_ivs o) c = Some iv /\ k_file ce = c).
  { destruct (Hread st c i Hst Hin) as (t & st' & E & _). unfold read_sample in E.
    destruct (nth_error (o_chunks o) c) as [[ce size]|] eqn:E1; [|discriminate].
    destruct (nth_error (o_ivs o) c) as [iv|] eqn:E2; [|discriminate]. exists ce, size, iv. repeat split.
    rewrite Oc in E1. apply (Hnm c _ E1). }
  destruct Hci as (ce & size & iv & E1 & E2 & Ef). split.
  - intros [-> ->]. unfold read_sample. rewrite E1, E2, Oe, Ef. cbn [option_map]. rewrite load_same_plain by exact Hp. reflexivity.
  - intros Hor. destruct (Nat.eq_dec c c0) as [->|Hne].
    + destruct e as [k|]; [|destruct Hor; congruence].
      destruct (Hread st c0 i Hst Hin) as (t & st' & E & Et & _). unfold read_sample in *. rewrite E1, E2, Oe, Ef in *. cbn [option_map] in *.
      destruct (load_bytes (Some (enc_state k)) (Some k) (o_disk o) i c0 c0 (iv_start iv) size st) as [[b st1]|] eqn:El; cbn [bind fst snd] in E; [|discriminate].
      rewrite (load_same_encrypted _ _ _ _ _ _ _ _ _ _ _ Hp El). cbn [bind fst snd].
      destruct (deserialize_sample unpickle (o_conf o) b) as [t'|]; cbn [bind] in *; [|discriminate]. injection E as <- _.
      eexists _, _. split; [reflexivity|exact Et].
    + assert (Hst2 : loader_ok e (o_disk o) (paths_of x) (PyL None None (y_dec st))).
      { destruct Hst as [_ H2]. split; cbn; [discriminate|exact H2]. }
      destruct (Hread _ c i Hst2 Hin) as (t & st' & E & Et & _). exists t, st'. split; [|exact Et].
      rewrite <- E. unfold read_sample. rewrite E1, E2. rewrite load_other; [reflexivity|]. congruence.
Qed.

Lemma read_list_path o e l c i : forall st r st',
  (forall c y, nth_error (o_chunks o) c = Some y -> k_file (fst y) = c) ->
  read_list unpickle o e st (l ++ [(c, i)]) = Ok (r, st') -> y_path st' = Some c.
Proof.
  induction l as [|[c1 i1] l IH]; intros st r st' Hn; cbn [app read_list].
  - unfold read_sample. destruct (nth_error (o_chunks o) c) as [[ce size]|] eqn:E1; [|discriminate].
    destruct (nth_error (o_ivs o) c) as [iv|]; [|discriminate].
    destruct (load_bytes _ _ _ _ _ _ _ _ _) as [[b st1]|] eqn:El; cbn [bind fst snd]; [|discriminate].
    destruct (deserialize_sample _ _ _); cbn [bind fst snd]; [|discriminate]. intros H; injection H as _ <-.
    apply load_bytes_path in El. rewrite El. pose proof (Hn c _ E1) as Hn1. cbn [fst] in Hn1. rewrite Hn1. reflexivity.
  - destruct (read_sample _ _ _ _ _ _) as [[t st1]|]; cbn [bind fst snd]; [|discriminate].
    destruct (read_list _ _ _ _ (l ++ _)) as [[q st2]|] eqn:E; cbn [bind fst snd]; [|discriminate].
    intros H; injection H as _ <-. eapply IH; eauto.
Qed.

(** After a complete pass of one worker. *)
Theorem dataset_after_pass cb cs compress decompress e ts x rng shuffle seed B epoch :
  key_ok e -> codec_ok compress decompress -> storable_samples rw rr ts ->
  write_dataset isfile pickle rw cb cs compress e ts = Ok x -> small_chunks x -> rng_ok rng -> 1 <= B ->
  exists o a s0 reqs s' r st c0,
    open_dataset rr decompress x = Ok o /\
    shuffle_assign rng shuffle (Env 1 0 1) seed false 1 B epoch (o_ivs o) = Ok a /\
    iter_fresh (Env 1 0 1) 1 0 epoch a = Ok s0 /\ Run (shuffle_call rng shuffle seed) s0 reqs s' /\
    read_list unpickle o e new_loader (map (fun q => (rq_chunk q, rq_index q)) reqs) = Ok (r, st) /\
    Permutation r ts /\ option_map rq_chunk (nth_error reqs (length reqs - 1)) = Some c0 /\
    forall i, i < length ts -> exists c, get_chunk_index (o_ivs o) (Z.of_nat i) = Ok (i, c) /\
      (forall t, nth_error ts i = Some t -> exists st', get_item unpickle o e (after_pass false st) (Z.of_nat i) = Ok (t, st')) /\
      (e = None /\ c = c0 -> get_item unpickle o e (after_pass true st) (Z.of_nat i) = Err AssertionError) /\
      (e <> None \/ c <> c0 -> forall t, nth_error ts i = Some t ->
         exists st', get_item unpickle o e (after_pass true st) (Z.of_nat i) = Ok (t, st')).
Proof.
  intros Hk Hc Hts Hw Hsm Hrng HB.
  destruct (dataset_reads isfile pickle unpickle rw rr Hpickle cb cs compress decompress e ts x Hk Hc Hts Hw Hsm)
    as (o & Ho & _ & _ & Hpos & _ & Hread).
  set (ds := dataset_samples (seq 0 (length (o_ivs o))) (o_ivs o)) in *.
  destruct (assign_samples rng shuffle 1 seed 1 B epoch (o_ivs o) Hrng ltac:(lia) ltac:(lia) HB) as (a & Ha & Haok & Hperm & _).
  fold ds in Hperm.
  destruct (runs_streams (shuffle_call rng shuffle seed) 1 1 epoch 1 a (shuffle_call_ok rng shuffle seed Hrng) Haok ltac:(lia))
    as (runs & Hl & Hruns & Hst).
  assert (Hall : Permutation (map req_sample (concat runs)) (flat_map worker_samples (workers a))).
  { rewrite concat_map, Hst, <- flat_map_concat_map. apply Permutation_flat_map_ext. intros w _. apply stream_perm, shuffle_call_ok, Hrng. }
  destruct (Hruns 0 0 ltac:(lia) ltac:(lia)) as (reqs & s0 & s' & R1 & R2 & R3).
  destruct runs as [|q [|q2 runs]]; try discriminate Hl. cbn in R1. injection R1 as ->. cbn [concat] in Hall. rewrite app_nil_r in Hall.
  assert (Hin : incl (map req_sample reqs) ds).
  { intros y Hy. eapply Permutation_in; [exact Hperm|]. eapply Permutation_in; [exact Hall|exact Hy]. }
  destruct (read_list_ok unpickle o e x ts Hread (map req_sample reqs) new_loader (loader_ok_new _ _ _) Hin) as (r & st & L1 & L2 & L3).
  assert (Lts : length reqs = length ts).
  { rewrite <- (map_length req_sample). rewrite (Permutation_length Hall), (Permutation_length Hperm).
    apply (f_equal (@length nat)) in Hpos. rewrite map_length, seq_length in Hpos. exact Hpos. }
  assert (Hne : 1 <= length ts) by (destruct ts; [destruct Hts|cbn; lia]).
  destruct (exists_last (l := reqs)) as (init & lastr & Er). { intros ->. cbn in Lts. lia. }
  exists o, a, s0, reqs, s', r, st, (rq_chunk lastr).
  split; [exact Ho|]. split; [exact Ha|]. split; [exact R2|]. split; [exact R3|]. split; [exact L1|]. split.
  { destruct (at_positions_perm ts _ (seq 0 (length ts)) _ L2) as (q & Q1 & Q2).
    + rewrite <- Hpos. apply Permutation_map. transitivity (flat_map worker_samples (workers a)); assumption.
    + rewrite (at_positions_all ts q Q1) in Q2. exact Q2. }
  split. { rewrite Er, app_length. cbn [length]. rewrite nth_error_app2 by lia. replace (_ - _ - _) with 0 by lia. reflexivity. }
  destruct (open_fields _ _ _ Ho) as [Oc _]. destruct (written_names _ _ _ _ _ _ Hk Hts Hw) as [_ Hnm].
  assert (Hp : y_path st = Some (rq_chunk lastr)).
  { rewrite Er, map_app in L1. cbn [map] in L1. eapply read_list_path; [rewrite Oc; exact Hnm|exact L1]. }
  intros i Hi.
  assert (Hd : exists c, nth_error ds i = Some (c, i)).
  { assert (Hlds : length ds = length ts) by (apply (f_equal (@length nat)) in Hpos; rewrite map_length, seq_length in Hpos; exact Hpos).
    destruct (nth_error ds i) as [[c j]|] eqn:E; [|apply nth_error_None in E; lia]. exists c.
    assert (H0 : nth_error (map snd ds) i = Some j) by exact (map_nth_error snd i ds E). rewrite Hpos in H0.
    apply nth_error_nth with (d := 0) in H0. rewrite seq_nth in H0 by lia. cbn in H0. rewrite <- H0. reflexivity. }
  destruct Hd as [c Ed]. exists c.
  assert (Hg : get_chunk_index (o_ivs o) (Z.of_nat i) = Ok (i, c)).
  { rewrite get_chunk_index_spec. unfold at_index. replace (Z.of_nat i <? 0)%Z with false by (symmetry; apply Z.ltb_ge; lia).
    rewrite Nat2Z.id, addresses_samples. change (dataset_samples (seq 0 (length (o_ivs o))) (o_ivs o)) with ds.
    rewrite (map_nth_error (fun s => (snd s, fst s)) i _ Ed). reflexivity. }
  split; [exact Hg|]. unfold get_item. rewrite Hg. cbn [bind fst snd]. split.
  - intros t Et. destruct (Hread st c i L3 (nth_error_In _ _ Ed)) as (t' & st' & E & Et' & _). cbn [after_pass]. rewrite E. exists st'. congruence.
  - cbn [after_pass].
    destruct (dataset_after_close cb cs compress decompress e ts x o Hk Hc Hts Hw Hsm Ho st c i (rq_chunk lastr) L3 Hp (nth_error_In _ _ Ed)) as [A1 A2].
    split; [exact A1|]. intros Hor t Et. destruct (A2 Hor) as (t' & st' & E & Et'). exists st'. congruence.
Qed.

End Written.
