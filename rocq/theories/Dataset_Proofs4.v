From Verif Require Import Base Dict Assign_Model Assign_Spec Assign_Proofs Shuffle_Proofs Config_Model Config_Spec Config_Proofs
  Iter_Model Iter_Spec Iter_Proofs Epoch_Proofs
  Format_Model Format_Proofs Codec_Model Codec_Spec Tree_Model Tree_Spec Tree_Proofs Sample_Model Sample_Spec Sample_Proofs
  Writer_Model Writer_Spec Writer_Proofs Encrypt_Model Encrypt_Spec Encrypt_Proofs Dataset_Model Dataset_Spec Dataset_Proofs Dataset_Proofs2
  Dataset_Proofs3.
Local Ltac Zify.zify_post_hook ::= idtac.

(** ** Too long for the cipher *)

Lemma seal_samples_long c : e_level c = Sample_level -> forall l n,
  existsb (fun x => too_long c (it_data x)) l = true -> seal_samples (Some c) n l = Err ValueError.
Proof.
  intros Hl. induction l as [|x l IH]; intros n H; [discriminate|]. cbn [existsb] in H. cbn [seal_samples]. rewrite Hl. unfold encrypt.
  destruct (too_long c (it_data x)); cbn [bind]; [reflexivity|]. cbn [orb] in H. rewrite (IH (S n) H). reflexivity.
Qed.

Lemma write_long cb cs compress c l :
  e_level c = Sample_level -> existsb (fun x => too_long c (it_data x)) l = true ->
  write_items cb cs compress (Some c) l = Err ValueError.
Proof. intros Hl H. unfold write_items. cbv zeta. rewrite (seal_samples_long c Hl l 0 H). reflexivity. Qed.

Lemma seal_samples_short c n0 : e_level c = Sample_level -> e_limit c = Some n0 -> forall l n l',
  seal_samples (Some c) n l = Ok l' -> Forall (fun x => it_bytes x <= n0) l.
Proof.
  intros Hl Hn. induction l as [|x l IH]; intros n l' H; [constructor|]. cbn [seal_samples] in H. rewrite Hl in H. unfold encrypt, too_long in H.
  rewrite Hn in H. destruct (Nat.ltb_spec n0 (length (it_data x))); cbn [bind] in H; [discriminate|].
  destruct (seal_samples (Some c) (S n) l) eqn:E; cbn [bind] in H; [|discriminate]. constructor; [exact H0|eapply IH; eauto].
Qed.

Lemma in_concat_length {A} (b : list A) l : In b l -> length b <= length (concat l).
Proof. induction l as [|x l IH]; intros []; cbn [concat]; rewrite app_length; [subst; lia|]. apply IH in H. lia. Qed.

Lemma write_items_short cb cs compress c n0 l s :
  cipher_ok c -> e_limit c = Some n0 -> Forall (fun x => 1 <= it_bytes x) l ->
  write_items cb cs compress (Some c) l = Ok s -> Forall (fun x => it_bytes x <= n0) l.
Proof.
  intros Hk Hn Hl H. destruct (e_level c) eqn:Elv.
  - unfold write_items in H. cbv zeta in H. destruct (seal_samples (Some c) 0 l) eqn:E; cbn [bind] in H; [|discriminate].
    eapply seal_samples_short; eauto.
  - destruct (write_items_ok cb cs compress (Some c) l s Hk Hl H) as (rs & <- & HF & _).
    assert (Hx : existsb (chunk_too_long (Some c)) (w_chunks s) = false).
    { unfold write_items in H. cbv zeta in H. destruct (seal_samples _ _ _); cbn [bind] in H; [|discriminate].
      destruct (create_writer _ _); cbn [bind] in H; [|discriminate]. destruct (add_all _ _ _ _); cbn [bind] in H; [|discriminate].
      destruct (done _ _ _); cbn [bind] in H; [|discriminate]. destruct (existsb _ _) eqn:E; [discriminate|]. injection H as <-. exact E. }
    clear H Hl. revert rs HF. induction (w_chunks s) as [|ch chs IH]; intros rs HF; inversion HF as [|? r ? rs' H1 H2]; subst; [constructor|].
    cbn [existsb] in Hx. apply orb_false_iff in Hx. destruct Hx as [Hx1 Hx2]. cbn [concat]. apply Forall_app. split; [|apply IH; assumption].
    unfold chunk_too_long, too_long in Hx1. rewrite Elv, Hn in Hx1. apply Nat.ltb_ge in Hx1.
    assert (Er : ch_items ch = r).
    { clear -H1 Elv. induction H1 as [|y x l m (_ & _ & H) _ IH]; [reflexivity|]. rewrite Elv in H. congruence. }
    rewrite Er in Hx1. apply Forall_forall. intros y Hy.
    pose proof (chunk_data_length (map it_data r)) as HL. unfold blen in HL.
    assert (length (it_data y) <= length (concat (map it_data r))) by (apply in_concat_length, in_map, Hy).
    unfold it_bytes. lia.
Qed.

Lemma seal_samples_fit c n0 : e_level c = Sample_level -> e_limit c = Some n0 -> forall l n,
  Forall (fun x => it_bytes x <= n0) l -> exists l', seal_samples (Some c) n l = Ok l'.
Proof.
  intros Hl Hn. induction l as [|x l IH]; intros n H; cbn [seal_samples]; [eauto|]. inversion H as [|? ? H1 H2]; subst.
  rewrite Hl. unfold encrypt, too_long. rewrite Hn. destruct (Nat.ltb_spec n0 (length (it_data x))); [unfold it_bytes in H1; lia|].
  cbn [bind]. destruct (IH (S n) H2) as [l' ->]. cbn [bind]. eauto.
Qed.

Lemma write_items_fit cb cs compress c n0 l :
  cipher_ok c -> e_level c = Sample_level -> e_limit c = Some n0 ->
  (is_none cb && is_none cs) || (truthy cb && truthy cs) = false ->
  Forall (fun x => 1 <= it_bytes x) l -> Forall (fun x => it_bytes x <= n0) l ->
  exists s, write_items cb cs compress (Some c) l = Ok s.
Proof.
  intros Hk Hlv Hn Hc Hl Hs. unfold write_items. cbv zeta. destruct (seal_samples_fit c n0 Hlv Hn l 0 Hs) as [l' El]. rewrite El. cbn [bind].
  pose proof (seal_samples_ok (Some c) Hk l 0 l' El) as HF.
  unfold create_writer. cbn [c_size c_bytes]. rewrite (andb_comm (is_none cs)), (andb_comm (truthy cs)), Hc. cbn [bind].
  set (k := WCfg cb cs (chunk_seal (Some c)) compress).
  assert (Hl' : Forall (fun x => 1 <= it_bytes x) l').
  { clear -HF Hl. induction HF as [|y x l' l (_ & H & _) _ IH]; constructor; inversion Hl; subst; [lia|auto]. }
  destruct (Writer_Proofs.write_in_order k 0 0 l' Hl') as (s' & E & _).
  destruct (add_all k (new_writer 0) 0 l') as [s1|]; cbn [bind] in *; [|discriminate]. rewrite E. cbn [bind].
  replace (existsb (chunk_too_long (Some c)) (w_chunks s')) with false; [eauto|].
  symmetry. induction (w_chunks s') as [|ch chs IH]; [reflexivity|]. cbn [existsb]. rewrite IH. unfold chunk_too_long. rewrite Hlv. reflexivity.
Qed.

Section Written.
Context (isfile : list N -> bool) (pickle : leaf -> bytes) (unpickle : bytes -> res leaf).
Context (rw rr : nat -> bool) (Hpickle : forall x, unpickle (pickle x) = Ok x).

(** One read by index, from any state of the loader that reads have led to. *)
Lemma get_item_cases o e x ts :
  map snd (dataset_samples (seq 0 (length (o_ivs o))) (o_ivs o)) = seq 0 (length ts) ->
  (forall st c i, loader_ok e (o_disk o) (paths_of x) st ->
     In (c, i) (dataset_samples (seq 0 (length (o_ivs o))) (o_ivs o)) ->
     exists t st', read_sample unpickle o e st c i = Ok (t, st') /\ nth_error ts i = Some t /\
                   loader_ok e (o_disk o) (paths_of x) st') ->
  forall st i, loader_ok e (o_disk o) (paths_of x) st ->
    match (if (i <? 0)%Z then None else nth_error ts (Z.to_nat i)) with
    | Some t => exists st', get_item unpickle o e st i = Ok (t, st') /\ loader_ok e (o_disk o) (paths_of x) st'
    | None => get_item unpickle o e st i = Err ValueError
    end.
Proof.
  intros Hpos Hread st i Hst. set (ds := dataset_samples _ _) in *.
  assert (Hl : length ds = length ts) by (apply (f_equal (@length nat)) in Hpos; rewrite map_length, seq_length in Hpos; exact Hpos).
  unfold get_item. rewrite get_chunk_index_spec. unfold at_index. destruct (Z.ltb_spec i 0); [reflexivity|].
  rewrite addresses_samples. fold ds.
  destruct (nth_error ds (Z.to_nat i)) as [[c j]|] eqn:E.
  - pose proof (map_nth_error (fun s : nat * nat => (snd s, fst s)) _ _ E) as E1. cbn [fst snd] in E1. rewrite E1. cbn [bind fst snd].
    pose proof (map_nth_error snd _ _ E) as E2. cbn [snd] in E2. rewrite Hpos in E2.
    apply nth_error_nth with (d := 0) in E2. rewrite seq_nth in E2 by (rewrite <- Hl; apply nth_error_Some; congruence). cbn in E2.
    destruct (Hread st c j Hst (nth_error_In _ _ E)) as (t & st' & R1 & R2 & R3). rewrite E2, R2. eauto.
  - replace (nth_error ts (Z.to_nat i)) with (@None (tree leaf)) by (symmetry; apply nth_error_None; apply nth_error_None in E; lia).
    replace (nth_error (map _ ds) (Z.to_nat i)) with (@None (nat * nat)); [reflexivity|].
    symmetry. apply nth_error_None. rewrite map_length. apply nth_error_None. exact E.
Qed.

(** Two datasets with the same samples are read alike. *)
Theorem dataset_same cb cs compress decompress e cb' cs' compress' decompress' e' ts x x' :
  key_ok e -> codec_ok compress decompress -> key_ok e' -> codec_ok compress' decompress' -> storable_samples rw rr ts ->
  write_dataset isfile pickle rw cb cs compress e ts = Ok x -> small_chunks x ->
  write_dataset isfile pickle rw cb' cs' compress' e' ts = Ok x' -> small_chunks x' ->
  exists o o', open_dataset rr decompress x = Ok o /\ open_dataset rr decompress' x' = Ok o' /\
    forall is, bind (get_items unpickle o e new_loader is) (fun r => Ok (fst r)) =
               bind (get_items unpickle o' e' new_loader is) (fun r => Ok (fst r)).
Proof.
  intros Hk Hc Hk' Hc' Hts Hw Hsm Hw' Hsm'.
  destruct (dataset_reads isfile pickle unpickle rw rr Hpickle cb cs compress decompress e ts x Hk Hc Hts Hw Hsm)
    as (o & Ho & _ & _ & Hpos & _ & Hread).
  destruct (dataset_reads isfile pickle unpickle rw rr Hpickle cb' cs' compress' decompress' e' ts x' Hk' Hc' Hts Hw' Hsm')
    as (o' & Ho' & _ & _ & Hpos' & _ & Hread').
  exists o, o'. split; [exact Ho|]. split; [exact Ho'|]. intros is.
  pose proof (loader_ok_new e (o_disk o) (paths_of x)) as H1. pose proof (loader_ok_new e' (o_disk o') (paths_of x')) as H2.
  revert H1 H2. generalize new_loader at 1 3. generalize new_loader.
  induction is as [|i is IH]; intros st' st H1 H2; [reflexivity|]. cbn [get_items].
  pose proof (get_item_cases o e x ts Hpos Hread st i H1) as C1. pose proof (get_item_cases o' e' x' ts Hpos' Hread' st' i H2) as C2.
  destruct (if (i <? 0)%Z then None else nth_error ts (Z.to_nat i)) as [t|].
  - destruct C1 as (s1 & -> & K1). destruct C2 as (s2 & -> & K2). cbn [bind fst snd]. specialize (IH _ _ K1 K2).
    destruct (get_items unpickle o e s1 is) as [[q1 p1]|]; destruct (get_items unpickle o' e' s2 is) as [[q2 p2]|]; cbn [bind fst snd] in *; congruence.
  - rewrite C1, C2. reflexivity.
Qed.

(** Without the right kind of encryption object nothing is read. *)
Theorem dataset_wrong_key cb cs compress decompress c ts x o key :
  cipher_ok c -> codec_ok compress decompress -> storable_samples rw rr ts ->
  write_dataset isfile pickle rw cb cs compress (Some c) ts = Ok x -> small_chunks x ->
  open_dataset rr decompress x = Ok o ->
  (forall k, key = Some k -> e_alg k <> e_alg c \/ e_level k <> e_level c) ->
  forall i, get_item unpickle o key new_loader i = Err ValueError.
Proof.
  intros Hk Hc Hts Hw Hsm Ho Hkey i.
  destruct (dataset_reads isfile pickle unpickle rw rr Hpickle cb cs compress decompress (Some c) ts x Hk Hc Hts Hw Hsm)
    as (o' & Ho' & _ & _ & Hpos & _ & Hread). rewrite Ho in Ho'. injection Ho' as <-.
  destruct (open_fields rr _ _ _ Ho) as [_ Oe]. destruct (written_names isfile pickle rw rr _ _ _ _ _ _ (Hk : key_ok (Some c)) Hts Hw) as [Xe _].
  rewrite Xe in Oe. cbn [option_map] in Oe.
  pose proof (get_item_cases o (Some c) x ts Hpos Hread new_loader i (loader_ok_new _ _ _)) as C.
  unfold get_item in *. destruct (get_chunk_index (o_ivs o) i) as [[j ch]|er]; cbn [bind fst snd] in *.
  2: { destruct (if (i <? 0)%Z then None else _); [destruct C as (st' & C & _); discriminate|exact C]. }
  unfold read_sample in *.
  destruct (nth_error (o_chunks o) ch) as [[ce size]|], (nth_error (o_ivs o) ch) as [iv|];
    try (destruct (if (i <? 0)%Z then None else _); [destruct C as (st' & C & _); discriminate|exact C]).
  rewrite Oe in *. unfold load_bytes in *.
  destruct (open_chunk (o_disk o) (k_file ce) size new_loader) as [st1|]; cbn [bind] in *.
  2: { destruct (if (i <? 0)%Z then None else _); [destruct C as (st' & C & _); discriminate|exact C]. }
  unfold load_encrypted at 1. replace (validate_encryption (enc_state c) key) with (@Err cipher ValueError); [reflexivity|].
  unfold validate_encryption, enc_state. cbn [fst snd]. destruct key as [k|]; [|reflexivity].
  destruct (Nat.eqb_spec (e_alg k) (e_alg c)) as [Ea|]; cbn [negb]; [|reflexivity].
  destruct (Hkey k eq_refl) as [H|H]; [contradiction|]. destruct (e_level k), (e_level c); cbn; try reflexivity; contradiction.
Qed.

(** A sample that is longer than the cipher allows. *)
Theorem dataset_too_long cb cs compress c ts bs conf b :
  e_level c = Sample_level -> write_samples isfile pickle rw ts = Ok (bs, conf) -> In b bs -> too_long c b = true ->
  write_dataset isfile pickle rw cb cs compress (Some c) ts = Err ValueError.
Proof.
  intros Hl E Hb Ht. unfold write_dataset. rewrite E. cbn [bind fst snd]. rewrite write_long; [reflexivity|exact Hl|].
  apply existsb_exists. exists (Item b None). split; [apply in_map_iff; eauto|exact Ht].
Qed.

Theorem dataset_fit cb cs compress c n0 ts bs conf :
  cipher_ok c -> e_level c = Sample_level -> e_limit c = Some n0 ->
  (is_none cb && is_none cs) || (truthy cb && truthy cs) = false ->
  storable_samples rw rr ts -> write_samples isfile pickle rw ts = Ok (bs, conf) ->
  Forall (fun b => length b <= n0) bs -> exists x, write_dataset isfile pickle rw cb cs compress (Some c) ts = Ok x.
Proof.
  intros Hk Hlv Hn Hc Hts Ews Hs. unfold write_dataset. rewrite Ews. cbn [bind fst snd].
  assert (Hne : Forall (fun x => 1 <= it_bytes x) (map (fun b => Item b None) bs)).
  { pose proof (storable_leaves _ _ _ Hts) as Hlv'. assert (Hne : Forall (fun b => 1 <= length b) bs).
    { unfold write_samples in Ews. destruct (serialize_all isfile pickle fresh ts) as [[bs' st']|] eqn:E; cbn [bind fst snd] in Ews; [|discriminate].
      destruct (get_config rw st'); cbn [bind] in Ews; [|discriminate]. injection Ews as <- _.
      eapply serialize_all_nonempty; eauto. }
    apply Forall_forall. intros y Hy. apply in_map_iff in Hy. destruct Hy as (b & <- & Hb).
    rewrite Forall_forall in Hne. exact (Hne b Hb). }
  destruct (write_items_fit cb cs compress c n0 (map (fun b => Item b None) bs) Hk Hlv Hn Hc Hne) as [s ->]; cbn [bind]; [|eauto].
  apply Forall_forall. intros y Hy. apply in_map_iff in Hy. destruct Hy as (b & <- & Hb). rewrite Forall_forall in Hs. exact (Hs b Hb).
Qed.

(** Whatever the level: all samples of a finished dataset fit. *)
Theorem dataset_fits cb cs compress c n0 ts bs conf x :
  cipher_ok c -> e_limit c = Some n0 -> storable_samples rw rr ts -> write_samples isfile pickle rw ts = Ok (bs, conf) ->
  write_dataset isfile pickle rw cb cs compress (Some c) ts = Ok x -> Forall (fun b => length b <= n0) bs.
Proof.
  intros Hk Hn Hts Ews. unfold write_dataset. rewrite Ews. cbn [bind fst snd].
  assert (Hne : Forall (fun x => 1 <= it_bytes x) (map (fun b => Item b None) bs)).
  { pose proof (storable_leaves _ _ _ Hts) as Hlv. assert (Hne : Forall (fun b => 1 <= length b) bs).
    { unfold write_samples in Ews. destruct (serialize_all isfile pickle fresh ts) as [[bs' st']|] eqn:E; cbn [bind fst snd] in Ews; [|discriminate].
      destruct (get_config rw st'); cbn [bind] in Ews; [|discriminate]. injection Ews as <- _.
      eapply serialize_all_nonempty; eauto. }
    apply Forall_forall. intros y Hy. apply in_map_iff in Hy. destruct Hy as (b & <- & Hb).
    rewrite Forall_forall in Hne. exact (Hne b Hb). }
  destruct (write_items cb cs compress (Some c) _) as [s|] eqn:E; cbn [bind]; [|discriminate]. intros _.
  pose proof (write_items_short _ _ _ _ _ _ _ Hk Hn Hne E) as H. rewrite Forall_forall in *. intros b Hb.
  apply (H (Item b None)). apply in_map_iff. eauto.
Qed.

End Written.
