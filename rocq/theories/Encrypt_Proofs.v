From Verif Require Import Base Dict Format_Model Format_Proofs Writer_Model Writer_Spec Writer_Proofs Writer_Proofs2 Writer_Proofs3
  Encrypt_Model Encrypt_Spec.
Local Ltac Zify.zify_post_hook ::= idtac.

(** ** Reading *)

(** File [f] holds the items [raws], encrypted or not. *)
Definition holds (e : option cipher) (f : bytes) (raws : list bytes) : Prop :=
  match e with
  | None => f = chunk_data raws /\ (blen (chunk_data raws) < two32)%N
  | Some c =>
      match e_level c with
      | Chunk_level => e_decrypt c f = Ok (chunk_data raws) /\ (blen (chunk_data raws) < two32)%N
      | Sample_level => exists sealed, f = chunk_data sealed /\ (blen (chunk_data sealed) < two32)%N /\
                          Forall2 (fun s r => e_decrypt c s = Ok r) sealed raws
      end
  end.

(** What the loader remembers is right: [paths] gives the path of a chunk index. *)
Definition loader_ok (e : option cipher) (d : disk) (paths : nat -> option nat) (st : pyl) : Prop :=
  (forall p, y_path st = Some p -> exists f, d p = Some f /\ y_handle st = Some f) /\
  (forall c data, dget c (y_dec st) = Some data ->
     exists p f x, paths c = Some p /\ d p = Some f /\ e = Some x /\ e_decrypt x f = Ok data).

Lemma loader_ok_new e d paths : loader_ok e d paths new_loader.
Proof. split; intros; discriminate. Qed.

Lemma open_ok e d paths path size f st :
  loader_ok e d paths st -> d path = Some f -> size <= length f ->
  exists st', open_chunk d path size st = Ok st' /\ loader_ok e d paths st' /\
              y_path st' = Some path /\ y_handle st' = Some f /\ y_dec st' = y_dec st.
Proof.
  intros [H1 H2] Hd Hs. unfold open_chunk, same_path.
  destruct (y_path st) as [q|] eqn:Eq; [destruct (Nat.eqb_spec path q) as [->|]|].
  - exists st. destruct (H1 q eq_refl) as (g & G1 & G2). rewrite Hd in G1. injection G1 as <-.
    split; [reflexivity|]. split; [split; [intros p; rewrite Eq; apply H1|exact H2]|auto].
  - rewrite Hd. replace (size <=? length f) with true by (symmetry; apply Nat.leb_le; exact Hs).
    eexists. split; [reflexivity|]. cbn. split; [|auto]. split; cbn; [|exact H2].
    intros p E. injection E as <-. eauto.
  - rewrite Hd. replace (size <=? length f) with true by (symmetry; apply Nat.leb_le; exact Hs).
    eexists. split; [reflexivity|]. cbn. split; [|auto]. split; cbn; [|exact H2].
    intros p E. injection E as <-. eauto.
Qed.

Lemma level_eqb_refl l : level_eqb l l = true.
Proof. destruct l; reflexivity. Qed.
Lemma validate_ok c : validate_encryption (enc_state c) (Some c) = Ok c.
Proof. unfold validate_encryption, enc_state. cbn [fst snd]. rewrite Nat.eqb_refl, level_eqb_refl. reflexivity. Qed.

Lemma Forall2_nth {A B} (R : A -> B -> Prop) l m i y :
  Forall2 R l m -> nth_error m i = Some y -> exists x, nth_error l i = Some x /\ R x y.
Proof.
  intros H; revert i; induction H as [|a b l m Hab _ IH]; intros [|i] E; cbn in E; try discriminate.
  - injection E as <-. exists a. auto.
  - apply IH in E. exact E.
Qed.

Lemma load_bytes_ok e d paths path chunk size f raws st begin i b :
  loader_ok e d paths st -> paths chunk = Some path -> d path = Some f -> size <= length f ->
  holds e f raws -> nth_error raws i = Some b ->
  exists st', load_bytes (option_map enc_state e) e d (begin + i) chunk path begin size st = Ok (b, st') /\
              loader_ok e d paths st'.
Proof.
  intros Hst Hp Hd Hs Hf Hi. unfold load_bytes.
  destruct (open_ok e d paths path size f st Hst Hd Hs) as (st1 & -> & H1 & Ep & Eh & Ed). cbn [bind].
  destruct e as [c|]; cbn [option_map].
  - unfold load_encrypted. rewrite validate_ok. cbn [bind]. cbn [enc_state snd]. cbn [holds] in Hf.
    destruct (e_level c).
    + destruct Hf as (sealed & -> & Hb & HF). rewrite Hd.
      destruct (Forall2_nth _ _ _ _ _ HF Hi) as (s & Es & Hdec).
      fold (load_item (chunk_data sealed) (begin + i) begin). rewrite (load_item_ok sealed i s begin Hb Es). cbn [bind].
      rewrite Hdec. cbn [bind]. exists st1. auto.
    + destruct Hf as [Hdec Hb]. destruct (dget chunk (y_dec st1)) as [data|] eqn:Eg.
      * destruct H1 as [H1 H2]. destruct (H2 _ _ Eg) as (p & f' & x & P1 & P2 & P3 & P4).
        rewrite Hp in P1. injection P1 as <-. rewrite Hd in P2. injection P2 as <-. injection P3 as <-.
        rewrite Hdec in P4. injection P4 as <-. cbn [bind fst snd].
        fold (load_item (chunk_data raws) (begin + i) begin). rewrite (load_item_ok raws i b begin Hb Hi). cbn [bind].
        exists st1. split; [reflexivity|split; assumption].
      * rewrite Hd, Hdec. cbn [bind fst snd].
        fold (load_item (chunk_data raws) (begin + i) begin). rewrite (load_item_ok raws i b begin Hb Hi). cbn [bind].
        eexists. split; [reflexivity|]. destruct H1 as [H1 H2]. split; cbn; [exact H1|].
        intros c' data E. destruct (Nat.eqb_spec chunk c') as [<-|]; [|discriminate]. injection E as <-.
        exists path, f, c. auto.
  - cbn [holds] in Hf. destruct Hf as [-> Hb]. rewrite Eh.
    fold (load_item (chunk_data raws) (begin + i) begin). rewrite (load_item_ok raws i b begin Hb Hi). cbn [bind].
    exists st1. auto.
Qed.

(** ** Writing *)

(** A stored item and the item it was made from. *)
Definition sealed_of (e : option cipher) (y x : item) : Prop :=
  it_dim y = it_dim x /\ it_bytes x <= it_bytes y /\
  match e with
  | Some c => match e_level c with
              | Sample_level => e_decrypt c (it_data y) = Ok (it_data x)
              | Chunk_level => y = x
              end
  | None => y = x
  end.

Lemma sealed_refl e x :
  match e with Some c => e_level c = Chunk_level | None => True end -> sealed_of e x x.
Proof. intros H. unfold sealed_of. split; [reflexivity|]. split; [lia|]. destruct e as [c|]; [rewrite H|]; reflexivity. Qed.

Lemma seal_samples_ok e : key_ok e -> forall l n l', seal_samples e n l = Ok l' -> Forall2 (sealed_of e) l' l.
Proof.
  intros Hk. induction l as [|x l IH]; intros n l'; cbn [seal_samples].
  - intros H; injection H as <-. constructor.
  - destruct e as [c|].
    + destruct (e_level c) eqn:El.
      * unfold encrypt. destruct (too_long c (it_data x)); cbn [bind]; [discriminate|].
        destruct (seal_samples (Some c) (S n) l) as [ys|] eqn:E; cbn [bind]; [|discriminate].
        intros H; injection H as <-. constructor; [|exact (IH _ _ E)].
        destruct Hk as [H1 H2]. unfold sealed_of, it_bytes. cbn. split; [reflexivity|]. split; [apply H2|].
        rewrite El. apply H1.
      * cbn [bind]. destruct (seal_samples (Some c) (S n) l) as [ys|] eqn:E; cbn [bind]; [|discriminate].
        intros H; injection H as <-. constructor; [|exact (IH _ _ E)]. apply sealed_refl. exact El.
    + cbn [bind]. destruct (seal_samples None (S n) l) as [ys|] eqn:E; cbn [bind]; [|discriminate].
      intros H; injection H as <-. constructor; [|exact (IH _ _ E)]. apply sealed_refl. exact I.
Qed.

Lemma seal_samples_total e : match e with Some c => e_limit c = None | None => True end ->
  forall l n, exists l', seal_samples e n l = Ok l'.
Proof.
  intros Hk. induction l as [|x l IH]; intros n; cbn [seal_samples]; [eauto|].
  destruct (IH (S n)) as [l' E]. destruct e as [c|].
  - destruct (e_level c).
    + unfold encrypt, too_long. rewrite Hk. cbn [bind]. rewrite E. cbn [bind]. eauto.
    + cbn [bind]. rewrite E. cbn [bind]. eauto.
  - cbn [bind]. rewrite E. cbn [bind]. eauto.
Qed.

Lemma Forall2_concat {A B} (R : A -> B -> Prop) : forall ls l,
  Forall2 R (concat ls) l -> exists rs, concat rs = l /\ Forall2 (Forall2 R) ls rs.
Proof.
  induction ls as [|x ls IH]; intros l H; cbn [concat] in H.
  - inversion H; subst. exists []. split; [reflexivity|constructor].
  - apply Forall2_app_inv_l in H. destruct H as (l1 & l2 & H1 & H2 & ->).
    destruct (IH _ H2) as (rs & <- & H3). exists (l1 :: rs). split; [reflexivity|constructor; assumption].
Qed.

(** The chunks of a finished writer. *)
Lemma write_items_ok cb cs compress e l s :
  key_ok e -> Forall (fun x => 1 <= it_bytes x) l -> write_items cb cs compress e l = Ok s ->
  exists rs, concat rs = l /\ Forall2 (Forall2 (sealed_of e)) (map ch_items (w_chunks s)) rs /\
    chunks_of (WCfg cb cs (chunk_seal e) compress) 0 (w_chunks s) /\ Forall (fun r => r <> []) rs.
Proof.
  intros Hk Hl. unfold write_items. cbv zeta.
  destruct (seal_samples e 0 l) as [l'|] eqn:El; cbn [bind]; [|discriminate].
  set (c := WCfg cb cs (chunk_seal e) compress).
  pose proof (seal_samples_ok e Hk l 0 l' El) as HF.
  unfold create_writer. destruct (_ || _); cbn [bind]; [discriminate|].
  assert (Hl' : Forall (fun x => 1 <= it_bytes x) l').
  { clear -HF Hl. induction HF as [|y x l' l (_ & H & _) _ IH]; constructor; inversion Hl; subst; [lia|auto]. }
  destruct (write_in_order c 0 0 l' Hl') as (s' & E & _ & _ & Hof & Hst & Hne & _).
  destruct (add_all c (new_writer 0) 0 l') as [s1|]; cbn [bind] in *; [|discriminate]. rewrite E. cbn [bind].
  destruct (existsb _ _); [discriminate|]. intros H; injection H as <-.
  unfold stored in Hst. rewrite <- Hst in HF. destruct (Forall2_concat _ _ _ HF) as (rs & E1 & E2).
  exists rs. split; [exact E1|]. split; [exact E2|]. split; [exact Hof|].
  clear -E2 Hne. induction E2 as [|a r ls rs H _ IH]; [constructor|]. inversion Hne; subst. constructor; [|auto].
  inversion H; subst; [tauto|discriminate].
Qed.

Lemma write_items_total cb cs compress e l :
  match e with Some c => e_limit c = None | None => True end -> key_ok e ->
  (is_none cb && is_none cs) || (truthy cb && truthy cs) = false ->
  Forall (fun x => 1 <= it_bytes x) l -> exists s, write_items cb cs compress e l = Ok s.
Proof.
  intros Hlim Hk Hc Hl. unfold write_items. cbv zeta. destruct (seal_samples_total e Hlim l 0) as [l' El]. rewrite El. cbn [bind].
  pose proof (seal_samples_ok e Hk l 0 l' El) as HF.
  unfold create_writer. cbn [c_size c_bytes]. rewrite (andb_comm (is_none cs)), (andb_comm (truthy cs)), Hc. cbn [bind].
  set (c := WCfg cb cs (chunk_seal e) compress).
  assert (Hl' : Forall (fun x => 1 <= it_bytes x) l').
  { clear -HF Hl. induction HF as [|y x l' l (_ & H & _) _ IH]; constructor; inversion Hl; subst; [lia|auto]. }
  destruct (write_in_order c 0 0 l' Hl') as (s' & E & _).
  destruct (add_all c (new_writer 0) 0 l') as [s1|]; cbn [bind] in *; [|discriminate]. rewrite E. cbn [bind].
  replace (existsb (chunk_too_long e) (w_chunks s')) with false; [eauto|].
  symmetry. induction (w_chunks s') as [|ch chs IH]; [reflexivity|]. cbn [existsb]. rewrite IH.
  unfold chunk_too_long, too_long. destruct e as [x|]; [|reflexivity]. rewrite Hlim. destruct (e_level x); reflexivity.
Qed.

Lemma chunk_holds cb cs compress e k ch r :
  key_ok e -> chunk_of (WCfg cb cs (chunk_seal e) compress) k ch -> Forall2 (sealed_of e) (ch_items ch) r ->
  (N.of_nat (ch_bytes ch) < two32)%N ->
  exists f, ch_file ch = compress f /\ ch_bytes ch = length f /\ holds e f (map it_data r) /\
    ch_index ch = k /\ ch_size ch = length r /\ Forall (fun x => (blen (it_data x) < two32)%N) r.
Proof.
  intros Hk (E1 & E2 & E3 & E4 & _) HF Hb. cbn [c_seal c_compress] in *.
  set (data := chunk_data (map it_data (ch_items ch))) in *.
  exists (chunk_seal e k data). split; [exact E2|]. split; [exact E3|].
  assert (Hlen : length data <= ch_bytes ch).
  { rewrite E3. unfold chunk_seal. destruct e as [c|]; [|lia]. destruct (e_level c); [lia|apply Hk]. }
  assert (Hd : (blen data < two32)%N) by (unfold blen; lia).
  assert (HL : length (ch_items ch) = length r) by (clear -HF; induction HF; cbn; congruence).
  assert (Hsmall : Forall (fun x => (blen (it_data x) < two32)%N) (ch_items ch)).
  { apply Forall_forall. intros x Hx. unfold data in Hd. rewrite chunk_data_length in Hd.
    apply in_split in Hx. destruct Hx as (l1 & l2 & E). rewrite E in Hd. rewrite map_app, concat_app in Hd.
    cbn [map concat] in Hd. unfold blen in *. rewrite !app_length in Hd. lia. }
  split; [|split; [exact E1|split; [rewrite E4; exact HL|]]].
  - unfold holds, chunk_seal. destruct e as [c|].
    + destruct (e_level c) eqn:El.
      * exists (map it_data (ch_items ch)). split; [reflexivity|]. split; [exact Hd|].
        clear -HF El. induction HF as [|y x l r (_ & _ & H) _ IH]; cbn; constructor; auto. rewrite El in H. exact H.
      * assert (E : r = ch_items ch).
        { clear -HF El. induction HF as [|y x l r (_ & _ & H) _ IH]; [reflexivity|]. rewrite El in H. congruence. }
        rewrite E. split; [apply Hk|exact Hd].
    + assert (E : r = ch_items ch).
      { clear -HF. induction HF as [|y x l r (_ & _ & H) _ IH]; [reflexivity|]. congruence. }
      rewrite E. auto.
  - clear -HF Hsmall. induction HF as [|y x l r (_ & H & _) _ IH]; constructor; inversion Hsmall; subst; [|auto].
    unfold it_bytes, blen in *. lia.
Qed.
