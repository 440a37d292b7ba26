From Verif Require Import Base Dict Format_Model Format_Proofs Loader_Model Loader_Spec Loader_Proofs Encrypt_Model Encrypt_Spec Encrypt_Proofs
  Items_Model Items_Spec.
Local Ltac Zify.zify_post_hook ::= idtac.

Lemma path_same p : path_eqb p p = true.
Proof. unfold path_eqb. rewrite !Nat.eqb_refl. reflexivity. Qed.
Lemma path_in d c c' : path_eqb (d, c) (d, c') = (c =? c').
Proof. unfold path_eqb. cbn [fst snd]. rewrite Nat.eqb_refl. reflexivity. Qed.
Lemma pupd_same {A} (f : path -> A) p v : pupd f p v p = v.
Proof. unfold pupd. rewrite path_same. reflexivity. Qed.
Lemma pupd_in {A} (f : path -> A) d c c' v : pupd f (d, c) v (d, c') = if c' =? c then v else f (d, c').
Proof. unfold pupd. rewrite path_in. reflexivity. Qed.

(** * Parquet *)
Section Parquet.
Context {row : Type} (d : nat) (whole : nat -> list (list row)) (size : nat -> nat) (low pre : bool).
Context (HU : low = true -> forall c, uniform (whole c)).
Let ahead := pre && negb low.
Let cb : path -> nat := fun p => size (snd p).

Record inv (asked : list nat) (os : list (qop row)) (st : qst row) : Prop := Inv {
  i_df : forall c g, q_df st c = Some g -> g = whole c;
  i_grp : forall c, PI (whole c) (q_grp st c);
  i_there : forall c, if is_there c os then q_file st (d, c) = Some (complete whole size c)
                      else match q_file st (d, c) with
                           | None => True
                           | Some f => a_part size c f /\ ahead = false /\ q_known st (d, c) = false
                           end;
  i_known : forall c, q_known st (d, c) = true -> In c asked }.

Lemma there_app c (os : list (qop row)) o : is_there c (os ++ [o]) = now_there c (is_there c os) o.
Proof. unfold is_there. rewrite fold_left_app. reflexivity. Qed.

Lemma PI_init g : PI g (@p_init row).
Proof. intros ? ? ? H. discriminate. Qed.

Lemma open_whole asked os st c : inv asked os st -> is_there c os = true ->
  exists st', q_open st (d, c) = Ok (whole c, st') /\ inv asked os st' /\ q_grp st' = q_grp st.
Proof.
  intros I Ht. unfold q_open. cbn [snd]. destruct (q_df st c) as [g|] eqn:E.
  - rewrite (i_df _ _ _ I c g E). exists st. auto.
  - pose proof (i_there _ _ _ I c) as H. rewrite Ht in H. rewrite H. cbn [complete pf_rows]. eexists. split; [reflexivity|]. split; [|reflexivity].
    destruct I as [I1 I2 I3 I4]. constructor; cbn [q_df q_grp q_file q_known]; auto.
    intros c' g. unfold upd. destruct (Nat.eqb_spec c' c) as [->|]; [intros X; injection X as <-; reflexivity|apply I1].
Qed.

Lemma step_inv asked os st o : inv asked os st -> orderly d whole size ahead asked [o] ->
  right_answer whole os o (snd (q_step low pre cb o st)) /\
  inv (match o with QLoad (_, c) _ => c :: asked | _ => asked end) (os ++ [o]) (fst (q_step low pre cb o st)).
Proof.
  intros I Ho. destruct o as [d'|[d' c]|[d' c] i|[d' c]|c|[d' c] f|[d' c]]; cbn [orderly] in Ho.
  - (* setup *) split; [reflexivity|]. destruct I as [I1 I2 I3 I4]. constructor; cbn [q_step fst q_df q_grp q_file q_known]; auto.
    + intros ? ? ?; discriminate.
    + intros c. apply PI_init.
    + intros c. rewrite there_app. cbn [now_there]. apply I3.
  - (* preload *) destruct Ho as [-> _]. cbn [q_step right_answer].
    assert (K : forall st', inv asked os st' -> inv asked (os ++ [QPre (d, c)]) st').
    { intros st' [I1 I2 I3 I4]. constructor; auto. intros c'. rewrite there_app. apply I3. }
    destruct (negb pre || low) eqn:El; [split; [reflexivity|apply K, I]|]. cbn [snd].
    apply orb_false_iff in El. destruct El as [E1 E2]. apply negb_false_iff in E1.
    destruct (q_df st c) as [g|] eqn:Eg; [split; [reflexivity|apply K, I]|].
    destruct (q_file st (d, c)) as [f|] eqn:Ef; [|split; [reflexivity|apply K, I]].
    assert (Ht : is_there c os = true).
    { pose proof (i_there _ _ _ I c) as H. destruct (is_there c os); [reflexivity|]. rewrite Ef in H. destruct H as (_ & H & _).
      unfold ahead in H. rewrite E1, E2 in H. discriminate. }
    destruct (open_whole asked os st c I Ht) as (st' & Eo & I' & _). rewrite Eo. split; [reflexivity|apply K, I'].
  - (* load *) destruct Ho as (-> & Hi & _). cbn [q_step]. cbv zeta. unfold cb. cbn [snd].
    set (known := q_known st (d, c) && q_exists st (d, c)). set (there := match q_file st (d, c) with Some f => size c <=? pf_size f | None => false end).
    pose proof (i_there _ _ _ I c) as H.
    assert (Ekt : known || there = is_there c os).
    { subst known there. unfold q_exists. destruct (is_there c os).
      - rewrite H. cbn [complete pf_size]. rewrite Nat.leb_refl. apply orb_true_r.
      - destruct (q_file st (d, c)) as [f|]; [|rewrite andb_false_r; reflexivity]. destruct H as ((_ & H1) & _ & H2). rewrite H2. cbn [andb orb].
        apply Nat.leb_gt. exact H1. }
    rewrite Ekt. set (st1 := Qst (q_file st) (q_df st) (q_grp st) (pupd (q_known st) (d, c) (is_there c os))).
    assert (I1 : inv (c :: asked) os st1).
    { destruct I as [I1 I2 I3 I4]. constructor; cbn [st1 q_df q_grp q_file q_known]; auto.
      - intros c'. specialize (I3 c'). rewrite pupd_in. destruct (Nat.eqb_spec c' c) as [->|]; [|exact I3].
        destruct (is_there c os); [exact I3|]. destruct (q_file st (d, c)); [|exact I]. intuition.
      - intros c'. rewrite pupd_in. destruct (Nat.eqb_spec c' c) as [->|]; [left; reflexivity|right; auto]. }
    assert (K : forall st', inv (c :: asked) os st' -> inv (c :: asked) (os ++ [QLoad (d, c) i]) st').
    { intros st' [J1 J2 J3 J4]. constructor; auto. intros c'. rewrite there_app. apply J3. }
    cbn [right_answer]. destruct (is_there c os) eqn:Ht; [|split; [reflexivity|apply K, I1]].
    unfold q_row. destruct (open_whole _ _ st1 c I1 Ht) as (st2 & -> & I2 & Eg). assert (D : low = true \/ low = false) by (clear; destruct low; auto).
    destruct D as [El|El]; rewrite El.
    + destruct (p_read_ok (whole c) (q_grp st2 c) i (HU El c) (i_grp _ _ _ I2 c) Hi) as (s & r & Ep & Er & HP). cbn [snd]. rewrite Ep.
      split; [exists r; auto|]. apply K. destruct I2 as [J1 J2 J3 J4]. constructor; cbn [fst q_df q_grp q_file q_known]; auto.
      intros c'. unfold upd. destruct (Nat.eqb_spec c' c) as [->|]; [exact HP|apply J2].
    + destruct (nth_error (concat (whole c)) i) as [r|] eqn:Er; [|apply nth_error_None in Er; lia]. split; [exists r; auto|apply K, I2].
  - (* delete *) destruct Ho as [-> _]. split; [reflexivity|]. destruct I as [I1 I2 I3 I4]. constructor; cbn [q_step fst snd q_drop q_df q_grp q_file q_known]; auto.
    + intros c' g. unfold upd. destruct (Nat.eqb_spec c' c) as [->|]; [discriminate|apply I1].
    + intros c'. unfold upd. destruct (Nat.eqb_spec c' c) as [->|]; [apply PI_init|apply I2].
    + intros c'. rewrite there_app. cbn [now_there]. rewrite pupd_in, (Nat.eqb_sym c c'). destruct (Nat.eqb_spec c' c) as [->|]; [exact I|apply I3].
  - (* close *) split; [reflexivity|]. destruct I as [I1 I2 I3 I4]. constructor; cbn [q_step fst snd q_drop q_df q_grp q_file q_known]; auto.
    + intros c' g. unfold upd. destruct (Nat.eqb_spec c' c) as [->|]; [discriminate|apply I1].
    + intros c'. unfold upd. destruct (Nat.eqb_spec c' c) as [->|]; [apply PI_init|apply I2].
    + intros c'. rewrite there_app. cbn [now_there]. apply I3.
  - (* arrive *) destruct Ho as (-> & Hf & _). split; [reflexivity|]. destruct I as [I1 I2 I3 I4]. constructor; cbn [q_step fst snd q_df q_grp q_file q_known]; auto.
    intros c'. rewrite there_app. cbn [now_there]. rewrite pupd_in, (Nat.eqb_sym c c'). destruct (Nat.eqb_spec c' c) as [->|]; [|apply I3].
    destruct Hf as [->|((H1 & H2) & H3 & H4)]; [reflexivity|]. rewrite H1. split; [split; assumption|]. split; [exact H3|].
    destruct (q_known st (d, c)) eqn:Ek; [|reflexivity]. contradiction (H4 (I4 c Ek)).
  - (* gone *) destruct Ho as [-> _]. split; [reflexivity|]. destruct I as [I1 I2 I3 I4]. constructor; cbn [q_step fst snd q_df q_grp q_file q_known]; auto.
    intros c'. rewrite there_app. cbn [now_there]. rewrite pupd_in, (Nat.eqb_sym c c'). destruct (Nat.eqb_spec c' c) as [->|]; [exact I|apply I3].
Qed.

Definition asked_after (asked : list nat) (o : qop row) : list nat := match o with QLoad (_, c) _ => c :: asked | _ => asked end.

Lemma orderly_cons asked o os : orderly d whole size ahead asked (o :: os) ->
  orderly d whole size ahead asked [o] /\ orderly d whole size ahead (asked_after asked o) os.
Proof. destruct o as [d'|[d' c]|[d' c] i|[d' c]|c|[d' c] f|[d' c]]; cbn [orderly asked_after]; intuition. Qed.

Lemma run_inv os' : forall asked os st, inv asked os st -> orderly d whole size ahead asked os' ->
  exists asked', inv asked' (os ++ os') (fst (q_run low pre cb os' st)) /\
    (forall o, orderly d whole size ahead asked (os' ++ [o]) -> orderly d whole size ahead asked' [o]).
Proof.
  induction os' as [|o os' IH]; intros asked os st I Ho.
  - exists asked. rewrite app_nil_r. split; [exact I|]. intros o H; exact H.
  - destruct (orderly_cons _ _ _ Ho) as [H1 H2]. destruct (step_inv asked os st o I H1) as [_ I']. cbn [q_run].
    destruct (q_step low pre cb o st) as [st1 out]. cbn [fst] in I'.
    destruct (IH (asked_after asked o) (os ++ [o]) st1 I' H2) as (asked' & J & K). destruct (q_run low pre cb os' st1) as [st2 outs]. cbn [fst] in *.
    exists asked'. rewrite <- app_assoc in J. split; [exact J|]. intros o' H. apply K. apply (orderly_cons asked o (os' ++ [o']) H).
Qed.

Lemma orderly_app os o : forall asked, orderly d whole size ahead asked (os ++ [o]) -> orderly d whole size ahead asked os.
Proof.
  induction os as [|o' os IH]; intros asked H; [exact I|]. pose proof (orderly_cons _ _ _ H) as [H1 H2]. apply IH in H2.
  destruct o' as [d'|[d' c]|[d' c] i|[d' c]|c|[d' c] f|[d' c]]; cbn [orderly asked_after] in *; intuition.
Qed.

Theorem parquet_history os o : orderly d whole size ahead [] (os ++ [o]) ->
  right_answer whole os o (snd (q_step low pre cb o (fst (q_run low pre cb os (q_init (fun _ => None)))))).
Proof.
  intros H. assert (I0 : inv [] [] (q_init (fun _ => None))).
  { constructor.
    - intros c g H'; discriminate.
    - intros c. apply PI_init.
    - intros c. exact I.
    - intros c H'; discriminate. }
  destruct (run_inv os [] [] _ I0 (orderly_app os o [] H)) as (asked & I & K). apply (step_inv asked os _ o I), K, H.
Qed.
End Parquet.
