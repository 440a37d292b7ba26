From Verif Require Import Base Dict Format_Model Format_Proofs Loader_Model Loader_Spec Loader_Proofs Encrypt_Model Encrypt_Spec Encrypt_Proofs
  Items_Model Items_Spec Items_Proofs.
Local Ltac Zify.zify_post_hook ::= idtac.

(** * Blocks of tokens *)
Section Tokens.
Context (d itemsize block : nat) (items : nat -> list bytes) (conf : dset).
Context (Hi : 1 <= itemsize) (Hb : 1 <= block) (Hitem : ds_item conf = itemsize).
Let cb : path -> nat := fun p => length (chunk_data (items (snd p))).
Notation readable := (Items_Spec.readable itemsize block items conf).
Notation good_run := (Items_Spec.good_run itemsize block items conf).
Definition has_files (st : tk) : Prop := k_conf st = conf /\ forall c, k_file st (d, c) = Some (chunk_data (items c)).
Definition blk (id j : nat) : view := Vw id (itemsize * j * block) (itemsize * block).

(** Other chunks keep their map and their counter. *)
Definition others (l : list nat) (st st' : tk) : Prop :=
  forall c, ~ In c l -> k_map st' c = k_map st c /\ k_count st' c = k_count st c.

Lemma load_again st c j id : has_files st -> readable c j -> k_map st c = Some id ->
  (exists o, nth_error (k_maps st) id = Some (concat (items c), o)) ->
  exists st', k_step block cb (KLoad (d, c) j 0) st = (st', KBlock (blk id j)) /\ has_files st' /\ k_maps st' = k_maps st /\
    k_map st' c = Some id /\ k_count st' c = (k_count st c + 1)%Z /\ others [c] st st'.
Proof.
  intros [Hc Hf] [Hs Hl] Hm (o & Hn). cbn [k_step]. unfold cb. cbn [snd]. rewrite Hf, Nat.leb_refl, orb_true_r. cbv zeta.
  unfold k_load_chunk. cbn [snd k_map k_count k_conf k_file k_maps k_known]. rewrite Hm. cbn [k_map k_maps k_conf]. rewrite Hm, Hn, Hc, Hitem, Nat.sub_0_r.
  replace (length (concat (items c)) <? itemsize * j * block + itemsize * block) with false by (symmetry; apply Nat.ltb_ge; exact Hl).
  eexists. split; [reflexivity|]. split; [split; [first [exact Hc|reflexivity]|exact Hf]|]. cbn [k_maps k_map k_count]. split; [reflexivity|]. split; [exact Hm|].
  split; [apply Loader_Proofs.upd_same|]. intros c' H. split; [reflexivity|]. cbn. apply Loader_Proofs.upd_other. intros ->. apply H. left. reflexivity.
Qed.

Lemma chunk_first st c : has_files st -> nth_error (ds_sizes conf) c = Some (length (items c)) -> concat (items c) <> [] -> k_map st c = None ->
  k_load_chunk st (d, c) =
  (Tk conf (k_file st) (k_maps st ++ [(concat (items c), true)]) (Loader_Model.upd (k_map st) c (Some (length (k_maps st))))
      (Loader_Model.upd (k_count st) c (k_count st c + 1)%Z) (k_known st), None).
Proof.
  intros [Hc Hf] Hs Hn Hm. unfold k_load_chunk. cbn [snd k_map k_count k_conf k_file k_maps k_known]. rewrite Hm, Hc, Hs, Hf, tokens_buffer_ok.
  destruct (concat (items c)); [congruence|reflexivity].
Qed.

Lemma load_first st c j : has_files st -> readable c j -> k_map st c = None ->
  exists st', k_step block cb (KLoad (d, c) j 0) st = (st', KBlock (blk (length (k_maps st)) j)) /\ has_files st' /\
    k_maps st' = k_maps st ++ [(concat (items c), true)] /\
    k_map st' c = Some (length (k_maps st)) /\ k_count st' c = (k_count st c + 1)%Z /\ others [c] st st'.
Proof.
  intros [Hc Hf] [Hs Hl] Hm. cbn [k_step]. unfold cb. cbn [snd]. rewrite Hf, Nat.leb_refl, orb_true_r. cbv zeta.
  assert (Hn : concat (items c) <> []) by (intros E; rewrite E in Hl; cbn [length] in Hl; nia).
  rewrite chunk_first; [|split; [exact Hc|exact Hf]|exact Hs|exact Hn|exact Hm].
  cbn [k_map k_maps k_conf k_file k_count k_known]. rewrite Loader_Proofs.upd_same, nth_error_app2, Nat.sub_diag by lia. cbn [nth_error]. rewrite Hitem, Nat.sub_0_r.
  replace (length (concat (items c)) <? itemsize * j * block + itemsize * block) with false by (symmetry; apply Nat.ltb_ge; exact Hl).
  eexists. split; [reflexivity|]. split; [split; [reflexivity|exact Hf]|]. cbn [k_maps k_map k_count]. split; [reflexivity|].
  split; [apply Loader_Proofs.upd_same|]. split; [apply Loader_Proofs.upd_same|].
  intros c' H. cbn. split; apply Loader_Proofs.upd_other; intros ->; apply H; left; reflexivity.
Qed.

(** The rest of the samples of a chunk that is open. *)
Lemma read_more c id rest : forall js st, has_files st -> Forall (readable c) js -> k_map st c = Some id ->
  nth_error (k_maps st) id = Some (concat (items c), true) ->
  exists st', k_read block cb d (Some c) (map (pair c) js ++ rest) st =
      (let (s, outs) := k_read block cb d (Some c) rest st' in (s, map (fun j => KBlock (blk id j)) js ++ outs)) /\
    has_files st' /\ k_maps st' = k_maps st /\ k_map st' c = Some id /\
    k_count st' c = (k_count st c + Z.of_nat (length js))%Z /\ others [c] st st'.
Proof.
  induction js as [|j js IH]; intros st Hf HF Hm Hn.
  - exists st. cbn [map app length Z.of_nat]. split; [destruct (k_read block cb d (Some c) rest st); reflexivity|]. repeat split; auto; try apply Hf. lia.
  - apply Forall_cons_iff in HF. destruct HF as [Hj HF].
    destruct (load_again st c j id Hf Hj Hm (ex_intro _ true Hn)) as (st1 & E & Hf1 & Em & Hm1 & Hc1 & Ho1).
    cbn [map app k_read]. rewrite E, Nat.eqb_refl. rewrite <- Em in Hn. destruct (IH st1 Hf1 HF Hm1 Hn) as (st2 & E2 & Hf2 & Em2 & Hm2 & Hc2 & Ho2).
    rewrite E2. exists st2. split; [destruct (k_read block cb d (Some c) rest st2); reflexivity|]. split; [exact Hf2|]. split; [congruence|]. split; [exact Hm2|].
    split; [rewrite Hc2, Hc1; cbn [length]; lia|]. intros c' H. destruct (Ho1 c' H), (Ho2 c' H). split; congruence.
Qed.

Definition last_ok (st : tk) (last : option nat) : Prop :=
  match last with
  | None => True
  | Some l => exists id, k_map st l = Some id /\ id < length (k_maps st) /\ (1 <= k_count st l)%Z
  end.
(** The map [id] is closed when a sample of another chunk is read. *)
Definition doomed (st : tk) (last : option nat) (id : nat) : bool :=
  match last with
  | Some l => match k_map st l with Some i => (i =? id) && (k_count st l =? 1)%Z | None => false end
  | None => false
  end.
Definition lid (dead : bool) (m : bytes * bool) : bytes * bool := (fst m, snd m && negb dead).
Lemma lid_false o : option_map (lid false) o = o.
Proof. destruct o as [[b o]|]; [|reflexivity]. cbn. unfold lid. cbn [fst snd negb]. rewrite andb_true_r. reflexivity. Qed.

(** The first sample of a chunk. *)
Lemma read_first st last c j js rest : has_files st -> last_ok st last -> last <> Some c -> k_map st c = None -> readable c j -> Forall (readable c) js -> k_count st c = 0%Z ->
  exists st', k_read block cb d last ((c, j) :: map (pair c) js ++ rest) st =
      (let (s, outs) := k_read block cb d (Some c) rest st' in (s, map (fun j => KBlock (blk (length (k_maps st)) j)) (j :: js) ++ outs)) /\
    has_files st' /\ k_map st' c = Some (length (k_maps st)) /\ length (k_maps st') = S (length (k_maps st)) /\
    nth_error (k_maps st') (length (k_maps st)) = Some (concat (items c), true) /\
    (forall id, id < length (k_maps st) -> nth_error (k_maps st') id = option_map (lid (doomed st last id)) (nth_error (k_maps st) id)) /\
    k_count st' c = Z.of_nat (S (length js)) /\
    (forall c', c' <> c -> last <> Some c' -> k_map st' c' = k_map st c' /\ k_count st' c' = k_count st c').
Proof.
  intros Hf Hl Hne Hm Hj HF Hc0. cbn [k_read].
  destruct (load_first st c j Hf Hj Hm) as (st1 & E & Hf1 & Em & Hm1 & Hc1 & Ho1). rewrite E.
  set (st2 := match last with Some l => if l =? c then st1 else fst (k_step block cb (KClose l) st1) | None => st1 end).
  assert (K : has_files st2 /\ k_map st2 c = Some (length (k_maps st)) /\ length (k_maps st2) = S (length (k_maps st)) /\
    nth_error (k_maps st2) (length (k_maps st)) = Some (concat (items c), true) /\
    (forall id, id < length (k_maps st) -> nth_error (k_maps st2) id = option_map (lid (doomed st last id)) (nth_error (k_maps st) id)) /\
    k_count st2 c = 1%Z /\ (forall c', c' <> c -> last <> Some c' -> k_map st2 c' = k_map st c' /\ k_count st2 c' = k_count st c')).
  { assert (L1 : length (k_maps st1) = S (length (k_maps st))) by (rewrite Em, app_length; cbn; lia).
    assert (N1 : nth_error (k_maps st1) (length (k_maps st)) = Some (concat (items c), true)) by (rewrite Em, nth_error_app2, Nat.sub_diag by lia; reflexivity).
    assert (O1 : forall id, id < length (k_maps st) -> nth_error (k_maps st1) id = nth_error (k_maps st) id) by (intros id H; rewrite Em, nth_error_app1 by lia; reflexivity).
    assert (Oth : forall c', c' <> c -> k_map st1 c' = k_map st c' /\ k_count st1 c' = k_count st c') by (intros c' H; apply Ho1; intros [->|[]]; congruence).
    subst st2. destruct last as [l|].
    2:{ repeat split; auto; try apply Hf1; try (apply Oth; assumption); [|rewrite Hc1, Hc0; reflexivity]. intros id H. cbn [doomed]. rewrite lid_false. auto. }
    assert (Hlc : l <> c) by congruence. rewrite (proj2 (Nat.eqb_neq l c) Hlc). destruct Hl as (il & Il & Ib & In1). destruct (Oth l Hlc) as [M1 C1].
    cbn [k_step doomed]. rewrite M1, C1, Il.
    destruct (Z.eqb_spec (k_count st l - 1) 0) as [Z0|Z0].
    - replace (k_count st l =? 1)%Z with true by (symmetry; apply Z.eqb_eq; lia).
      cbn [fst]. split; [exact Hf1|]. cbn [k_map k_maps k_count]. unfold shut.
      split; [rewrite Loader_Proofs.upd_other by congruence; exact Hm1|]. split; [rewrite upd_length; exact L1|].
      split; [rewrite nth_error_upd_neq by lia; exact N1|].
      split; [|split; [rewrite Loader_Proofs.upd_other by congruence; rewrite Hc1, Hc0; reflexivity|]].
      + intros id H. rewrite andb_true_r. destruct (Nat.eqb_spec il id) as [->|Hd].
        * rewrite nth_error_upd_eq, O1 by exact H. destruct (nth_error (k_maps st) id) as [[b o]|]; [|reflexivity]. cbn. unfold lid. cbn. rewrite andb_false_r. reflexivity.
        * rewrite nth_error_upd_neq by exact Hd. rewrite lid_false. auto.
      + intros c' H1 H2. assert (c' <> l) by congruence. rewrite !Loader_Proofs.upd_other by assumption. auto.
    - replace (k_count st l =? 1)%Z with false by (symmetry; apply Z.eqb_neq; lia).
      cbn [fst]. split; [exact Hf1|]. cbn [k_map k_maps k_count]. split; [exact Hm1|]. split; [exact L1|]. split; [exact N1|].
      split; [intros id H; rewrite andb_false_r, lid_false; auto|]. split; [rewrite Loader_Proofs.upd_other by congruence; rewrite Hc1, Hc0; reflexivity|].
      intros c' H1 H2. assert (c' <> l) by congruence. rewrite Loader_Proofs.upd_other by assumption. auto. }
  destruct K as (K1 & K2 & K3 & K4 & K5 & K6 & K7).
  destruct (read_more c (length (k_maps st)) rest js st2 K1 HF K2 K4) as (st3 & E3 & Hf3 & Em3 & Hm3 & Hc3 & Ho3). rewrite E3. exists st3.
  split; [destruct (k_read block cb d (Some c) rest st3); reflexivity|]. split; [exact Hf3|]. split; [exact Hm3|]. rewrite Em3. repeat (split; [assumption|]).
  split; [rewrite Hc3, K6; lia|]. intros c' H1 H2. destruct (Ho3 c') as [A B]; [intros [->|[]]; congruence|]. destruct (K7 c' H1 H2). split; congruence.
Qed.


Lemma look_blk st id j c : nth_error (k_maps st) id = Some (concat (items c), true) -> look st (blk id j) = Some (token_block (items c) itemsize block j).
Proof. intros H. unfold look, blk. cbn [v_map v_off v_len]. rewrite H. unfold token_block. f_equal. f_equal. f_equal. lia. Qed.
Lemma look_dead st id j b : nth_error (k_maps st) id = Some (b, false) -> look st (blk id j) = None.
Proof. intros H. unfold look, blk. cbn [v_map]. rewrite H. reflexivity. Qed.

Lemma read_runs : forall runs st last, has_files st -> last_ok st last -> NoDup (map fst runs) ->
  (forall l, last = Some l -> ~ In l (map fst runs)) -> Forall good_run runs ->
  Forall (fun r => k_map st (fst r) = None /\ k_count st (fst r) = 0%Z) runs ->
  exists st' vs, k_read block cb d last (samples_of runs) st = (st', map KBlock vs) /\
    map (look st') vs = still_there items itemsize block runs /\
    forall id, id < length (k_maps st) -> nth_error (k_maps st') id =
      option_map (lid (match runs with [] => false | _ => doomed st last id end)) (nth_error (k_maps st) id).
Proof.
  induction runs as [|[c js] runs IH]; intros st last Hf Hl Hn Hlast HG HC.
  - exists st, []. split; [reflexivity|]. split; [reflexivity|]. intros id _. rewrite lid_false. reflexivity.
  - apply Forall_cons_iff in HG. destruct HG as [[G1 G2] HG]. apply Forall_cons_iff in HC. destruct HC as [[C1 C2] HC]. cbn [fst snd] in *.
    cbn [map fst] in Hn. apply NoDup_cons_iff in Hn. destruct Hn as [Hn1 Hn2].
    destruct js as [|j js]; [congruence|]. apply Forall_cons_iff in G2. destruct G2 as [Gj G2].
    assert (Hlc : last <> Some c). { intros ->. apply (Hlast c eq_refl). left. reflexivity. }
    destruct (read_first st last c j js (samples_of runs) Hf Hl Hlc C1 Gj G2 C2) as (st1 & E & Hf1 & Hm1 & Hlen & Hnew & Hold & Hcnt & Hoth).
    set (id := length (k_maps st)) in *.
    destruct (IH st1 (Some c)) as (st' & vs & E' & Elook & Eold); try assumption.
    + exists id. split; [exact Hm1|]. split; lia.
    + intros l X. injection X as <-. exact Hn1.
    + apply Forall_forall. intros r Hr. rewrite Forall_forall in HC. destruct (HC r Hr) as [A B].
      destruct (Hoth (fst r)) as [A' B'].
      * intros X. apply Hn1. rewrite <- X. apply in_map. exact Hr.
      * intros X. apply (Hlast _ X). right. apply in_map. exact Hr.
      * split; congruence.
    + exists st', (map (blk id) (j :: js) ++ vs). split.
      { change (samples_of ((c, j :: js) :: runs)) with ((c, j) :: map (pair c) js ++ samples_of runs). rewrite E, E'.
        rewrite map_app, map_map. reflexivity. }
      split.
      { rewrite map_app, Elook. cbn [still_there]. f_equal. rewrite map_map. apply map_ext_in. intros j' Hj'.
        assert (Eid : nth_error (k_maps st') id = option_map (lid (match runs with [] => false | _ => doomed st1 (Some c) id end)) (Some (concat (items c), true))).
        { rewrite <- Hnew. apply Eold. lia. }
        unfold doomed in Eid. rewrite Hm1, Nat.eqb_refl, Hcnt in Eid. cbn [andb] in Eid.
        destruct js as [|j2 js], runs as [|r runs].
        - apply (look_blk _ _ _ c). rewrite Eid. reflexivity.
        - apply (look_dead _ _ _ (concat (items c))). rewrite Eid. reflexivity.
        - apply (look_blk _ _ _ c). rewrite Eid. reflexivity.
        - apply (look_blk _ _ _ c). rewrite Eid. replace (Z.of_nat (S (length (j2 :: js))) =? 1)%Z with false by (symmetry; apply Z.eqb_neq; cbn [length]; lia). reflexivity. }
      intros id' H'. rewrite Eold by lia. rewrite Hold by exact H'.
      assert (Edoom : match runs with [] => false | _ :: _ => doomed st1 (Some c) id' end = false).
      { destruct runs; [reflexivity|]. unfold doomed. rewrite Hm1. rewrite (proj2 (Nat.eqb_neq id id')) by (unfold id; lia). reflexivity. }
      rewrite Edoom, lid_false. reflexivity.
Qed.

Theorem blocks_in_the_end runs : NoDup (map fst runs) -> Forall good_run runs ->
  exists st vs, k_read block cb d None (samples_of runs) (tk_init conf (fun p => if fst p =? d then Some (chunk_data (items (snd p))) else None)) = (st, map KBlock vs) /\
    map (look st) vs = still_there items itemsize block runs.
Proof.
  intros Hn HG. destruct (read_runs runs (tk_init conf (fun p => if fst p =? d then Some (chunk_data (items (snd p))) else None)) None) as (st & vs & E & L & _); auto.
  - split; [reflexivity|]. intros c. cbn [tk_init k_file fst snd]. rewrite Nat.eqb_refl. reflexivity.
  - exact I.
  - discriminate.
  - apply Forall_forall. intros r _. split; reflexivity.
  - eauto.
Qed.
End Tokens.
