(** Proofs about compressed chunks. *)
From Coq Require Import String NArith Lia.
From Verif Require Import Base Names_Model Names_Spec Names_Proofs Size_Model Paths_Model Paths_Proofs Unzip_Model Unzip_Spec.
Local Open Scope list_scope.
Local Open Scope nat_scope.
Local Ltac Zify.zify_post_hook ::= idtac.

(** ** Paths *)

Lemma starts_before old x a b : ~ In x old -> starts old (a ++ x :: b) = starts old a.
Proof.
  intros Hx. revert a. induction old as [|o old IH]; intros a; [destruct a; reflexivity|].
  destruct a as [|c a]; cbn [app starts].
  - destruct (N.eqb_spec o x) as [->|]; [|reflexivity]. destruct Hx. left. reflexivity.
  - rewrite IH; [reflexivity|]. intros H. apply Hx. right. exact H.
Qed.

Lemma replace_cons old new c s : starts old (c :: s) = false -> replace old new (c :: s) = c :: replace old new s.
Proof. unfold replace. cbn [replace_from]. intros ->. reflexivity. Qed.

Lemma replace_before old new x a b : old <> [] -> ~ In x old -> contains old a = false ->
  replace old new (a ++ x :: b) = a ++ x :: replace old new b.
Proof.
  intros Ho Hx. induction a as [|c a IH]; intros Hc.
  - cbn [app]. apply replace_cons. change (x :: b) with ([] ++ x :: b). rewrite starts_before by exact Hx. destruct old; [contradiction|reflexivity].
  - cbn [contains] in Hc. apply orb_false_iff in Hc. destruct Hc as [H1 H2]. cbn [app]. rewrite replace_cons.
    + rewrite IH by exact H2. reflexivity.
    + change (c :: a ++ x :: b) with ((c :: a) ++ x :: b). rewrite starts_before by exact Hx. exact H1.
Qed.

Lemma replace_plain o old new s t : ~ In o s -> replace (o :: old) new (s ++ t) = s ++ replace (o :: old) new t.
Proof.
  induction s as [|c s IH]; intros H; [reflexivity|]. cbn [app]. rewrite replace_cons.
  - rewrite IH; [reflexivity|]. intros E. apply H. right. exact E.
  - cbn [starts]. destruct (N.eqb_spec o c) as [->|]; [destruct H; left; reflexivity|reflexivity].
Qed.

Lemma name_prefix_plain r k : ~ In dot (codes "chunk-" ++ dec r ++ [dash] ++ dec k).
Proof.
  pose proof (digits_not dot _ (dec_digits r) not_digit_dot) as Hr. pose proof (digits_not dot _ (dec_digits k) not_digit_dot) as Hk.
  rewrite !in_app_iff. intros [H|[H|[H|H]]]; try contradiction.
  - cbn in H. unfold dot in H. repeat (destruct H as [H|H]; [discriminate|]). exact H.
  - cbn in H. unfold dot, dash in H. destruct H as [H|[]]. discriminate.
Qed.

Lemma replace_name comp r k : comp_ok comp ->
  replace (dot :: comp) [] (chunk_name (Some comp) r k) = chunk_name None r k.
Proof.
  intros [_ Hb]. assert (Hc : comp <> []) by (intros ->; discriminate). unfold chunk_name.
  replace (match comp with [] => [] | _ :: _ => dot :: comp end) with (dot :: comp) by (destruct comp; [contradiction|reflexivity]).
  set (pre := codes "chunk-" ++ dec r ++ [dash] ++ dec k).
  replace (codes "chunk-" ++ dec r ++ [dash] ++ dec k ++ (dot :: comp) ++ codes ".bin") with (pre ++ (dot :: comp) ++ codes ".bin")
    by (unfold pre; rewrite <- !app_assoc; reflexivity).
  replace (codes "chunk-" ++ dec r ++ [dash] ++ dec k ++ [] ++ codes ".bin") with (pre ++ codes ".bin")
    by (unfold pre; rewrite <- !app_assoc; reflexivity).
  rewrite replace_plain by apply name_prefix_plain. rewrite replace_start by discriminate. cbn [app]. f_equal.
  rewrite replace_none; [reflexivity|].
  change (codes ".bin") with (dot :: codes "bin"). cbn [contains]. apply orb_false_iff. split.
  - cbn [starts]. rewrite N.eqb_refl. exact Hb.
  - reflexivity.
Qed.

Lemma name_no_slash comp r k : (forall s, comp = Some s -> ~ In slash s) -> ~ In slash (chunk_name comp r k).
Proof.
  intros Hc. assert (Hs : ~ is_digit slash) by (unfold is_digit, slash; lia).
  pose proof (digits_not slash _ (dec_digits r) Hs) as Hr. pose proof (digits_not slash _ (dec_digits k) Hs) as Hk.
  unfold chunk_name. rewrite !in_app_iff. intros [H|[H|[H|[H|[H|H]]]]]; try contradiction.
  - cbn in H. unfold slash in H. repeat (destruct H as [H|H]; [discriminate|]). exact H.
  - cbn in H. unfold slash, dash in H. destruct H as [H|[]]. discriminate.
  - destruct comp as [[|x s]|]; cbn in H; try contradiction. destruct H as [H|H]; [discriminate|]. apply (Hc _ eq_refl). exact H.
  - cbn in H. unfold slash in H. repeat (destruct H as [H|H]; [discriminate|]). exact H.
Qed.

Lemma name_start comp r k : starts [slash] (chunk_name comp r k) = false.
Proof. reflexivity. Qed.

Lemma file_path c i r k : dir_name (u_cache c) -> nth_error (u_chunks c) i = Some (r, k) ->
  chunk_file c i = u_cache c ++ slash :: chunk_name (u_comp c) r k.
Proof. intros [H1 H2] E. unfold chunk_file. rewrite E. apply join_plain; [exact H1|exact H2|apply name_start]. Qed.

Lemma target_path c comp i r k : dir_name (u_cache c) -> u_comp c = Some comp -> comp_ok comp ->
  contains (dot :: comp) (u_cache c) = false -> nth_error (u_chunks c) i = Some (r, k) ->
  read_path c i = u_cache c ++ slash :: chunk_name None r k.
Proof.
  intros Hd Ec Hc Hn E. unfold read_path. rewrite Ec, (file_path c i r k Hd E), Ec.
  rewrite replace_before; [rewrite replace_name by exact Hc; reflexivity|discriminate| |exact Hn].
  intros [H|H]; [discriminate|]. apply Hc. exact H.
Qed.

Lemma names_differ comp r k r' k' : comp_ok comp -> chunk_name (Some comp) r k <> chunk_name None r' k'.
Proof.
  intros Hc H. pose proof (chunk_name_inj _ _ _ _ _ _ H) as [-> ->]. apply (f_equal (@length N)) in H. unfold chunk_name in H.
  destruct Hc as [_ Hb]. destruct comp; [discriminate|]. rewrite !app_length in H. cbn [length] in H. lia.
Qed.

(** ** The cache directory *)

Lemma set_same d p v : set_file d p v p = v.
Proof. unfold set_file. destruct (list_eq_dec N.eq_dec p p); [reflexivity|contradiction]. Qed.
Lemma set_other d p v q : q <> p -> set_file d p v q = d q.
Proof. intros H. unfold set_file. destruct (list_eq_dec N.eq_dec q p); [contradiction|reflexivity]. Qed.

(** Hypotheses on the two paths of each chunk. *)
Definition paths_ok (c : unzip) : Prop :=
  (forall i j, i < length (u_chunks c) -> j < length (u_chunks c) -> chunk_file c i = chunk_file c j -> i = j) /\
  (forall i j, i < length (u_chunks c) -> j < length (u_chunks c) -> read_path c i = read_path c j -> i = j) /\
  (u_comp c <> None -> forall i j, i < length (u_chunks c) -> j < length (u_chunks c) -> chunk_file c i <> read_path c j) /\
  (u_comp c <> None -> forall i, i < length (u_chunks c) -> u_dir c (read_path c i) = true) /\
  (forall i, i < length (u_chunks c) -> inside (u_cache c) (chunk_file c i) /\ inside (u_cache c) (read_path c i)).

Lemma dataset_paths c chunk : dataset_ok c chunk ->
  (forall comp, u_comp c = Some comp -> contains (dot :: comp) (u_cache c) = false) -> paths_ok c.
Proof.
  intros (Hd & Hnd & Hdir & Hs) Hn.
  assert (Hnth : forall i, i < length (u_chunks c) -> exists r k, nth_error (u_chunks c) i = Some (r, k)).
  { intros i Hi. destruct (nth_error (u_chunks c) i) as [[r k]|] eqn:E; [eauto|apply nth_error_None in E; lia]. }
  assert (Hinj : forall i j comp comp' r k r' k', i < length (u_chunks c) -> nth_error (u_chunks c) i = Some (r, k) -> nth_error (u_chunks c) j = Some (r', k') ->
            u_cache c ++ slash :: chunk_name comp r k = u_cache c ++ slash :: chunk_name comp' r' k' -> i = j).
  { intros i j comp comp' r k r' k' Hi Ei Ej H. apply app_inv_head in H. apply (f_equal (@tl N)) in H. cbn [tl] in H. apply chunk_name_inj in H. destruct H as [-> ->].
    eapply NoDup_nth_error; [exact Hnd|exact Hi|congruence]. }
  assert (Hrp : forall i, i < length (u_chunks c) -> exists r k, nth_error (u_chunks c) i = Some (r, k) /\
            chunk_file c i = u_cache c ++ slash :: chunk_name (u_comp c) r k /\
            read_path c i = u_cache c ++ slash :: chunk_name None r k).
  { intros i Hi. destruct (Hnth i Hi) as (r & k & E). exists r, k. split; [exact E|]. split; [apply file_path; assumption|].
    destruct (u_comp c) as [comp|] eqn:Ec.
    - destruct Hs as [Hc _]. eapply target_path; eauto.
    - unfold read_path. rewrite Ec, (file_path c i r k Hd E), Ec. reflexivity. }
  split; [|split; [|split; [|split]]].
  - intros i j Hi Hj H. destruct (Hrp i Hi) as (r & k & E & F & _), (Hrp j Hj) as (r' & k' & E' & F' & _). rewrite F, F' in H. eapply Hinj; eauto.
  - intros i j Hi Hj H. destruct (Hrp i Hi) as (r & k & E & _ & F), (Hrp j Hj) as (r' & k' & E' & _ & F'). rewrite F, F' in H. eapply Hinj; eauto.
  - intros Hcomp i j Hi Hj H. destruct (Hrp i Hi) as (r & k & E & F & _), (Hrp j Hj) as (r' & k' & E' & _ & F').
    rewrite F, F' in H. apply app_inv_head in H. apply (f_equal (@tl N)) in H. cbn [tl] in H. destruct (u_comp c) as [comp|]; [|contradiction].
    destruct Hs as [Hc _]. exact (names_differ comp _ _ _ _ Hc H).
  - intros Hcomp i Hi. destruct (Hrp i Hi) as (r & k & E & _ & F). rewrite F. apply Hdir. apply name_no_slash. discriminate.
  - intros i Hi. destruct (Hrp i Hi) as (r & k & E & F & G). split; [exists (chunk_name (u_comp c) r k)|exists (chunk_name None r k)]; assumption.
Qed.

(** What holds of the files at every moment. *)
Definition cached (c : unzip) (chunk : nat -> list N) (d0 d : files) : Prop :=
  (forall i, i < length (u_chunks c) ->
     (d (read_path c i) = None \/ d (read_path c i) = Some (chunk i)) /\
     (u_comp c <> None -> d (chunk_file c i) = None \/ d (chunk_file c i) = Some (u_store c i)) /\
     (u_comp c <> None -> u_remote c = false -> d (chunk_file c i) = Some (u_store c i))) /\
  (forall p, ~ inside (u_cache c) p -> d p = d0 p).

Lemma cached_request c chunk d0 d log i :
  dataset_ok c chunk -> paths_ok c -> u_remote c = true \/ u_comp c <> None -> cached c chunk d0 d -> i < length (u_chunks c) ->
  exists d' log', request c i (d, log) = Ok (d', log') /\ cached c chunk d0 d' /\ d' (read_path c i) = Some (chunk i) /\
    (forall j, j < length (u_chunks c) -> j <> i -> d' (read_path c j) = d (read_path c j)).
Proof.
  intros (_ & _ & _ & Hs) (P1 & P2 & P3 & P4 & P5) Hor [Hc Ho] Hi. unfold request.
  destruct (u_comp c) as [comp|] eqn:Ec.
  - destruct Hs as [_ Hs]. assert (Hx : Some comp <> None) by discriminate. specialize (P3 Hx). specialize (P4 Hx).
    assert (Hun : forall e, e (chunk_file c i) = Some (u_store c i) ->
              (forall j, j < length (u_chunks c) -> e (read_path c j) = d (read_path c j)) ->
              (forall j, j < length (u_chunks c) -> j <> i -> e (chunk_file c j) = d (chunk_file c j)) ->
              (forall p, ~ inside (u_cache c) p -> e p = d p) ->
              exists d', unpack c i e = Ok d' /\ cached c chunk d0 d' /\ d' (read_path c i) = Some (chunk i) /\
                (forall j, j < length (u_chunks c) -> j <> i -> d' (read_path c j) = d (read_path c j))).
    { intros e E1 E2 E3 E4. unfold unpack. rewrite Ec. destruct (e (read_path c i)) as [y|] eqn:Er.
      - exists e. split; [reflexivity|]. assert (Ey : e (read_path c i) = Some (chunk i)).
        { rewrite E2 in * by exact Hi. destruct (Hc i Hi) as ([H|H] & _); congruence. }
        split; [|split; [exact Ey|intros j Hj _; apply E2, Hj]]. split.
        + intros j Hj. rewrite E2 by exact Hj. rewrite Ec. destruct (Nat.eq_dec j i) as [->|Hne].
          * split; [apply Hc, Hi|]. split; intros _; [right|intros _]; exact E1.
          * rewrite E3 by assumption. destruct (Hc j Hj) as (A1 & A2 & A3). try rewrite Ec in *. tauto.
        + intros p Hp. rewrite E4 by exact Hp. apply Ho, Hp.
      - rewrite E1. cbv zeta. rewrite (Hs i Hi). cbn [bind]. rewrite (P4 i Hi). eexists. split; [reflexivity|].
        split; [|split; [apply set_same|]].
        + split.
          * intros j Hj. rewrite Ec. destruct (Nat.eq_dec j i) as [->|Hne].
            -- split; [right; apply set_same|]. rewrite !(set_other _ (read_path c i)) by (apply P3; assumption).
               destruct (u_remote c); [split; [intros _; left; apply set_same|discriminate]|]. split; intros _; [right|intros _]; exact E1.
            -- rewrite (set_other _ (read_path c i)) by (intros H; apply Hne, P2; assumption).
               rewrite !(set_other _ (read_path c i) _ (chunk_file c j)) by (apply P3; assumption).
               destruct (Hc j Hj) as (A1 & A2 & A3). try rewrite Ec in *.
               destruct (u_remote c).
               ++ rewrite (set_other _ (chunk_file c i)) by (intros H; symmetry in H; revert H; apply P3; assumption). rewrite E2 by exact Hj.
                  rewrite (set_other _ (chunk_file c i)) by (intros H; apply Hne, P1; assumption). rewrite E3 by assumption. tauto.
               ++ rewrite E2 by exact Hj. rewrite E3 by assumption. tauto.
          * intros p Hp. destruct (P5 i Hi) as [Q1 Q2].
            rewrite set_other by (intros ->; contradiction). destruct (u_remote c); [rewrite set_other by (intros ->; contradiction)|]; rewrite E4 by exact Hp; apply Ho, Hp.
        + intros j Hj Hne. rewrite (set_other _ (read_path c i)) by (intros H; apply Hne, P2; assumption).
          destruct (u_remote c); [rewrite (set_other _ (chunk_file c i)) by (intros H; symmetry in H; revert H; apply P3; assumption)|]; apply E2, Hj. }
    destruct (d (chunk_file c i)) as [z|] eqn:Ez.
    + assert (Ez' : d (chunk_file c i) = Some (u_store c i)).
      { destruct (Hc i Hi) as (_ & A & _). destruct (A Hx) as [A'|A']; congruence. }
      destruct (Hun d Ez' (fun _ _ => eq_refl) (fun _ _ _ => eq_refl) (fun _ _ => eq_refl)) as (d' & -> & H). cbn [bind]. exists d', log. auto.
    + destruct (u_remote c) eqn:Er.
      2: { destruct (Hc i Hi) as (_ & _ & A). rewrite (A Hx eq_refl) in Ez. discriminate. }
      destruct (Hun (set_file d (chunk_file c i) (Some (u_store c i)))) as (d' & -> & H).
      * apply set_same.
      * intros j Hj. apply set_other. intros H. symmetry in H. revert H. apply P3; assumption.
      * intros j Hj Hne. apply set_other. intros H. apply Hne, P1; assumption.
      * intros p Hp. apply set_other. intros ->. apply Hp, P5, Hi.
      * cbn [bind]. eexists d', _. split; [reflexivity|exact H].
  - destruct Hor as [Hr|[]]; [|reflexivity]. rewrite Hr. unfold unpack. rewrite Ec.
    assert (Ep : forall j, read_path c j = chunk_file c j) by (intros j; unfold read_path; rewrite Ec; reflexivity).
    destruct (d (chunk_file c i)) as [z|] eqn:Ez; cbn [bind].
    + exists d, log. split; [reflexivity|]. split; [split; [rewrite Ec; exact Hc|exact Ho]|]. split; [|auto].
      rewrite Ep, Ez. destruct (Hc i Hi) as ([A|A] & _); rewrite Ep, Ez in A; [discriminate|exact A].
    + eexists _, _. split; [reflexivity|]. rewrite Ep, set_same, (Hs i Hi). split; [|split; [reflexivity|]].
      * split.
        -- intros j Hj. rewrite Ec, Ep. split; [|split; congruence]. destruct (Nat.eq_dec j i) as [->|Hne].
           ++ right. rewrite set_same. reflexivity.
           ++ rewrite set_other by (intros H; apply Hne, P1; assumption). destruct (Hc j Hj) as (A & _). rewrite Ep in A. exact A.
        -- intros p Hp. rewrite set_other by (intros ->; apply Hp, P5, Hi). apply Ho, Hp.
      * intros j Hj Hne. rewrite Ep. apply set_other. intros H. apply Hne, P1; assumption.
Qed.

Lemma cached_delete c chunk d0 d log i :
  paths_ok c -> cached c chunk d0 d -> i < length (u_chunks c) ->
  exists d', delete c i (d, log) = (d', log) /\ cached c chunk d0 d' /\
    (forall j, j < length (u_chunks c) -> j <> i -> d' (read_path c j) = d (read_path c j)).
Proof.
  intros (P1 & P2 & P3 & P4 & P5) [Hc Ho] Hi. eexists. split; [reflexivity|]. split.
  - split.
    + intros j Hj. destruct (Hc j Hj) as (A1 & A2 & A3). cbn [fst]. split.
      * destruct (Nat.eq_dec j i) as [->|Hne]; [left; apply set_same|].
        rewrite set_other by (intros H; apply Hne, P2; assumption). exact A1.
      * split; intros Hx; rewrite set_other by (apply P3; assumption); auto.
    + intros p Hp. cbn [fst]. rewrite set_other by (intros ->; apply Hp, P5, Hi). apply Ho, Hp.
  - intros j Hj Hne. cbn [fst]. apply set_other. intros H. apply Hne, P2; assumption.
Qed.

Lemma handle_all_app c es1 es2 : forall s, handle_all c s (es1 ++ es2) = bind (handle_all c s es1) (fun s => handle_all c s es2).
Proof. induction es1 as [|e es1 IH]; intros s; cbn [app handle_all bind]; [reflexivity|]. destruct (handle c s e); cbn [bind]; [apply IH|reflexivity]. Qed.

Lemma cached_all c chunk d0 : dataset_ok c chunk -> paths_ok c -> u_remote c = true \/ u_comp c <> None ->
  forall es d log, cached c chunk d0 d -> events_ok c es ->
  exists d' log', handle_all c (d, log) es = Ok (d', log') /\ cached c chunk d0 d' /\
    (forall i, i < length (u_chunks c) -> d (read_path c i) = Some (chunk i) -> ~ In (Delete i) es -> d' (read_path c i) = Some (chunk i)).
Proof.
  intros Hds Hp Hor. induction es as [|e es IH]; intros d log Hc He; cbn [handle_all].
  - exists d, log. auto.
  - inversion He as [|? ? H1 H2]; subst. destruct e as [i|i]; cbn [about handle] in *.
    + destruct (cached_request c chunk d0 d log i Hds Hp Hor Hc H1) as (d1 & log1 & -> & Hc1 & R1 & R2). cbn [bind].
      destruct (IH d1 log1 Hc1 H2) as (d' & log' & E & Hc' & K). exists d', log'. split; [exact E|]. split; [exact Hc'|].
      intros j Hj Ej Hn. apply K; [exact Hj| |intros H; apply Hn; right; exact H].
      destruct (Nat.eq_dec j i) as [->|Hne]; [exact R1|]. rewrite R2 by assumption. exact Ej.
    + destruct (cached_delete c chunk d0 d log i Hp Hc H1) as (d1 & -> & Hc1 & R2). cbn [bind].
      destruct (IH d1 log Hc1 H2) as (d' & log' & E & Hc' & K). exists d', log'. split; [exact E|]. split; [exact Hc'|].
      intros j Hj Ej Hn. apply K; [exact Hj| |intros H; apply Hn; right; exact H].
      destruct (Nat.eq_dec j i) as [->|Hne]; [destruct Hn; left; reflexivity|]. rewrite R2 by assumption. exact Ej.
Qed.

Lemma cached_start c chunk d0 : dataset_ok c chunk -> u_remote c = true \/ u_comp c <> None -> cache_ok c d0 -> cached c chunk d0 d0.
Proof.
  intros (_ & _ & _ & Hs) Hor H. split; [|reflexivity]. intros i Hi. destruct (H i Hi) as [A B]. destruct (u_comp c) as [comp|] eqn:Ec.
  - rewrite B by discriminate. split; [auto|]. rewrite A. destruct (u_remote c); split; auto; discriminate.
  - destruct Hor as [Hr|[]]; [|reflexivity]. rewrite Hr in A. split; [|split; congruence]. left. unfold read_path. rewrite Ec. exact A.
Qed.

(** C106. *)
Theorem unzip_reads c chunk d0 es1 i es2 :
  dataset_ok c chunk -> (forall comp, u_comp c = Some comp -> contains (dot :: comp) (u_cache c) = false) ->
  u_remote c = true \/ u_comp c <> None -> cache_ok c d0 -> events_ok c (es1 ++ Request i :: es2) -> ~ In (Delete i) es2 ->
  exists d log, handle_all c (d0, []) (es1 ++ Request i :: es2) = Ok (d, log) /\
    d (read_path c i) = Some (chunk i) /\ inside (u_cache c) (read_path c i) /\ forall p, ~ inside (u_cache c) p -> d p = d0 p.
Proof.
  intros Hds Hn Hor Hc0 He Hdel. pose proof (dataset_paths c chunk Hds Hn) as Hp. unfold events_ok in He.
  apply Forall_app in He. destruct He as [He1 He2]. inversion He2 as [|? ? Hi He3]; subst. cbn [about] in Hi.
  rewrite handle_all_app. destruct (cached_all c chunk d0 Hds Hp Hor es1 d0 [] (cached_start c chunk d0 Hds Hor Hc0) He1) as (d1 & log1 & -> & C1 & _).
  cbn [bind handle_all handle]. destruct (cached_request c chunk d0 d1 log1 i Hds Hp Hor C1 Hi) as (d2 & log2 & -> & C2 & R & _). cbn [bind].
  destruct (cached_all c chunk d0 Hds Hp Hor es2 d2 log2 C2 He3) as (d & log & -> & C & K).
  exists d, log. split; [reflexivity|]. split; [apply K; assumption|]. split; [apply Hp, Hi|]. apply C.
Qed.
