(** Proofs about the end of [optimize] on several nodes. *)
From Coq Require Import String NArith Lia.
From Verif Require Import Base Names_Model Names_Spec Names_Proofs Merge_Model Merge_Spec Merge_Proofs Nodes_Model.
Local Open Scope list_scope.
Local Open Scope nat_scope.
Local Ltac Zify.zify_post_hook ::= idtac.

Lemma node_index_inj n n' : node_index n = node_index n' -> n = n'.
Proof.
  unfold node_index. change (codes "-index.json") with (45%N :: codes "index.json"). intros H.
  apply dec_split in H; [exact H| |]; unfold is_digit; lia.
Qed.
Lemma node_index_not_final n : node_index n <> index_json.
Proof.
  unfold node_index, index_json. pose proof (dec_digits n) as D. destruct (dec n) as [|c s]; [discriminate|].
  intros H. change (codes "index.json") with (105%N :: codes "ndex.json") in H. cbn [app] in H. injection H as Hc _.
  pose proof (Forall_inv D) as Hd. rewrite Hc in Hd. unfold is_digit in Hd. lia.
Qed.

Section P.
Context {chunk config : Type} (same : config -> config -> bool).
Notation file := (str * index chunk config)%type.
Context (cloud : bool) (dirs : list (list file)) (existing : option (index chunk config)) (old : option (index chunk config)).
Notation last := (length dirs - 1).
Notation step := (step same cloud dirs existing).

Definition own (n : nat) : res (list file) := merge_no_wait same (nth n dirs []) (Some n) existing.

Lemma own_named n c : own n = Ok c -> exists i, c = [(node_index n, i)].
Proof. unfold own, merge_no_wait. destruct (merge_loop _ _ _ _) as [[a b]|]; [|discriminate]. cbn [bind]. intros H. injection H as <-. eauto. Qed.

Lemma put_same st (f : file) : put_file st f (fst f) = Some (snd f).
Proof. unfold put_file. rewrite (proj2 (same_name_ok _ _) eq_refl). reflexivity. Qed.
Lemma put_other st (f : file) x : x <> fst f -> put_file st f x = st x.
Proof. unfold put_file. intros H. destruct (same_name x (fst f)) eqn:E; [apply same_name_ok in E; contradiction|reflexivity]. Qed.
Lemma find_own n (i : index chunk config) : find_file (node_index n) [(node_index n, i)] = Some (node_index n, i).
Proof. unfold find_file. cbn [find fst]. rewrite (proj2 (same_name_ok _ _) eq_refl). reflexivity. Qed.

Lemma node_merges_own : forall (ds : list (list file)) n fs,
  Forall2 (fun jd f => merge_no_wait same (snd jd) (Some (fst jd)) existing = Ok [f]) (combine (seq n (length ds)) ds) fs ->
  node_merges same n ds existing = Ok fs.
Proof.
  induction ds as [|d ds IH]; intros n fs F; cbn [length seq combine] in F; inversion F as [|? f ? fs' E F']; subst; [reflexivity|].
  cbn [node_merges]. cbn [fst snd] in E. rewrite E. cbn [bind]. rewrite (IH (S n) fs' F'). reflexivity.
Qed.
Lemma node_merges_owned : forall (ds : list (list file)) n fs j d,
  node_merges same n ds existing = Ok fs -> nth_error ds j = Some d -> exists c, merge_no_wait same d (Some (n + j)) existing = Ok c.
Proof.
  induction ds as [|d0 ds IH]; intros n fs j d H Hj; [destruct j; discriminate Hj|]. cbn [node_merges] in H.
  destruct (merge_no_wait same d0 (Some n) existing) as [c|] eqn:E; [|discriminate H]. cbn [bind] in H.
  destruct (node_merges same (S n) ds existing) as [fs'|] eqn:E'; [|discriminate H].
  destruct j as [|j]; [injection Hj as ->; rewrite Nat.add_0_r; eauto|]. cbn [nth_error] in Hj.
  destruct (IH (S n) fs' j d E' Hj) as (c' & Hc). exists c'. rewrite Nat.add_succ_r. exact Hc.
Qed.

Lemma own_node n d : nth_error dirs n = Some d -> own n = merge_no_wait same d (Some n) existing.
Proof. intros H. unfold own. rewrite (nth_error_nth _ _ _ H). reflexivity. Qed.

(** What the last node merges at the end is what [finish] merges. *)
Lemma finish_cache f l : 2 <= length dirs -> own last = Ok [f] -> Forall2 (fun j g => own j = Ok [g]) (seq 0 last) l ->
  finish same dirs existing = merge_no_wait same (f :: l) None None.
Proof.
  intros Hl Ef F. assert (E : node_merges same 0 dirs existing = Ok (l ++ [f])).
  { apply node_merges_own.
    assert (G : Forall2 (fun j g => own j = Ok [g]) (seq 0 (length dirs)) (l ++ [f])).
    { replace (length dirs) with (last + 1) by lia. rewrite seq_app. apply Forall2_app; [exact F|]. cbn [seq Nat.add]. repeat constructor. exact Ef. }
    clear - G. unfold own in G. revert G. generalize (l ++ [f]). intros fs.
    assert (K : forall (ds : list (list file)) n fs, (forall j, j < length ds -> nth (n + j) dirs [] = nth j ds []) ->
      Forall2 (fun j g => merge_no_wait same (nth j dirs []) (Some j) existing = Ok [g]) (seq n (length ds)) fs ->
      Forall2 (fun jd g => merge_no_wait same (snd jd) (Some (fst jd)) existing = Ok [g]) (combine (seq n (length ds)) ds) fs).
    { induction ds as [|d ds IH]; intros n fs' H F; cbn [length seq combine] in *; inversion F as [|? g ? fs1 E F']; subst; constructor.
      - cbn [fst snd]. pose proof (H 0 ltac:(lia)) as H0. rewrite Nat.add_0_r in H0. cbn [nth] in H0. rewrite <- H0. exact E.
      - apply IH; [|exact F']. intros j Hj. pose proof (H (S j) ltac:(lia)) as H1. cbn [nth] in H1. rewrite <- H1. f_equal. lia. }
    intros G. apply (K dirs 0 fs); [intros j _; reflexivity|exact G]. }
  unfold finish. destruct dirs as [|d1 [|d2 ds]] eqn:Ed; [cbn in Hl; lia|cbn in Hl; lia|]. rewrite <- Ed in *. rewrite E. cbn [bind].
  unfold merge_no_wait. do 2 f_equal.
  apply sort_Permutation; [|apply Permutation_sym, Permutation_cons_append].
  assert (Nm : forall n g, own n = Ok [g] -> fst g = node_index n).
  { intros n g H. destruct (own_named n _ H) as (i & Hi). injection Hi as ->. reflexivity. }
  assert (M : map fst (l ++ [f]) = map node_index (seq 0 (length dirs))).
  { replace (length dirs) with (last + 1) by lia. rewrite seq_app, !map_app. cbn [seq map Nat.add]. rewrite (Nm _ _ Ef). f_equal.
    clear - F Nm. induction F as [|j g js gs Hj _ IH]; [reflexivity|]. cbn [map]. rewrite (Nm _ _ Hj), IH. reflexivity. }
  rewrite M. apply FinFun.Injective_map_NoDup; [intros a b; apply node_index_inj|apply seq_NoDup].
Qed.

(** ** The invariant. *)
Definition stored_ok (st : store chunk config) : Prop := forall k i, k < last -> st (node_index k) = Some i -> own k = Ok [(node_index k, i)].
Definition place_ok (st : store chunk config) (n : nat) (p : place chunk config) : Prop :=
  match p with
  | Begin => True
  | Store c => own n = Ok c
  | Fetch k c => n = last /\ k <= last /\ exists f l, c = f :: l /\ own last = Ok [f] /\ Forall2 (fun j g => own j = Ok [g]) (seq 0 k) l
  | Done => n < last -> exists i, st (node_index n) = Some i /\ own n = Ok [(node_index n, i)]
  | Failed e => own n = Err e \/ n = last /\ (finish same dirs existing = Err e \/ cloud = false /\ e = FileNotFoundError)
  end.
Definition final_ok (st : store chunk config) (p : place chunk config) : Prop :=
  match p with
  | Done => exists i, finish same dirs existing = Ok [(index_json, i)] /\ st index_json = Some i
  | _ => st index_json = old
  end.
Definition inv0 (s : store chunk config * (nat -> place chunk config)) : Prop :=
  (forall n, n < length dirs -> place_ok (fst s) n (snd s n)) /\ final_ok (fst s) (snd s last).
Definition inv (s : store chunk config * (nat -> place chunk config)) : Prop := stored_ok (fst s) /\ inv0 s.
(** Files of an earlier run do no harm as long as the last node does nothing. *)
Definition safe (s : store chunk config * (nat -> place chunk config)) (sch : list nat) : Prop := inv s \/ inv0 s /\ ~ In last sch.

Lemma step_both s n : 2 <= length dirs -> inv0 s -> (n = last -> stored_ok (fst s)) ->
  (stored_ok (fst s) -> stored_ok (fst (step s n))) /\ inv0 (step s n).
Proof.
  intros Hl. destruct s as [st at_]. unfold inv0. cbn [fst snd]. intros (HP & HF) HS. unfold step.
  destruct (nth_error dirs n) as [files|] eqn:En; [|cbn [fst snd]; auto].
  assert (Hn : n < length dirs) by (apply nth_error_Some; congruence). pose proof (HP n Hn) as Pn.
  assert (Eo := own_node n files En).
  (* a step that leaves the store as it is *)
  assert (K : forall p, place_ok st n p -> (n = last -> final_ok st p) ->
    (stored_ok st -> stored_ok st) /\ (forall m, m < length dirs -> place_ok st m (if m =? n then p else at_ m)) /\ final_ok st (if last =? n then p else at_ last)).
  { intros p H1 H2. split; [exact (fun x => x)|]. split.
    - intros m Hm. destruct (Nat.eqb_spec m n) as [->|_]; [exact H1|exact (HP m Hm)].
    - destruct (Nat.eqb_spec last n) as [E|_]; [apply H2; symmetry; exact E|exact HF]. }
  destruct (at_ n) as [|c|k c| |e] eqn:Ea.
  - rewrite <- Eo. destruct (own n) as [c|e] eqn:Ec; cbn [fst snd].
    + apply K; [exact Ec|]. intros E. rewrite <- E, Ea in HF. exact HF.
    + apply K; [left; exact Ec|]. intros E. rewrite <- E, Ea in HF. exact HF.
  - cbn [place_ok] in Pn. destruct (own_named n c Pn) as (i & ->). rewrite find_own. cbn [fst snd].
    assert (St : forall x, x <> node_index n -> put_file st (node_index n, i) x = st x) by (intros x Hx; apply put_other; exact Hx).
    pose proof (put_same st (node_index n, i)) as Sn. cbn [fst snd] in Sn.
    assert (S' : stored_ok st -> stored_ok (put_file st (node_index n, i))).
    { intros HS' k i' Hk. destruct (Nat.eq_dec k n) as [->|Hkn].
      - rewrite Sn. intros X. injection X as <-. exact Pn.
      - rewrite St by (intros X; apply Hkn, node_index_inj; exact X). exact (HS' k i' Hk). }
    split; [exact S'|]. split.
    + intros m Hm. destruct (Nat.eqb_spec m n) as [->|Hmn].
      * destruct (Nat.eqb_spec n last) as [->|Hnl].
        -- cbn [place_ok]. split; [reflexivity|]. split; [lia|]. exists (node_index last, i), []. cbn [seq]. auto.
        -- cbn [place_ok]. intros _. exists i. split; [exact Sn|exact Pn].
      * pose proof (HP m Hm) as Pm. destruct (at_ m) as [|c'|k' c'| |e']; cbn [place_ok] in *; auto.
        intros Hml. destruct (Pm Hml) as (i' & Q1 & Q2). exists i'. rewrite St by (intros X; apply Hmn, node_index_inj; exact X). auto.
    + destruct (Nat.eqb_spec last n) as [E|E].
      * subst n. rewrite Nat.eqb_refl. cbn [final_ok]. rewrite Ea in HF. cbn [final_ok] in HF.
        rewrite St by (intros X; exact (node_index_not_final _ (eq_sym X))). exact HF.
      * destruct (at_ last); cbn [final_ok] in *; rewrite St by (intros X; exact (node_index_not_final _ (eq_sym X))); exact HF.
  - cbn [place_ok] in Pn. destruct Pn as (-> & Hk & f & l & -> & Ef & F). rewrite Ea in HF. cbn [final_ok] in HF.
    destruct (Nat.ltb_spec k last) as [Hkl|Hkl].
    + destruct (st (node_index k)) as [i|] eqn:Es.
      * cbn [fst snd]. apply K; [|intros _; exact HF]. cbn [place_ok]. split; [reflexivity|]. split; [lia|].
        exists f, (l ++ [(node_index k, i)]). split; [reflexivity|]. split; [exact Ef|].
        replace (S k) with (k + 1) by lia. rewrite seq_app. apply Forall2_app; [exact F|]. cbn [seq Nat.add]. repeat constructor. exact (HS eq_refl k i Hkl Es).
      * destruct cloud eqn:Ecl; cbn [fst snd]; [split; [exact (fun x => x)|split; [exact HP|rewrite Ea; exact HF]]|].
        apply K; [|intros _; exact HF]. cbn [place_ok]. right. auto.
    + replace k with last in F by lia. pose proof (finish_cache f l Hl Ef F) as Efin. rewrite <- Efin.
      destruct (finish same dirs existing) as [c'|e] eqn:Ec; cbn [fst snd].
      * assert (Hc : exists x, c' = [(index_json, x)]).
        { unfold merge_no_wait in Efin. destruct (merge_loop _ _ _ _) as [r|]; [|discriminate Efin]. cbn [bind] in Efin. injection Efin as ->. eauto. }
        destruct Hc as (x & ->). unfold find_file. cbn [find fst]. rewrite (proj2 (same_name_ok _ _) eq_refl). cbn [fst snd].
        assert (St : forall m, put_file st (index_json, x) (node_index m) = st (node_index m)) by (intros m; apply put_other; exact (node_index_not_final m)).
        split; [intros HS' m i' Hm; rewrite St; exact (HS' m i' Hm)|]. split.
        -- intros m Hm. destruct (Nat.eqb_spec m last) as [->|Hml]; [cbn [place_ok]; lia|].
           pose proof (HP m Hm) as Pm. destruct (at_ m) as [|c1|k1 c1| |e1]; cbn [place_ok] in *; auto. intros Hm'. rewrite St. exact (Pm Hm').
        -- rewrite Nat.eqb_refl. cbn [final_ok]. exists x. split; [exact Ec|exact (put_same st (index_json, x))].
      * apply K; [|intros _; exact HF]. cbn [place_ok]. right. auto.
  - cbn [fst snd]. auto.
  - cbn [fst snd]. auto.
Qed.

Lemma step_inv s n : 2 <= length dirs -> inv s -> inv (step s n).
Proof. intros Hl [H1 H2]. destruct (step_both s n Hl H2 (fun _ => H1)) as [H3 H4]. split; [exact (H3 H1)|exact H4]. Qed.
Lemma step_safe s n sch : 2 <= length dirs -> safe s (n :: sch) -> safe (step s n) sch.
Proof.
  intros Hl [H|[H1 H2]]; [left; apply step_inv; assumption|]. right.
  destruct (step_both s n Hl H1) as [_ H4]; [intros ->; destruct H2; left; reflexivity|]. split; [exact H4|]. intros X. apply H2. right. exact X.
Qed.
Lemma safe_inv0 s sch : safe s sch -> inv0 s.
Proof. intros [[_ H]|[H _]]; exact H. Qed.
Lemma run_safe sch : forall s sch', 2 <= length dirs -> safe s (sch ++ sch') -> safe (fold_left step sch s) sch'.
Proof. induction sch as [|n sch IH]; intros s sch' Hl H; [exact H|]. cbn [fold_left]. apply IH; [exact Hl|]. apply step_safe; assumption. Qed.

Lemma run_inv schedule : forall s, 2 <= length dirs -> inv s -> inv (fold_left step schedule s).
Proof. induction schedule as [|n sch IH]; intros s Hl H; [exact H|]. cbn [fold_left]. apply IH; [exact Hl|]. apply step_inv; assumption. Qed.

(** ** Progress. *)
Definition rank_of (p : place chunk config) : nat :=
  match p with Begin => 0 | Store _ => 1 | Fetch k _ => 2 + k | Done | Failed _ => length dirs + 2 end.

Lemma step_other s n m : m <> n -> snd (step s n) m = snd s m.
Proof.
  intros H. destruct s as [st at_]. unfold step. destruct (nth_error dirs n); [|reflexivity].
  assert (G : forall p : place chunk config, (if m =? n then p else at_ m) = at_ m) by (intros p; apply Nat.eqb_neq in H; rewrite H; reflexivity).
  destruct (at_ n) as [|c|k c| |e]; try reflexivity.
  - destruct (merge_no_wait _ _ _ _); apply G.
  - destruct (find_file _ _); apply G.
  - destruct (k <? last); [destruct (st (node_index k)); [apply G|destruct cloud; [reflexivity|apply G]]|].
    destruct (merge_no_wait _ _ _ _) as [c'|]; [|apply G]. destruct (find_file _ _); apply G.
Qed.
(** A node other than the last: two steps, and it is at its end. *)
Lemma others_step s n : n < last -> inv0 s -> snd s n = Begin \/ (exists c, snd s n = Store c) \/ snd s n = Done \/ (exists e, snd s n = Failed e).
Proof.
  intros Hn (HP & _). pose proof (HP n ltac:(lia)) as P. destruct (snd s n); cbn [place_ok] in P; eauto. lia.
Qed.
Lemma others_rank sch : forall s n, 2 <= length dirs -> n < last -> safe s sch ->
  2 <= rank_of (snd s n) + count_occ Nat.eq_dec sch n -> 2 <= rank_of (snd (fold_left step sch s) n).
Proof.
  induction sch as [|m sch IH]; intros s n Hl Hn Hi H; cbn [fold_left count_occ] in *; [lia|].
  apply IH; [exact Hl|exact Hn|apply step_safe; assumption|].
  destruct (Nat.eq_dec m n) as [->|Hm]; [|rewrite step_other by congruence; exact H].
  destruct s as [st at_]. cbn [snd] in H. unfold step.
  destruct (nth_error dirs n) as [files|] eqn:En; [|apply nth_error_None in En; lia].
  destruct (others_step (st, at_) n Hn (safe_inv0 _ _ Hi)) as [E|[(c & E)|[E|(e & E)]]]; cbn [snd] in E; rewrite E in *; cbn [rank_of] in H.
  - destruct (merge_no_wait _ _ _ _); cbn [snd]; rewrite Nat.eqb_refl; cbn [rank_of]; lia.
  - destruct (find_file _ _); cbn [snd]; rewrite Nat.eqb_refl; [|cbn [rank_of]; lia]. destruct (Nat.eqb_spec n last) as [X|_]; [lia|]. cbn [rank_of]; lia.
  - cbn [snd]. rewrite E. cbn [rank_of]. lia.
  - cbn [snd]. rewrite E. cbn [rank_of]. lia.
Qed.
Lemma others_stored s n c : n < last -> inv0 s -> own n = Ok c -> 2 <= rank_of (snd s n) -> exists i, fst s (node_index n) = Some i /\ own n = Ok [(node_index n, i)].
Proof.
  intros Hn Hi Ho Hr. destruct Hi as (HP & HF). pose proof (HP n ltac:(lia)) as P.
  destruct (snd s n) as [|c'|k c'| |e]; cbn [rank_of place_ok] in *; try lia.
  - exact (P Hn).
  - destruct P as [P|[P _]]; [congruence|lia].
Qed.

(** The last node, once the others have stored their files. *)
Definition all_stored (s : store chunk config * (nat -> place chunk config)) : Prop := forall k, k < last -> exists i, fst s (node_index k) = Some i.
Lemma stored_stays s n : 2 <= length dirs -> inv s -> all_stored s -> all_stored (step s n).
Proof.
  intros Hl Hi Ha k Hk. destruct (Ha k Hk) as (i & Hs). destruct s as [st at_]. cbn [fst] in Hs. unfold step.
  assert (P : forall f : file, exists i', put_file st f (node_index k) = Some i') by (intros f; unfold put_file; destruct (same_name _ _); eauto).
  destruct (nth_error dirs n); [|cbn [fst]; eauto].
  destruct (at_ n) as [|c|k' c| |e]; cbn [fst]; eauto.
  - destruct (merge_no_wait _ _ _ _); cbn [fst]; eauto.
  - destruct (find_file _ _); cbn [fst]; eauto.
  - destruct (k' <? last); [destruct (st (node_index k')); [|destruct cloud]; cbn [fst]; eauto|].
    destruct (merge_no_wait _ _ _ _) as [c'|]; [|cbn [fst]; eauto]. destruct (find_file _ _); cbn [fst]; eauto.
Qed.
Lemma last_rank i : forall sch s, 2 <= length dirs -> inv s -> all_stored s -> finish same dirs existing = Ok [(index_json, i)] -> (exists c, own last = Ok c) ->
  (forall e, snd s last <> Failed e) ->
  length dirs + 2 <= rank_of (snd s last) + count_occ Nat.eq_dec sch last ->
  fst (fold_left step sch s) index_json = Some i /\ snd (fold_left step sch s) last = Done.
Proof.
  induction sch as [|m sch IH]; intros s Hl Hi Ha Hfin Ho Hne H; cbn [fold_left count_occ] in *.
  - destruct Hi as (_ & HP & HF). pose proof (HP last ltac:(lia)) as P.
    destruct (snd s last) as [|c|k c| |e] eqn:E; cbn [rank_of place_ok final_ok] in *; try lia.
    + destruct HF as (x & H1 & H2). rewrite Hfin in H1. injection H1 as ->. auto.
    + destruct (Hne e eq_refl).
  - apply IH; [exact Hl|apply step_inv; assumption|apply stored_stays; assumption|exact Hfin|exact Ho| |].
    + intros e. destruct (Nat.eq_dec m last) as [->|Hm]; [|rewrite step_other by congruence; apply Hne].
      intros E. pose proof (step_inv s last Hl Hi) as (_ & HP' & _). pose proof (HP' last ltac:(lia)) as P'. rewrite E in P'. cbn [place_ok] in P'.
      destruct Ho as (c & Ho). destruct P' as [P'|(_ & [P'|(P' & ->)])]; [congruence|congruence|].
      destruct s as [st at_]. cbn [snd] in *. unfold step in E. destruct (nth_error dirs last) as [files|] eqn:En; [|exact (Hne _ E)].
      destruct Hi as (HS & HP & HF). cbn [fst snd] in *. pose proof (HP last ltac:(lia)) as P.
      destruct (at_ last) as [|c1|k c1| |e1] eqn:Ea; cbn [place_ok] in P.
      * rewrite <- (own_node last files En), Ho in E. cbn [snd] in E. rewrite Nat.eqb_refl in E. discriminate E.
      * destruct (own_named last c1 P) as (x & ->). rewrite find_own in E. cbn [snd] in E. rewrite !Nat.eqb_refl in E. discriminate E.
      * destruct P as (_ & Hk & f & l & -> & Ef & F). destruct (Nat.ltb_spec k last) as [Hkl|Hkl].
        -- destruct (Ha k Hkl) as (x & Hx). cbn [fst] in Hx. rewrite Hx in E. cbn [snd] in E. rewrite Nat.eqb_refl in E. discriminate E.
        -- replace k with last in F by lia. rewrite <- (finish_cache f l Hl Ef F), Hfin in E. unfold find_file in E. cbn [find fst] in E.
           rewrite (proj2 (same_name_ok _ _) eq_refl) in E. cbn [snd] in E. rewrite Nat.eqb_refl in E. discriminate E.
      * cbn [snd] in E. rewrite Ea in E. discriminate E.
      * exact (Hne _ eq_refl).
    + destruct (Nat.eq_dec m last) as [->|Hm]; [|rewrite step_other by congruence; exact H].
      destruct s as [st at_]. cbn [snd] in *. unfold step. destruct (nth_error dirs last) as [files|] eqn:En; [|apply nth_error_None in En; lia].
      destruct Hi as (HS & HP & HF). cbn [fst snd] in *. pose proof (HP last ltac:(lia)) as P.
      destruct (at_ last) as [|c1|k c1| |e1] eqn:Ea; cbn [place_ok rank_of] in *.
      * destruct (merge_no_wait _ _ _ _); cbn [snd]; rewrite Nat.eqb_refl; cbn [rank_of]; lia.
      * destruct (find_file _ _); cbn [snd]; rewrite ?Nat.eqb_refl; cbn [rank_of]; lia.
      * destruct P as (_ & Hk & _). destruct (Nat.ltb_spec k last) as [Hkl|Hkl].
        -- destruct (Ha k Hkl) as (x & Hx). cbn [fst] in Hx. rewrite Hx. cbn [snd]. rewrite Nat.eqb_refl. cbn [rank_of]. lia.
        -- destruct (merge_no_wait _ _ _ _) as [c'|]; [destruct (find_file _ _)|]; cbn [snd]; rewrite Nat.eqb_refl; cbn [rank_of]; lia.
      * cbn [snd]. rewrite Ea. cbn [rank_of]. lia.
      * cbn [snd]. rewrite Ea. cbn [rank_of]. lia.
Qed.

Lemma finish_own c n : 2 <= length dirs -> finish same dirs existing = Ok c -> n < length dirs -> exists c', own n = Ok c'.
Proof.
  intros Hl H Hn. unfold finish in H. destruct dirs as [|d1 [|d2 ds]] eqn:Ed; [cbn in Hl; lia|cbn in Hl; lia|]. rewrite <- Ed in *.
  destruct (node_merges same 0 dirs existing) as [fs|] eqn:E; [|discriminate H].
  destruct (nth_error dirs n) as [d|] eqn:En; [|apply nth_error_None in En; lia].
  destruct (node_merges_owned dirs 0 fs n d E En) as (c' & Hc). exists c'. rewrite (own_node n d En). exact Hc.
Qed.
End P.

Section Q.
Context {chunk config : Type} (same : config -> config -> bool).
Notation file := (str * index chunk config)%type.

Lemma clean_inv cloud (dirs : list (list file)) existing (st : store chunk config) :
  (forall k, st (node_index k) = None) -> inv same cloud dirs existing (st index_json) (st, fun _ => Begin).
Proof. intros H. split; [intros k i _ X; cbn [fst] in X; congruence|]. split; [intros n _; exact I|reflexivity]. Qed.

Lemma safe_run cloud (dirs : list (list file)) existing (st : store chunk config) schedule :
  2 <= length dirs -> (forall k, st (node_index k) = None) ->
  let st' := fst (run same cloud dirs existing st schedule) in
  st' index_json = st index_json \/ exists i, finish same dirs existing = Ok [(index_json, i)] /\ st' index_json = Some i.
Proof.
  intros Hl Hc. pose proof (run_inv same cloud dirs existing (st index_json) schedule _ Hl (clean_inv cloud dirs existing st Hc)) as (_ & _ & HF).
  unfold run. cbn zeta. destruct (snd _ _); cbn [final_ok] in HF; auto.
Qed.
Lemma live_run cloud (dirs : list (list file)) existing (st : store chunk config) s1 s2 i :
  2 <= length dirs -> cloud = true /\ (forall k, st (node_index k) = None) \/ ~ In (length dirs - 1) s1 ->
  finish same dirs existing = Ok [(index_json, i)] ->
  (forall n, n < length dirs - 1 -> 2 <= count_occ Nat.eq_dec s1 n) -> length dirs + 2 <= count_occ Nat.eq_dec s2 (length dirs - 1) ->
  let r := run same cloud dirs existing st (s1 ++ s2) in fst r index_json = Some i /\ snd r (length dirs - 1) = Done.
Proof.
  intros Hl Hcl Hfin H1 H2. cbn zeta. unfold run. rewrite fold_left_app.
  assert (I0 : safe same cloud dirs existing (st index_json) (st, fun _ => Begin) s1).
  { destruct Hcl as [[_ Hc]|Hn]; [left; apply clean_inv; exact Hc|]. right. split; [|exact Hn]. split; [intros n _; exact I|reflexivity]. }
  assert (I1 : safe same cloud dirs existing (st index_json) (fold_left (step same cloud dirs existing) s1 (st, fun _ => Begin)) []).
  { apply run_safe; [exact Hl|]. rewrite app_nil_r. exact I0. }
  assert (Hlast : exists c, own same dirs existing (length dirs - 1) = Ok c) by (apply (finish_own same dirs existing _ _ Hl Hfin); lia).
  assert (Hst : forall k, k < length dirs - 1 -> exists i, fst (fold_left (step same cloud dirs existing) s1 (st, fun _ => Begin)) (node_index k) = Some i /\
     own same dirs existing k = Ok [(node_index k, i)]).
  { intros k Hk. destruct (finish_own same dirs existing _ k Hl Hfin ltac:(lia)) as (c & Ho).
    apply (others_stored same cloud dirs existing (st index_json) _ k c Hk (safe_inv0 _ _ _ _ _ _ _ I1) Ho).
    apply (others_rank same cloud dirs existing (st index_json) s1 _ k Hl Hk I0). cbn [snd rank_of]. exact (H1 k Hk). }
  assert (I2 : inv same cloud dirs existing (st index_json) (fold_left (step same cloud dirs existing) s1 (st, fun _ => Begin))).
  { split; [|exact (safe_inv0 _ _ _ _ _ _ _ I1)]. intros k x Hk Hx. destruct (Hst k Hk) as (y & Hy & Ho). rewrite Hx in Hy. injection Hy as ->. exact Ho. }
  apply (last_rank same cloud dirs existing (st index_json) i s2 _ Hl I2); [|exact Hfin|exact Hlast| |lia].
  - intros k Hk. destruct (Hst k Hk) as (x & Hx & _). eauto.
  - intros e E. destruct Hcl as [[-> _]|Hn].
    + destruct I2 as (_ & HP & _). pose proof (HP (length dirs - 1) ltac:(lia)) as P. rewrite E in P. cbn [place_ok] in P.
      destruct Hlast as (c & Ho). destruct P as [P|(_ & [P|(P & _)])]; congruence.
    + assert (G : forall sch s, ~ In (length dirs - 1) sch -> snd (fold_left (step same cloud dirs existing) sch s) (length dirs - 1) = snd s (length dirs - 1)).
      { induction sch as [|m sch IH]; intros s Hs; [reflexivity|]. cbn [fold_left]. rewrite IH by (intros X; apply Hs; right; exact X).
        apply step_other. intros X. apply Hs. left. congruence. }
      rewrite G in E by exact Hn. discriminate E.
Qed.
Lemma waits_run (dirs : list (list file)) existing (st : store chunk config) schedule n e c :
  2 <= length dirs -> (forall k, st (node_index k) = None) -> n < length dirs - 1 ->
  own same dirs existing n = Err e -> own same dirs existing (length dirs - 1) = Ok c ->
  let r := run same true dirs existing st schedule in
  fst r index_json = st index_json /\ snd r (length dirs - 1) <> Done /\ forall e', snd r (length dirs - 1) <> Failed e'.
Proof.
  intros Hl Hc Hn He Ho. cbn zeta. unfold run.
  assert (G : forall sch s, inv same true dirs existing (st index_json) s ->
    (snd s (length dirs - 1) <> Done /\ forall e', snd s (length dirs - 1) <> Failed e') ->
    let r := fold_left (step same true dirs existing) sch s in
    inv same true dirs existing (st index_json) r /\ snd r (length dirs - 1) <> Done /\ forall e', snd r (length dirs - 1) <> Failed e').
  { induction sch as [|m sch IH]; intros s Hi Hs; cbn zeta; [split; [exact Hi|exact Hs]|]. cbn [fold_left]. apply IH; [apply step_inv; assumption|].
    destruct (Nat.eq_dec m (length dirs - 1)) as [->|Hm]; [|rewrite step_other by congruence; exact Hs].
    destruct s as [st1 at_]. destruct Hi as (HS & HP & HF). cbn [fst snd] in *. pose proof (HP (length dirs - 1) ltac:(lia)) as P. unfold step.
    destruct (nth_error dirs (length dirs - 1)) as [files|] eqn:En; [|exact Hs].
    destruct (at_ (length dirs - 1)) as [|c1|k c1| |e1] eqn:Ea; cbn [place_ok] in P.
    - rewrite <- (own_node same dirs existing _ files En), Ho. cbn [snd]. rewrite Nat.eqb_refl. split; [discriminate|]. intros e'. discriminate.
    - destruct (own_named same dirs existing _ c1 P) as (x & ->). rewrite find_own. cbn [snd]. rewrite !Nat.eqb_refl. split; [discriminate|]. intros e'. discriminate.
    - destruct P as (_ & Hk & f & l & -> & Ef & F). destruct (Nat.ltb_spec k (length dirs - 1)) as [Hkl|Hkl].
      + destruct (st1 (node_index k)); cbn [snd]; [rewrite Nat.eqb_refl|rewrite Ea]; (split; [discriminate|]; intros e'; discriminate).
      + exfalso. replace k with (length dirs - 1) in F by lia. assert (Hin : In n (seq 0 (length dirs - 1))) by (apply in_seq; lia).
        clear - F Hin He. revert F Hin. generalize (seq 0 (length dirs - 1)). intros js F. induction F as [|j g js gs Hj _ IHF]; [intros []|].
        intros [<-|Hin]; [congruence|exact (IHF Hin)].
    - destruct Hs as [Hs _]. exfalso; apply Hs; reflexivity.
    - destruct Hs as [_ Hs]. exfalso; apply (Hs e1); reflexivity. }
  destruct (G schedule (st, fun _ => Begin) (clean_inv true dirs existing st Hc)) as ((_ & _ & HF) & H1 & H2); [split; [discriminate|intros e'; discriminate]|].
  split; [|auto]. destruct (snd _ (length dirs - 1)); cbn [final_ok] in HF; auto. congruence.
Qed.
End Q.
