(** Proofs about paths. *)
From Coq Require Import String NArith Permutation Lia.
From Verif Require Import Base Names_Model Size_Model Paths_Model Paths_Spec.
Local Open Scope list_scope.
Local Open Scope nat_scope.
Local Ltac Zify.zify_post_hook ::= idtac.

Lemma starts_iff p s : starts p s = true <-> exists r, s = p ++ r.
Proof.
  revert s. induction p as [|a p IH]; intros s; cbn [starts]; [split; [exists s; reflexivity|reflexivity]|].
  destruct s as [|b s]; [split; [discriminate|intros (r & E); discriminate E]|].
  rewrite andb_true_iff, N.eqb_eq, IH. split.
  - intros (-> & r & ->). exists r. reflexivity.
  - intros (r & E). injection E as -> ->. split; [reflexivity|]. exists r. reflexivity.
Qed.

Lemma starts_app p s : starts p (p ++ s) = true.
Proof. apply starts_iff. eauto. Qed.

Lemma replace_skip old new k s : replace_from old new k s = replace_from old new 0 (skipn k s).
Proof.
  revert k. induction s as [|c s IH]; intros [|k]; cbn [skipn]; try reflexivity.
  rewrite <- IH. reflexivity.
Qed.

Lemma replace_start old new s : old <> [] -> replace old new (old ++ s) = new ++ replace old new s.
Proof.
  intros H. destruct old as [|c old]; [contradiction|]. unfold replace. cbn [app].
  cbn [replace_from]. change (c :: old ++ s) with ((c :: old) ++ s). rewrite starts_app.
  cbn [length]. rewrite Nat.sub_succ, Nat.sub_0_r, replace_skip.
  f_equal. f_equal. rewrite skipn_app, skipn_all, Nat.sub_diag. reflexivity.
Qed.

Lemma replace_none old new s : contains old s = false -> replace old new s = s.
Proof.
  unfold replace. induction s as [|c s IH]; [reflexivity|]. cbn [contains replace_from]. rewrite orb_false_iff.
  intros (E & F). rewrite E, IH by exact F. reflexivity.
Qed.

Section Paths.
  Variables (input_dir cache_dir : str).
  Hypothesis Hin : input_dir <> [].
  Notation local := (local_path input_dir cache_dir).

  Lemma local_start p : starts input_dir p = true -> starts cache_dir (local p) = true.
  Proof. rewrite starts_iff. intros (r & ->). unfold local_path. rewrite replace_start by exact Hin. apply starts_app. Qed.

  Lemma removed_start p : starts input_dir p = true -> starts cache_dir (removed input_dir cache_dir p) = true.
  Proof.
    intros H. unfold removed. destruct (starts cache_dir p) eqn:E; cbn [negb]; [exact E|]. apply local_start, H.
  Qed.

  Lemma removed_local p : starts cache_dir p = false -> removed input_dir cache_dir p = local p.
  Proof. unfold removed. intros ->. reflexivity. Qed.

  Lemma put_same d p c : put d p c p = c.
  Proof. unfold put. destruct (list_eq_dec N.eq_dec p p); [reflexivity|contradiction]. Qed.
  Lemma put_other d p c q : q <> p -> put d p c q = d q.
  Proof. unfold put. destruct (list_eq_dec N.eq_dec q p); [contradiction|reflexivity]. Qed.
  Lemma put_outside d p c f : starts cache_dir p = true -> starts cache_dir f = false -> put d p c f = d f.
  Proof. intros H F. apply put_other. intros ->. congruence. Qed.

  Lemma under_starts dir p : under dir p = true -> starts dir p = true.
  Proof. unfold under. rewrite !starts_iff. intros (r & ->). exists (slash :: r). rewrite <- app_assoc. reflexivity. Qed.

  Lemma happen_outside d e f :
    (forall p, path_of e = Some p -> starts input_dir p = true) -> starts cache_dir f = false ->
    happen input_dir cache_dir d e f = d f.
  Proof.
    intros He Hf. destruct e as [|p from|p]; cbn [happen path_of] in *.
    - destruct (under cache_dir f) eqn:U; [|reflexivity]. apply under_starts in U. congruence.
    - destruct from as [c|].
      + apply put_outside; [apply local_start, He; reflexivity|exact Hf].
      + destruct (d p); [|reflexivity]. apply put_outside; [apply local_start, He; reflexivity|exact Hf].
    - apply put_outside; [apply removed_start, He; reflexivity|exact Hf].
  Qed.

  Lemma happens_outside es : forall d f,
    (forall e p, In e es -> path_of e = Some p -> starts input_dir p = true) -> starts cache_dir f = false ->
    happens input_dir cache_dir d es f = d f.
  Proof.
    induction es as [|e es IH]; intros d f He Hf; [reflexivity|]. cbn.
    unfold happens in *. rewrite IH; [|intros; eapply He; [right; eassumption|assumption]|exact Hf].
    apply happen_outside; [intros p; apply He; left; reflexivity|exact Hf].
  Qed.

  (** Paths in which the input directory occurs only at the start. *)
  Definition plain (p : str) : Prop := exists r, p = input_dir ++ r /\ contains input_dir r = false.
  Lemma local_plain r : contains input_dir r = false -> local (input_dir ++ r) = cache_dir ++ r.
  Proof. intros H. unfold local_path. rewrite replace_start by exact Hin. rewrite replace_none by exact H. reflexivity. Qed.
  Lemma local_inj p q : plain p -> plain q -> local p = local q -> p = q.
  Proof.
    intros (r & -> & Hr) (r' & -> & Hr'). rewrite !local_plain by assumption. intros E. apply app_inv_head in E. subst. reflexivity.
  Qed.

  Definition fetches (e : event) : Prop := exists p, e = Fetch p None.
  Lemma fetched es : forall d p,
    (forall e, In e es -> fetches e) ->
    (forall e q, In e es -> path_of e = Some q -> plain q /\ starts cache_dir q = false) ->
    plain p -> starts cache_dir p = false -> d p <> None ->
    In (Fetch p None) es \/ d (local p) = d p -> happens input_dir cache_dir d es (local p) = d p.
  Proof.
    induction es as [|e es IH]; intros d p Hf He Pp Op Dp H.
    - destruct H as [[]|H]; exact H.
    - cbn. destruct (Hf e (or_introl eq_refl)) as (q & ->).
      destruct (He _ q (or_introl eq_refl) eq_refl) as (Pq & Oq).
      assert (Sq : starts cache_dir (local q) = true) by (apply local_start; destruct Pq as (r & -> & _); apply starts_app).
      set (d' := happen input_dir cache_dir d (Fetch q None)).
      assert (Ep : d' p = d p).
      { unfold d'. cbn [happen]. destruct (d q); [|reflexivity]. apply put_outside; assumption. }
      rewrite <- Ep. unfold happens in IH. apply IH.
      + intros e Ie. apply Hf. right. exact Ie.
      + intros e q' Ie. apply He. right. exact Ie.
      + exact Pp.
      + exact Op.
      + rewrite Ep. exact Dp.
      + destruct (list_eq_dec N.eq_dec p q) as [<-|N].
        * right. rewrite Ep. unfold d'. cbn [happen]. destruct (d p) eqn:E; [|contradiction]. apply put_same.
        * destruct H as [[H|H]|H]; [injection H as ->; contradiction|left; exact H|].
          right. rewrite Ep, <- H. unfold d'. cbn [happen]. destruct (d q); [|reflexivity].
          apply put_other. intros E. apply N. apply local_inj; assumption.
  Qed.
End Paths.

(** Uploads. *)
Lemma join_plain a b : a <> [] -> ends [slash] a = false -> starts [slash] b = false -> join a b = a ++ slash :: b.
Proof. intros Ha Ea Hb. unfold join. rewrite Hb, Ea. destruct a; [contradiction|reflexivity]. Qed.

Lemma starts_slash b : starts [slash] b = true <-> exists r, b = slash :: r.
Proof. apply starts_iff. Qed.

Lemma contains_app_l p s t : contains p s = true -> contains p (s ++ t) = true.
Proof.
  induction s as [|c s IH]; cbn [contains app].
  - rewrite orb_false_r. destruct p; [intros _; destruct t; reflexivity|discriminate].
  - rewrite !orb_true_iff. intros [H|H]; [left|right; apply IH, H].
    apply starts_iff in H. destruct H as (r & E). apply starts_iff. exists (r ++ t).
    change (c :: s ++ t) with ((c :: s) ++ t). rewrite E, <- app_assoc. reflexivity.
Qed.

Lemma absolute chunks_dir (local : str) :
  starts [slash] local = true -> (if starts chunks_dir local then local else join chunks_dir local) = local.
Proof. intros H. destruct (starts chunks_dir local); [reflexivity|]. unfold join. rewrite H. reflexivity. Qed.

Lemma target_map chunks_dir dir tmp rel :
  tmp <> [] -> dir <> [] -> ends [slash] dir = false -> starts [slash] rel = false -> starts [slash] tmp = true ->
  contains tmp (slash :: rel) = false ->
  contains (codes ".checkpoints") (tmp ++ slash :: rel) = false ->
  contains (codes ".checkpoints") (dir ++ slash :: rel) = false ->
  target chunks_dir dir (Some tmp) (tmp ++ slash :: rel) = dir ++ slash :: rel.
Proof.
  intros Ht Hd Ed Hr Ha Hn C1 C2. unfold target. cbv zeta.
  rewrite absolute.
  2:{ apply starts_slash in Ha. destruct Ha as (r & ->). apply starts_slash. exists (r ++ slash :: rel). reflexivity. }
  rewrite C1. rewrite replace_start by exact Ht. rewrite replace_none by exact Hn. cbn [app skipn].
  rewrite join_plain by assumption. unfold remove_uuid. rewrite C2. reflexivity.
Qed.

Lemma join_head a b : starts [slash] b = true -> join a b = b.
Proof. unfold join. intros ->. reflexivity. Qed.

Lemma split_last a b : (forall c, In c b -> c <> slash) -> last (split slash (a ++ slash :: b)) [] = b.
Proof.
  intros Hb.
  assert (B : split slash b = [b]).
  { induction b as [|x b IH]; [reflexivity|]. cbn [split].
    destruct (N.eqb_spec x slash) as [E|_]; [exfalso; apply (Hb x (or_introl eq_refl) E)|].
    rewrite IH by (intros c Hc; apply Hb; right; exact Hc). reflexivity. }
  assert (A : split slash (a ++ slash :: b) <> [] /\ exists h t, split slash (a ++ slash :: b) = h :: t /\ t <> [] /\ last t [] = b).
  { induction a as [|x a IH].
    - cbn [app split]. rewrite N.eqb_refl, B. split; [discriminate|]. exists [], [b]. split; [reflexivity|]. split; [discriminate|reflexivity].
    - cbn [app split]. destruct IH as (_ & h & t & E & Nt & L). rewrite E. destruct (x =? slash)%N.
      + split; [discriminate|]. exists [], (h :: t). split; [reflexivity|]. split; [discriminate|].
        destruct t; [contradiction|exact L].
      + split; [discriminate|]. exists (x :: h), t. auto. }
  destruct A as (_ & h & t & E & Nt & L). rewrite E. destruct t; [contradiction|exact L].
Qed.

Lemma target_chunk chunks_dir dir sub name :
  dir <> [] -> ends [slash] dir = false -> (forall c, In c name -> c <> slash) ->
  contains (codes ".checkpoints") (chunks_dir ++ sub ++ slash :: name) = false ->
  contains (codes ".checkpoints") (dir ++ slash :: name) = false ->
  target chunks_dir dir None (chunks_dir ++ sub ++ slash :: name) = dir ++ slash :: name.
Proof.
  intros Hd Ed Hn C1 C2. unfold target. cbv zeta. rewrite starts_app, C1. unfold basename.
  rewrite app_assoc, split_last by exact Hn. rewrite join_plain.
  - unfold remove_uuid. rewrite C2. reflexivity.
  - exact Hd.
  - exact Ed.
  - destruct (starts [slash] name) eqn:E; [|reflexivity]. apply starts_slash in E. destruct E as (r & ->).
    exfalso. apply (Hn slash); [left|]; reflexivity.
Qed.

Lemma uploader_all remote fails queue : forall j, (forall i, j <= i < j + length queue -> fails i = false) -> uploader remote fails j queue = queue.
Proof.
  induction queue as [|f q IH]; intros j H; [reflexivity|]. cbn [uploader]. cbn [length] in H.
  rewrite (H j) by lia. rewrite IH; [reflexivity|]. intros i Hi. apply H. lia.
Qed.

Lemma store_other ws : forall d p, ~ In p (map fst ws) -> store ws d p = d p.
Proof.
  induction ws as [|w ws IH]; intros d p H; [reflexivity|]. cbn. unfold store in IH. cbn in H. rewrite IH by tauto.
  apply put_other. intros E. apply H. left. auto.
Qed.

Lemma store_in ws : forall d p c, NoDup (map fst ws) -> In (p, c) ws -> store ws d p = Some c.
Proof.
  induction ws as [|w ws IH]; intros d p c Hn Hi; [destruct Hi|]. cbn in Hn. inversion Hn as [|? ? Hw Hn' E1]; subst.
  destruct Hi as [->|Hi].
  - cbn. pose proof (store_other ws (put d p (Some c)) p Hw) as S. unfold store in S. rewrite S. apply put_same.
  - cbn. unfold store in IH. apply IH; assumption.
Qed.

Lemma nth_error_ext_map {A} (F : nat -> A -> A) (l : list A) (def : A) :
  (forall u x, nth_error l u = Some x -> F u x = x) -> map (fun u => F u (nth u l def)) (seq 0 (length l)) = l.
Proof.
  revert F. induction l as [|a l IH]; intros F H; [reflexivity|]. cbn [length seq map nth]. rewrite (H 0 a eq_refl).
  f_equal. rewrite <- seq_shift, map_map. apply (IH (fun u => F (S u))). intros u x Hu. apply (H (S u)). exact Hu.
Qed.

Lemma filter_sublist {A} (f : A -> bool) l : sublist (filter f l) l.
Proof. induction l as [|x l IH]; cbn [filter]; [constructor|]. destruct (f x); constructor; exact IH. Qed.
