(** Proofs about [walk]. *)
From Coq Require Import NArith Lia Permutation.
From Verif Require Import Base Names_Model Paths_Model Walk_Model Walk_Spec.
Local Open Scope list_scope.
Local Open Scope nat_scope.

Lemma filter_unique {A} (k k' : A -> bool) l : (forall x, In x l -> k x = k' x) -> filter k l = filter k' l.
Proof.
  induction l as [|x l IH]; intros H; [reflexivity|]. cbn [filter]. rewrite (H x (or_introl eq_refl)), IH; [reflexivity|].
  intros y Hy. apply H. right. exact Hy.
Qed.

Lemma below_inv fs p out : below fs p out -> exists names subs,
  listdir fs p = Ok names /\
  let folders := filter (fun n => negb (isfile fs (join p n))) names in
  out = (p, folders, filter (fun n => isfile fs (join p n)) names) :: concat subs /\
  Forall2 (fun f out => below fs f out) (map (join p) folders) subs.
Proof.
  intros H. destruct H as [p names folders filenames subs H1 H2 (k & k' & -> & ->) H3]. exists names, subs. split; [exact H1|]. cbv zeta.
  assert (E : filter k names = filter (fun n => negb (isfile fs (join p n))) names).
  { apply filter_unique. intros n Hn. specialize (H2 n Hn). destruct (isfile fs (join p n)); rewrite !filter_In in H2; cbn; destruct (k n), (k' n); intuition congruence. }
  assert (E' : filter k' names = filter (fun n => isfile fs (join p n)) names).
  { apply filter_unique. intros n Hn. specialize (H2 n Hn). destruct (isfile fs (join p n)); rewrite !filter_In in H2; cbn; destruct (k n), (k' n); intuition congruence. }
  rewrite E, E' in *. split; [reflexivity|]. clear - H3. induction H3 as [|n o l subs' H _ IH]; cbn [map]; constructor; assumption.
Qed.

Lemma below_some fs p out : below fs p out -> out <> [].
Proof. intros H. destruct H. discriminate. Qed.

Lemma remove_perm f l : In f l -> Permutation l (f :: remove_one f l).
Proof.
  induction l as [|x l IH]; intros H; [destruct H|]. cbn [remove_one]. destruct (list_eq_dec N.eq_dec x f) as [->|Hn]; [reflexivity|].
  destruct H as [->|H]; [congruence|]. transitivity (x :: f :: remove_one f l); [constructor; apply IH, H|constructor].
Qed.
Lemma remove_sub f l x : In x (remove_one f l) -> In x l.
Proof. induction l as [|y l IH]; [intros []|]. cbn [remove_one]. destruct (list_eq_dec N.eq_dec y f); [right; assumption|]. intros [->|H]; [left; reflexivity|right; apply IH, H]. Qed.

Lemma perm_forall2 {A B} (R : A -> B -> Prop) l l' m : Permutation l l' -> Forall2 R l m -> exists m', Forall2 R l' m' /\ Permutation m m'.
Proof.
  intros P. revert m. induction P as [|x l l' P IH|x y l|l l1 l2 P1 IH1 P2 IH2]; intros m H.
  - inversion H; subst. exists []. split; constructor.
  - inversion H as [|? b ? m1 H1 H2]; subst. destruct (IH _ H2) as (m' & K1 & K2). exists (b :: m'). split; constructor; assumption.
  - inversion H as [|? b ? m1 H1 H2]; subst. inversion H2 as [|? b' ? m2 H3 H4]; subst. exists (b' :: b :: m2). split; [repeat constructor; assumption|constructor].
  - destruct (IH1 _ H) as (m1 & K1 & K2). destruct (IH2 _ K1) as (m2 & K3 & K4). exists m2. split; [exact K3|]. transitivity m1; assumption.
Qed.
Lemma perm_concat {A} (l l' : list (list A)) : Permutation l l' -> Permutation (concat l) (concat l').
Proof.
  intros P. induction P as [|x l l' P IH|x y l|l l1 l2 P1 IH1 P2 IH2]; cbn [concat]; [constructor|apply Permutation_app_head, IH| |transitivity (concat l1); assumption].
  rewrite !app_assoc. apply Permutation_app_tail, Permutation_app_comm.
Qed.

Section Walk.
Context (fs : files) (mw : nat) (root : str) (out : list visit).

(** Sub-multiset. *)
Definition subm (b l : list str) : Prop := exists r, Permutation l (b ++ r).
Lemma subm_in b l f : subm b l -> In f b -> In f l.
Proof. intros [r P] H. apply (Permutation_in f (Permutation_sym P)). apply in_or_app. left. exact H. Qed.
Lemma subm_remove b l f : subm b l -> In f b -> subm (remove_one f b) (remove_one f l).
Proof.
  intros [r P] H. exists r. apply (Permutation_cons_inv (a := f)). rewrite <- (remove_perm f l) by (eapply subm_in; [exists r; exact P|exact H]).
  rewrite P. change (f :: remove_one f b ++ r) with ((f :: remove_one f b) ++ r). apply Permutation_app_tail, remove_perm, H.
Qed.

Definition inv (s : wstate) : Prop :=
  subm (w_batch s) (w_futures s) /\
  (exists outs, Forall2 (below fs) (w_futures s ++ w_folders s) outs /\ Permutation (w_seen s ++ concat outs) out) /\
  parents_first root (w_seen s) /\
  (forall f, In f (w_futures s ++ w_folders s) -> (w_seen s = [] /\ f = root) \/ exists u n, In u (w_seen s) /\ In n (snd (fst u)) /\ f = join (fst (fst u)) n) /\
  (w_seen s = [] -> Permutation (w_futures s ++ w_folders s) [root]).

Lemma inv_created : below fs root out -> inv (created root).
Proof.
  intros H. split; [exists []; constructor|]. split; [exists [out]; split; [repeat constructor; exact H|cbn; rewrite app_nil_r; reflexivity]|]. split.
  - intros pre v post E. destruct pre; discriminate.
  - split; [|intros _; reflexivity]. cbn. intros f [<-|[]]. left. split; reflexivity.
Qed.

Lemma inv_moved s folders futures batch : inv s -> Permutation (w_futures s ++ w_folders s) (futures ++ folders) -> subm batch futures ->
  inv (WState folders futures batch (w_seen s)).
Proof.
  intros (H1 & (outs & H2 & H3) & H4 & H5 & H6) P Hb. split; [exact Hb|]. cbn [w_folders w_futures w_seen]. split; [|split; [exact H4|split]].
  - destruct (perm_forall2 _ _ _ _ P H2) as (outs' & K1 & K2). exists outs'. split; [exact K1|]. rewrite <- (perm_concat _ _ K2). exact H3.
  - intros f Hf. apply H5. apply (Permutation_in f (Permutation_sym P)). exact Hf.
  - intros E. rewrite <- P. apply H6, E.
Qed.

Lemma inv_started s : inv s -> inv (started s).
Proof.
  intros H. apply inv_moved; [exact H| |]. { rewrite app_nil_r. reflexivity. } exists (w_futures s ++ w_folders s). reflexivity.
Qed.

Lemma refill_perm folders futures : Permutation (snd (refill mw folders futures) ++ fst (refill mw folders futures)) (futures ++ folders) /\
  exists r, snd (refill mw folders futures) = futures ++ r.
Proof.
  revert futures. induction folders as [|f folders IH]; intros futures; cbn [refill]; [split; [reflexivity|exists []; symmetry; apply app_nil_r]|].
  destruct (_ <=? _); [|split; [reflexivity|exists []; symmetry; apply app_nil_r]]. destruct (IH (futures ++ [f])) as [H1 [r H2]]. split.
  - rewrite H1, <- app_assoc. reflexivity.
  - exists (f :: r). rewrite H2, <- app_assoc. reflexivity.
Qed.

Lemma inv_resume s : inv s -> inv (resume mw s).
Proof.
  intros H. unfold resume. destruct (refill_perm (w_folders s) (w_futures s)) as [P [r E]]. destruct (refill mw (w_folders s) (w_futures s)) as [a b]. cbn [fst snd] in *.
  apply inv_moved; [exact H|symmetry; exact P|]. destruct H as [[r' H] _]. exists (r' ++ r). rewrite E, H, app_assoc. reflexivity.
Qed.

Lemma arrive_ok s f : inv s -> In f (w_batch s) -> exists s', arrive fs s f = Ok s' /\ inv s'.
Proof.
  intros (Hb & (outs & H2 & H3) & H4 & H5 & H6) Hf. pose proof (subm_in _ _ _ Hb Hf) as Hfut.
  assert (P : Permutation (w_futures s ++ w_folders s) (f :: remove_one f (w_futures s) ++ w_folders s)).
  { rewrite app_comm_cons. apply Permutation_app_tail, remove_perm, Hfut. }
  destruct (perm_forall2 _ _ _ _ P H2) as (outs' & K1 & K2). inversion K1 as [|? o ? outs1 K3 K4]; subst.
  destruct (below_inv _ _ _ K3) as (names & subs & E1 & E2 & E3). unfold arrive. rewrite E1. cbn [bind]. cbv zeta in *. eexists. split; [reflexivity|].
  set (folders := filter (fun n => negb (isfile fs (join f n))) names) in *. set (filenames := filter (fun n => isfile fs (join f n)) names) in *.
  split; [apply subm_remove; assumption|]. cbn [w_folders w_futures w_seen]. split; [|split; [|split]].
  - exists (outs1 ++ subs). split.
    + rewrite app_assoc. apply Forall2_app; assumption.
    + rewrite <- H3, (perm_concat _ _ K2). cbn [concat]. rewrite E2, concat_app, <- app_assoc. apply Permutation_app_head. cbn [app]. constructor. apply Permutation_app_comm.
  - intros pre v post E. destruct post as [|w post] using rev_ind.
    + apply app_inj_tail in E. destruct E as [<- <-]. cbn [fst snd]. apply H5. apply in_or_app. left. exact Hfut.
    + clear IHpost. rewrite app_comm_cons, app_assoc in E. apply app_inj_tail in E. destruct E as [E _]. apply (H4 _ _ _ E).
  - intros g Hg. rewrite app_assoc in Hg. apply in_app_or in Hg. right. destruct Hg as [Hg|Hg].
    + assert (G : In g (w_futures s ++ w_folders s)). { apply (Permutation_in g (Permutation_sym P)). right. exact Hg. }
      destruct (H5 g G) as [[Es ->]|(u & n & U1 & U2 & U3)].
      * exfalso. specialize (H6 Es). rewrite P in H6. apply Permutation_length in H6. cbn [length] in H6.
        destruct (remove_one f (w_futures s) ++ w_folders s) as [|? l]; [destruct Hg|discriminate H6].
      * exists u, n. split; [apply in_or_app; left; exact U1|split; assumption].
    + apply in_map_iff in Hg. destruct Hg as (n & <- & Hn). exists (f, folders, filenames), n. split; [apply in_or_app; right; left; reflexivity|split; [exact Hn|reflexivity]].
  - intros E. apply app_eq_nil in E. destruct E as [_ E]. discriminate.
Qed.

Lemma next_ok s o : next fs s o -> inv s -> exists s', o = Running s' /\ inv s'.
Proof.
  intros H. induction H as [s o E1 E2 H IH|s f s' Hf E|s f e Hf E]; intros I.
  - apply IH. apply inv_moved; [exact I|reflexivity|]. exists []. rewrite app_nil_r. reflexivity.
  - destruct (arrive_ok s f I Hf) as (s1 & E1 & I1). exists s1. split; [congruence|exact I1].
  - destruct (arrive_ok s f I Hf) as (s1 & E1 & I1). congruence.
Qed.

Lemma run_ok s n o : run fs mw s n o -> inv s -> exists s', o = Running s' /\ inv s'.
Proof.
  intros H. induction H as [s|s s1 n o H1 H2 IH|s s1 H1|s e H1]; intros I.
  - exists s. auto.
  - destruct (next_ok _ _ H1 I) as (s' & E & I'). injection E as <-. apply IH, inv_resume, I'.
  - destruct (next_ok _ _ H1 I) as (s' & E & I'). injection E as <-. exists s1. auto.
  - destruct (next_ok _ _ H1 I) as (s' & E & I'). discriminate.
Qed.

Lemma loops_ok s ns o : loops fs mw s ns o -> inv s -> exists s', o = Running s' /\ inv s'.
Proof.
  intros H. induction H as [s|s n ns s1 o H1 H2 IH|s n ns e H1]; intros I.
  - exists s. auto.
  - destruct (run_ok _ _ _ H1 (inv_started s I)) as (s' & E & I'). injection E as <-. apply IH.
    apply inv_moved; [exact I'|reflexivity|]. exists (w_futures s1). reflexivity.
  - destruct (run_ok _ _ _ H1 (inv_started s I)) as (s' & E & I'). discriminate.
Qed.

Lemma inv_rest s : inv s -> exists rest, Permutation (w_seen s ++ rest) out /\ (rest = [] <-> finished s).
Proof.
  intros (_ & (outs & H2 & H3) & _). exists (concat outs). split; [exact H3|]. unfold finished. split.
  - intros E. inversion H2 as [E'|f o l outs' K1 K2 E']; subst.
    + symmetry in E'. apply app_eq_nil in E'. tauto.
    + exfalso. cbn [concat] in E. apply app_eq_nil in E. apply (below_some _ _ _ K1), E.
  - intros [E1 E2]. rewrite E1, E2 in H2. inversion H2. reflexivity.
Qed.

Lemma inv_progress s : inv s -> ~ finished s -> exists s', next fs (started s) (Running s').
Proof.
  intros I Hn. pose proof (inv_started s I) as I1. set (t := WState [] (w_futures s ++ w_folders s) (w_futures s ++ w_folders s) (w_seen s)).
  assert (It : inv t). { apply (inv_moved (started s)); [exact I1|reflexivity|]. exists []. rewrite app_nil_r. reflexivity. }
  destruct (w_futures s ++ w_folders s) as [|f l] eqn:E.
  - destruct Hn. apply app_eq_nil in E. split; tauto.
  - destruct (arrive_ok t f It (or_introl eq_refl)) as (s' & Es & _). exists s'. unfold started. rewrite E. apply Next_batch; [reflexivity|discriminate|].
    cbn [w_folders w_futures w_batch w_seen]. apply Next_some with (f := f); [left; reflexivity|exact Es].
Qed.

(** Inside a loop: a state in which the next result is asked for. *)
Lemma run_progress s : inv s -> (w_futures s <> [] -> exists s', next fs s (Running s')).
Proof.
  intros I Hn. destruct (w_batch s) as [|f b] eqn:Eb.
  - destruct (w_futures s) as [|f l] eqn:E; [congruence|].
    assert (It : inv (WState (w_folders s) (w_futures s) (w_futures s) (w_seen s))). { apply inv_moved; [exact I|reflexivity|]. exists []. rewrite app_nil_r. reflexivity. }
    destruct (arrive_ok _ f It) as (s' & Es & _); [cbn; rewrite E; left; reflexivity|]. exists s'. apply Next_batch; [exact Eb|rewrite E; discriminate|].
    apply Next_some with (f := f); [cbn; rewrite E; left; reflexivity|exact Es].
  - destruct (arrive_ok s f I) as (s' & Es & _); [rewrite Eb; left; reflexivity|]. exists s'. apply Next_some with (f := f); [rewrite Eb; left; reflexivity|exact Es].
Qed.

(** When nothing is in flight after the refill, nothing is queued either. *)
Lemma resume_end s : w_futures (resume mw s) = [] -> w_folders (resume mw s) = [].
Proof.
  unfold resume. destruct (refill mw (w_folders s) (w_futures s)) as [a b] eqn:E. cbn [w_futures w_folders]. intros ->.
  destruct (w_folders s) as [|f l]; cbn [refill] in E; [injection E as <- _; reflexivity|]. destruct (w_futures s) as [|g m]; cbn [length Nat.leb app] in E.
  - destruct (refill_perm l [f]) as [_ [r Er]]. rewrite E in Er. discriminate.
  - match type of E with (if ?b then _ else _) = _ => destruct b end; [|discriminate]. destruct (refill_perm l ((g :: m) ++ [f])) as [_ [r Er]]. cbn [app] in Er. rewrite E in Er. discriminate.
Qed.

Lemma next_seen s s' : next fs s (Running s') -> length (w_seen s') = S (length (w_seen s)).
Proof.
  intros H. remember (Running s') as o. revert s' Heqo. induction H as [s o E1 E2 H IH|s f s1 Hf E|s f e Hf E]; intros s' Eo; [|injection Eo as <-|discriminate].
  - apply (IH _ Eo).
  - unfold arrive in E. destruct (listdir fs f); cbn [bind] in E; [|discriminate]. injection E as <-. cbn [w_seen]. rewrite app_length. cbn. lia.
Qed.
Lemma resume_seen s : w_seen (resume mw s) = w_seen s.
Proof. unfold resume. destruct (refill _ _ _). reflexivity. Qed.
Lemma run_seen s n o : run fs mw s n o -> forall s', o = Running s' -> length (w_seen s') = n + length (w_seen s).
Proof.
  intros H. induction H as [s|s s1 n o H1 H2 IH|s s1 H1|s e H1]; intros s' E; [injection E as <-; reflexivity| |injection E as <-; apply next_seen, H1|discriminate].
  rewrite (IH _ E), resume_seen, (next_seen _ _ H1). lia.
Qed.

End Walk.
