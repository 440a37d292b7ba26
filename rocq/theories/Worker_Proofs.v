From Coq Require Import Permutation Arith.
From Verif Require Import Base Worker_Model.
Local Ltac Zify.zify_post_hook ::= idtac.

Lemma set_same {A} (f : nat -> A) k v : set f k v k = v.
Proof. unfold set. rewrite Nat.eqb_refl. reflexivity. Qed.
Lemma set_other {A} (f : nat -> A) k v n : n <> k -> set f k v n = f n.
Proof. intros H. unfold set. replace (n =? k) with false by (symmetry; apply Nat.eqb_neq; exact H). reflexivity. Qed.

(** ** The queues *)
Definition cls (m d i : nat) : bool := i mod m =? d.
Lemma fill_spec m l : forall todo d, fill m l todo d = todo d ++ map Some (filter (cls m d) l).
Proof.
  induction l as [|i l IH]; intros todo d; cbn [fill filter]; [rewrite app_nil_r; reflexivity|]. rewrite IH. unfold cls at 2.
  destruct (Nat.eqb_spec (i mod m) d) as [E|E].
  - rewrite E, set_same, <- app_assoc. reflexivity.
  - rewrite set_other by congruence. reflexivity.
Qed.
Lemma queues_spec m n d : d < m -> queues m n d = map Some (filter (cls m d) (seq 0 n)) ++ [None].
Proof. intros H. unfold queues. replace (d <? m) with true by (symmetry; apply Nat.ltb_lt; exact H). rewrite fill_spec. reflexivity. Qed.

(** Lists with the same classes in the same order. *)
Lemma classes_perm m (l l' : list nat) : 0 < m -> (forall d, d < m -> filter (cls m d) l = filter (cls m d) l') -> Permutation l l'.
Proof.
  intros Hm H. apply (Permutation_count_occ Nat.eq_dec). intros x.
  assert (F : forall l, count_occ Nat.eq_dec l x = count_occ Nat.eq_dec (filter (cls m (x mod m)) l) x).
  { clear. induction l as [|a l IH]; [reflexivity|]. cbn [filter count_occ]. unfold cls at 1. destruct (Nat.eq_dec a x) as [->|N].
    - rewrite Nat.eqb_refl. cbn [count_occ]. destruct (Nat.eq_dec x x); [|congruence]. rewrite IH. reflexivity.
    - destruct (_ =? _); [|exact IH]. cbn [count_occ]. destruct (Nat.eq_dec a x); [congruence|exact IH]. }
  rewrite (F l), (F l'), H; [reflexivity|]. apply Nat.mod_upper_bound. lia.
Qed.

Definition somes (l : list (option nat)) : list nat := flat_map (fun o => match o with Some i => [i] | None => [] end) l.
Definition nones (l : list (option nat)) : nat := length (filter (fun o => match o with None => true | _ => false end) l).
Lemma somes_app a b : somes (a ++ b) = somes a ++ somes b.
Proof. unfold somes. apply flat_map_app. Qed.
Lemma nones_app a b : nones (a ++ b) = nones a + nones b.
Proof. unfold nones. rewrite filter_app, app_length. reflexivity. Qed.
Lemma somes_map l : somes (map Some l) = l.
Proof. induction l as [|a l IH]; [reflexivity|]. cbn. f_equal. exact IH. Qed.
Lemma nones_map l : nones (map Some l) = 0.
Proof. induction l as [|a l IH]; [reflexivity|]. exact IH. Qed.
Lemma nones_in l : In None l -> 1 <= nones l.
Proof. induction l as [|[i|] l IH]; cbn; intros H; [destruct H| |lia]. destruct H as [H|H]; [discriminate H|]. exact (IH H). Qed.

(** What a downloader has not yet handed on. *)
Definition held (b : option (nat * list nat)) : list nat := match b with Some (i, _) => [i] | None => [] end.

Lemma sum_ext (f g : nat -> nat) l : (forall x, In x l -> f x = g x) -> sum (map f l) = sum (map g l).
Proof. intros H. f_equal. apply map_ext_in. exact H. Qed.
Lemma sum_set (f : nat -> nat) g k l : NoDup l -> In k l -> (forall x, x <> k -> g x = f x) -> sum (map g l) + f k = sum (map f l) + g k.
Proof.
  intros N I H. induction l as [|a l IH]; [destruct I|]. inversion N as [|? ? Na Nl]; subst. cbn [map sum]. destruct I as [->|I].
  - rewrite (sum_ext g f l); [lia|]. intros x Hx. apply H. intros ->. contradiction.
  - specialize (IH Nl I). rewrite (H a); [lia|]. intros ->. contradiction.
Qed.

Lemma sum_ones k : forall z, sum (map (fun _ => 1) (seq z k)) = k.
Proof. induction k as [|k IH]; intros z; [reflexivity|]. cbn [seq map sum]. rewrite IH. reflexivity. Qed.

Section Inv.
Context (m : nat) (paths : nat -> list nat) (broken bad : nat -> bool) (remove : bool) (n : nat).
Hypothesis m_pos : 0 < m.
Notation step := (step m paths broken bad remove).
Notation steps := (steps m paths broken bad remove).

Definition pending (s : wk) (d : nat) : nat := nones (k_todo s d).

(** [dead]: with downloaders that died the inputs in their queues are lost. *)
Record inv (s : wk) : Prop := Inv {
  v_form : forall d, d < m -> (exists l, k_todo s d = map Some l ++ [None]) \/ (k_todo s d = [] /\ k_busy s d = None);
  v_order : forall d, d < m -> exists rest, filter (cls m d) (k_done s ++ somes (k_ready s)) ++ held (k_busy s d) ++ somes (k_todo s d) ++ rest = filter (cls m d) (seq 0 n) /\
    (k_dead s = 0 -> rest = []);
  v_nones : k_finished s + nones (k_ready s) + sum (map (pending s) (seq 0 m)) + k_dead s = m;
  v_later : forall a i b, k_ready s = a ++ Some i :: b -> In None b \/ (exists d, d < m /\ pending s d = 1) \/ 1 <= k_dead s;
  v_status : (k_status s = Ended <-> k_finished s = m);
  v_good : k_status s <> Failed -> Forall (fun i => bad i = false) (k_done s)
}.

Lemma filter_cls_one d i : d < m -> i mod m = d -> filter (cls m d) [i] = [i].
Proof. intros _ H. cbn. unfold cls. rewrite H, Nat.eqb_refl. reflexivity. Qed.
Lemma filter_cls_other d i : i mod m <> d -> filter (cls m d) [i] = [].
Proof. intros H. cbn. unfold cls. apply Nat.eqb_neq in H. rewrite H. reflexivity. Qed.

Lemma in_class d a i b : a ++ i :: b = filter (cls m d) (seq 0 n) -> i mod m = d.
Proof.
  intros E. assert (H : In i (filter (cls m d) (seq 0 n))) by (rewrite <- E; apply in_or_app; right; left; reflexivity).
  apply filter_In in H. destruct H as [_ H]. apply Nat.eqb_eq. exact H.
Qed.

Lemma inv_setup : inv (setup m n).
Proof.
  constructor; cbn.
  - intros d Hd. left. eexists. apply queues_spec. exact Hd.
  - intros d Hd. exists []. rewrite queues_spec by exact Hd. rewrite somes_app, somes_map. cbn. rewrite !app_nil_r. auto.
  - rewrite (sum_ext _ (fun _ => 1)).
    + rewrite Nat.add_0_r. apply sum_ones.
    + intros d Hd. apply in_seq in Hd. change (nones (queues m n d) = 1). rewrite queues_spec by lia. rewrite nones_app, nones_map. reflexivity.
  - intros a i b H. destruct a; discriminate H.
  - split; [discriminate|lia].
  - constructor.
Qed.

Lemma form_some s d i q : inv s -> d < m -> k_todo s d = Some i :: q -> exists l, q = map Some l ++ [None].
Proof.
  intros Hi Hd E. destruct (v_form s Hi d Hd) as [[l F]|[F _]]; [|congruence]. rewrite E in F. destruct l as [|j l]; [discriminate F|].
  injection F as _ ->. eauto.
Qed.
Lemma form_busy s d b : inv s -> d < m -> k_busy s d = Some b -> exists l, k_todo s d = map Some l ++ [None].
Proof. intros Hi Hd E. destruct (v_form s Hi d Hd) as [F|[_ F]]; [exact F|congruence]. Qed.

Lemma pending_one l : nones (map Some l ++ [None]) = 1.
Proof. rewrite nones_app, nones_map. reflexivity. Qed.

Lemma step_inv s s' : inv s -> step s s' -> inv s'.
Proof.
  intros Hi Hs. pose proof Hi as [Vf Vo Vn Vl Vs Vg]. inversion Hs as
    [d i q Hd Et Eb Ec|d i q Hd Et Eb Ec|d i p ps Hd Eb Er|d i p ps Hd Eb Er|d i Hd Eb|d q Hd Et Eb|i r Est Er Ec|i r Est Er Ec|r Est Er|p ps r Er|r Er]; subst s'.
  - (* take_cached *)
    destruct (form_some s d i q Hi Hd Et) as [l El].
    assert (P : forall x, x <> d -> pending (Wk (set (k_todo s) d q) (k_busy s) (k_dead s) (k_ready s ++ [Some i]) (k_finished s) (k_done s) (k_remove s) (k_cache s) (k_status s)) x = pending s x).
    { intros x Hx. unfold pending. cbn [k_todo]. rewrite set_other by exact Hx. reflexivity. }
    constructor; cbn [k_todo k_busy k_dead k_ready k_finished k_done k_remove k_cache k_status]; try assumption.
    + intros e He. destruct (Nat.eq_dec e d) as [->|N]; [rewrite set_same; left; eauto|rewrite set_other by exact N; apply Vf; exact He].
    + intros e He. destruct (Vo e He) as (rest & E & R). exists rest. split; [|exact R]. rewrite somes_app, (app_assoc (k_done s)), filter_app. change (somes [Some i]) with [i].
      destruct (Nat.eq_dec e d) as [->|N].
      * rewrite set_same. rewrite Et, Eb in E. rewrite Eb. change (somes (Some i :: q)) with (i :: somes q) in E. cbn [held app] in *.
        assert (Hc : i mod m = d) by (eapply in_class; exact E). rewrite filter_cls_one by assumption.
        rewrite <- app_assoc. exact E.
      * rewrite set_other by exact N. destruct (Vo d Hd) as (rd & Ed & _). rewrite Et, Eb in Ed. change (somes (Some i :: q)) with (i :: somes q) in Ed. cbn [app held] in Ed.
        assert (Hc : i mod m = d) by (eapply in_class; exact Ed). rewrite filter_cls_other by congruence. rewrite app_nil_r. exact E.
    + rewrite nones_app. change (nones [Some i]) with 0. rewrite (sum_ext _ (pending s)); [lia|]. intros x _. destruct (Nat.eq_dec x d) as [->|N]; [|apply P; exact N].
      unfold pending. cbn [k_todo]. rewrite set_same, Et, El. reflexivity.
    + intros a j b _. right. left. exists d. split; [exact Hd|]. unfold pending. cbn [k_todo]. rewrite set_same, El. apply pending_one.
  - (* take *)
    destruct (form_some s d i q Hi Hd Et) as [l El].
    constructor; cbn [k_todo k_busy k_dead k_ready k_finished k_done k_remove k_cache k_status]; try assumption.
    + intros e He. destruct (Nat.eq_dec e d) as [->|N]; [rewrite set_same; left; eauto|rewrite !set_other by exact N; apply Vf; exact He].
    + intros e He. destruct (Vo e He) as (rest & E & R). exists rest. split; [|exact R].
      destruct (Nat.eq_dec e d) as [->|N]; [|rewrite !set_other by exact N; exact E]. rewrite !set_same. rewrite Et, Eb in E. exact E.
    + rewrite (sum_ext _ (pending s)); [exact Vn|]. intros x _. unfold pending. cbn [k_todo]. destruct (Nat.eq_dec x d) as [->|N]; [|rewrite set_other by exact N; reflexivity].
      rewrite set_same, Et, El. reflexivity.
    + intros a j b E. destruct (Vl a j b E) as [H|[(e & He & P)|H]]; [auto| |auto]. right. left. exists e. split; [exact He|]. unfold pending in *. cbn [k_todo].
      destruct (Nat.eq_dec e d) as [->|N]; [|rewrite set_other by exact N; exact P]. rewrite set_same, El. apply pending_one.
  - (* copy *)
    constructor; cbn [k_todo k_busy k_dead k_ready k_finished k_done k_remove k_cache k_status]; try assumption.
    + intros e He. destruct (Nat.eq_dec e d) as [->|N]; [left; eapply form_busy; eassumption|]. rewrite set_other by exact N. apply Vf. exact He.
    + intros e He. destruct (Vo e He) as (rest & E & R). exists rest. split; [|exact R]. destruct (Nat.eq_dec e d) as [->|N]; [|rewrite set_other by exact N; exact E].
      rewrite set_same. rewrite Eb in E. exact E.
  - (* copy_raises *)
    destruct (form_busy s d _ Hi Hd Eb) as [l El].
    constructor; cbn [k_todo k_busy k_dead k_ready k_finished k_done k_remove k_cache k_status]; try assumption.
    + intros e He. destruct (Nat.eq_dec e d) as [->|N]; [rewrite !set_same; right; auto|rewrite !set_other by exact N; apply Vf; exact He].
    + intros e He. destruct (Vo e He) as (rest & E & R). destruct (Nat.eq_dec e d) as [->|N].
      * exists (held (k_busy s d) ++ somes (k_todo s d) ++ rest). rewrite !set_same. split; [exact E|discriminate].
      * exists rest. rewrite !set_other by exact N. split; [exact E|discriminate].
    + set (s' := Wk (set (k_todo s) d []) (set (k_busy s) d None) (S (k_dead s)) (k_ready s) (k_finished s) (k_done s) (k_remove s) (k_cache s) (k_status s)).
      assert (S1 : sum (map (pending s') (seq 0 m)) + pending s d = sum (map (pending s) (seq 0 m)) + pending s' d).
      { apply sum_set; [apply seq_NoDup|apply in_seq; lia|]. intros x Hx. unfold pending, s'. cbn [k_todo]. rewrite set_other by exact Hx. reflexivity. }
      replace (pending s d) with 1 in S1 by (unfold pending; rewrite El, pending_one; reflexivity).
      replace (pending s' d) with 0 in S1 by (unfold pending, s'; cbn [k_todo]; rewrite set_same; reflexivity). lia.
    + intros a j b _. right. right. lia.
  - (* put *)
    destruct (form_busy s d _ Hi Hd Eb) as [l El].
    constructor; cbn [k_todo k_busy k_dead k_ready k_finished k_done k_remove k_cache k_status]; try assumption.
    + intros e He. destruct (Nat.eq_dec e d) as [->|N]; [left; eauto|rewrite !set_other by exact N; apply Vf; exact He].
    + intros e He. destruct (Vo e He) as (rest & E & R). exists rest. split; [|exact R]. rewrite somes_app, (app_assoc (k_done s)), filter_app. change (somes [Some i]) with [i].
      destruct (Nat.eq_dec e d) as [->|N].
      * rewrite set_same. rewrite Eb in E. cbn [held app] in *.
        assert (Hc : i mod m = d) by (eapply in_class; exact E). rewrite filter_cls_one by assumption.
        rewrite <- app_assoc. exact E.
      * rewrite set_other by exact N. destruct (Vo d Hd) as (rd & Ed & _). rewrite Eb in Ed. cbn [app held] in Ed.
        assert (Hc : i mod m = d) by (eapply in_class; exact Ed). rewrite filter_cls_other by congruence. rewrite app_nil_r. exact E.
    + rewrite nones_app. change (nones [Some i]) with 0. rewrite Nat.add_0_r. exact Vn.
    + intros a j b _. right. left. exists d. split; [exact Hd|]. unfold pending. cbn [k_todo]. rewrite El. apply pending_one.
  - (* leave *)
    constructor; cbn [k_todo k_busy k_dead k_ready k_finished k_done k_remove k_cache k_status]; try assumption.
    + intros e He. destruct (Nat.eq_dec e d) as [->|N]; [rewrite set_same; right; auto|rewrite set_other by exact N; apply Vf; exact He].
    + intros e He. destruct (Vo e He) as (rest & E & R). exists rest. split; [|exact R]. rewrite somes_app. change (somes [None]) with (@nil nat). rewrite app_nil_r.
      destruct (Nat.eq_dec e d) as [->|N]; [|rewrite set_other by exact N; exact E]. rewrite set_same.
      destruct (v_form s Hi d Hd) as [[l F]|[F _]]; [|congruence]. rewrite Et in F. destruct l as [|j l]; [|discriminate F]. injection F as ->.
      rewrite Et in E. exact E.
    + set (s' := Wk (set (k_todo s) d []) (k_busy s) (k_dead s) (k_ready s ++ [None]) (k_finished s) (k_done s) (k_remove s) (k_cache s) (k_status s)).
      assert (S1 : sum (map (pending s') (seq 0 m)) + pending s d = sum (map (pending s) (seq 0 m)) + pending s' d).
      { apply sum_set; [apply seq_NoDup|apply in_seq; lia|]. intros x Hx. unfold pending, s'. cbn [k_todo]. rewrite set_other by exact Hx. reflexivity. }
      destruct (v_form s Hi d Hd) as [[l F]|[F _]]; [|congruence].
      replace (pending s d) with 1 in S1 by (unfold pending; rewrite F, pending_one; reflexivity).
      replace (pending s' d) with 0 in S1 by (unfold pending, s'; cbn [k_todo]; rewrite set_same; reflexivity).
      rewrite nones_app. change (nones [None]) with 1. lia.
    + intros a j b E. left. destruct (exists_last (l := b)) as (b' & x & ->).
      { intros ->. apply app_inj_tail in E. destruct E as [_ E]. discriminate E. }
      rewrite app_comm_cons, app_assoc in E. apply app_inj_tail in E. destruct E as [_ <-]. apply in_or_app. right. left. reflexivity.
  - (* work *)
    constructor; cbn [k_todo k_busy k_dead k_ready k_finished k_done k_remove k_cache k_status]; try assumption.
    + intros e He. destruct (Vo e He) as (rest & E & R). exists rest. split; [|exact R]. rewrite Er in E. change (somes (Some i :: r)) with (i :: somes r) in E.
      rewrite <- (app_assoc (k_done s)). exact E.
    + rewrite Er in Vn. exact Vn.
    + intros a j b E. apply (Vl (Some i :: a) j b). rewrite Er, E. reflexivity.
    + rewrite Est in Vs. exact Vs.
    + intros _. apply Forall_app. split; [apply Vg; congruence|]. constructor; [|constructor]. unfold succeeds in Ec. apply andb_prop in Ec. destruct Ec as [_ Ec].
      apply negb_true_iff in Ec. exact Ec.
  - (* work_raises *)
    constructor; cbn [k_todo k_busy k_dead k_ready k_finished k_done k_remove k_cache k_status]; try assumption.
    + intros e He. destruct (Vo e He) as (rest & E & R). exists rest. split; [|exact R]. rewrite Er in E. change (somes (Some i :: r)) with (i :: somes r) in E.
      rewrite <- (app_assoc (k_done s)). exact E.
    + rewrite Er in Vn. exact Vn.
    + intros a j b E. apply (Vl (Some i :: a) j b). rewrite Er, E. reflexivity.
    + rewrite Est in Vs. split; [discriminate|]. intros H. apply Vs in H. discriminate H.
    + congruence.
  - (* count *)
    constructor; cbn [k_todo k_busy k_dead k_ready k_finished k_done k_remove k_cache k_status]; try assumption.
    + intros e He. destruct (Vo e He) as (rest & E & R). exists rest. split; [|exact R]. rewrite Er in E. exact E.
    + rewrite Er in Vn. change (nones (None :: r)) with (S (nones r)) in Vn. change (pending {| k_todo := k_todo s; k_busy := k_busy s; k_dead := k_dead s; k_ready := r; k_finished := S (k_finished s); k_done := k_done s; k_remove := k_remove s; k_cache := k_cache s; k_status := if S (k_finished s) =? m then Ended else Running |}) with (pending s). lia.
    + intros a j b E. apply (Vl (None :: a) j b). rewrite Er, E. reflexivity.
    + destruct (Nat.eqb_spec (S (k_finished s)) m); [tauto|]. split; [discriminate|lia].
    + intros _. apply Vg. congruence.
  - (* unlink *) constructor; cbn [k_todo k_busy k_dead k_ready k_finished k_done k_remove k_cache k_status]; assumption.
  - (* unlinked *) constructor; cbn [k_todo k_busy k_dead k_ready k_finished k_done k_remove k_cache k_status]; assumption.
Qed.

Lemma steps_inv k s : steps (setup m n) k s -> inv s.
Proof. induction 1 as [|k s s' _ IH Hs]; [apply inv_setup|]. eapply step_inv; eassumption. Qed.

(** No input is passed twice, and only inputs of the worker, in the order of each downloader. *)
Lemma sub_order s d : inv s -> d < m -> exists rest, filter (cls m d) (k_done s) ++ rest = filter (cls m d) (seq 0 n).
Proof.
  intros Hi Hd. destruct (v_order s Hi d Hd) as (rest & E & _). rewrite filter_app, <- app_assoc in E. eauto.
Qed.
Lemma prefix_count s x : inv s -> count_occ Nat.eq_dec (k_done s) x <= count_occ Nat.eq_dec (seq 0 n) x.
Proof.
  intros Hi. assert (Hd : x mod m < m) by (apply Nat.mod_upper_bound; lia). destruct (sub_order s _ Hi Hd) as (rest & E).
  assert (F : forall l, count_occ Nat.eq_dec l x = count_occ Nat.eq_dec (filter (cls m (x mod m)) l) x).
  { clear. induction l as [|a l IH]; [reflexivity|]. cbn [filter count_occ]. unfold cls at 1. destruct (Nat.eq_dec a x) as [->|N].
    - rewrite Nat.eqb_refl. cbn [count_occ]. destruct (Nat.eq_dec x x); [|congruence]. rewrite IH. reflexivity.
    - destruct (_ =? _); [|exact IH]. cbn [count_occ]. destruct (Nat.eq_dec a x); [congruence|exact IH]. }
  rewrite (F (k_done s)), (F (seq 0 n)), <- E, count_occ_app. lia.
Qed.
Lemma done_once s : inv s -> NoDup (k_done s) /\ (forall x, In x (k_done s) -> x < n).
Proof.
  intros Hi. split.
  - apply (NoDup_count_occ Nat.eq_dec). intros x. pose proof (prefix_count s x Hi) as H. pose proof (proj1 (NoDup_count_occ Nat.eq_dec (seq 0 n)) (seq_NoDup n 0) x). lia.
  - intros x Hx. apply (count_occ_In Nat.eq_dec) in Hx. pose proof (prefix_count s x Hi) as H.
    assert (I : In x (seq 0 n)) by (apply (count_occ_In Nat.eq_dec); lia). apply in_seq in I. lia.
Qed.

Lemma sum_zero (f : nat -> nat) l x : sum (map f l) = 0 -> In x l -> f x = 0.
Proof. induction l as [|a l IH]; cbn; intros H I; [destruct I|]. destruct I as [->|I]; [lia|apply IH; [lia|exact I]]. Qed.

(** At the end all inputs have been passed. *)
Lemma ended_all s : inv s -> k_status s = Ended ->
  k_dead s = 0 /\ k_ready s = [] /\ (forall d, d < m -> k_todo s d = [] /\ k_busy s d = None) /\
  (forall d, d < m -> filter (cls m d) (k_done s) = filter (cls m d) (seq 0 n)).
Proof.
  intros Hi E. pose proof Hi as [Vf Vo Vn Vl Vs Vg]. apply Vs in E. 
  assert (Z : nones (k_ready s) = 0 /\ sum (map (pending s) (seq 0 m)) = 0 /\ k_dead s = 0) by lia. destruct Z as (Z1 & Z2 & Z3).
  assert (P : forall d, d < m -> pending s d = 0) by (intros d Hd; apply (sum_zero _ (seq 0 m)); [exact Z2|apply in_seq; lia]).
  assert (T : forall d, d < m -> k_todo s d = [] /\ k_busy s d = None).
  { intros d Hd. destruct (Vf d Hd) as [[l F]|F]; [|exact F]. specialize (P d Hd). unfold pending in P. rewrite F, pending_one in P. discriminate P. }
  assert (R : k_ready s = []).
  { destruct (k_ready s) as [|[i|] r] eqn:Er; [reflexivity| |cbn in Z1; discriminate Z1]. destruct (Vl [] i r eq_refl) as [H|[(d & Hd & H)|H]].
    - apply nones_in in H. cbn in Z1. unfold nones in H. lia.
    - rewrite P in H by exact Hd. discriminate H.
    - lia. }
  split; [exact Z3|]. split; [exact R|]. split; [exact T|]. intros d Hd. destruct (Vo d Hd) as (rest & Eo & Er). destruct (T d Hd) as [T1 T2].
  rewrite R, T1, T2, (Er Z3) in Eo. cbn in Eo. rewrite !app_nil_r in Eo. exact Eo.
Qed.

(** ** Termination *)
Definition weight (o : option nat) : nat := match o with Some i => 4 + 2 * length (paths i) | None => 2 end.
Definition ready_weight (o : option nat) : nat := match o with Some i => 2 + length (paths i) | None => 1 end.
Definition busy_weight (b : option (nat * list nat)) : nat := match b with Some (i, ps) => 3 + length (paths i) + length ps | None => 0 end.
Definition load (s : wk) (d : nat) : nat := sum (map weight (k_todo s d)) + busy_weight (k_busy s d).
Definition measure (s : wk) : nat :=
  sum (map (load s) (seq 0 m)) + sum (map ready_weight (k_ready s)) + sum (map (fun ps => 1 + length ps) (k_remove s)).

Lemma measure_load s s' d : d < m -> (forall x, x <> d -> load s' x = load s x) ->
  sum (map (load s') (seq 0 m)) + load s d = sum (map (load s) (seq 0 m)) + load s' d.
Proof. intros Hd H. apply sum_set; [apply seq_NoDup|apply in_seq; lia|exact H]. Qed.

Lemma step_measure s s' : step s s' -> measure s' < measure s.
Proof.
  intros Hs. remember s' as t eqn:Es in |- *. inversion Hs as
    [d i q Hd Et Eb Ec|d i q Hd Et Eb Ec|d i p ps Hd Eb Er|d i p ps Hd Eb Er|d i Hd Eb|d q Hd Et Eb|i r Est Er Ec|i r Est Er Ec|r Est Er|p ps r Er|r Er];
  match goal with H : _ = s' |- _ => rewrite <- H in Es; clear H Hs s' end; unfold measure.
  1-6: assert (O : forall x, x <> d -> load t x = load s x) by (intros x Hx; rewrite Es; unfold load; cbn [k_todo k_busy]; rewrite ?set_other by exact Hx; reflexivity);
    pose proof (measure_load s t d Hd O) as ML;
    assert (A : load s d = sum (map weight (k_todo s d)) + busy_weight (k_busy s d)) by reflexivity;
    assert (B : load t d = sum (map weight (k_todo t d)) + busy_weight (k_busy t d)) by reflexivity;
    rewrite ?Et, ?Eb in A; rewrite Es in B at 2 3; cbn [k_todo k_busy] in B; rewrite ?set_same, ?Eb in B;
    assert (Cr : k_remove t = k_remove s) by (rewrite Es; reflexivity); rewrite Cr;
    rewrite Es at 2; cbn [k_ready]; rewrite ?map_app, ?sum_app;
    cbn [map sum weight busy_weight ready_weight length] in *; lia.
  1-3: subst t; cbn [k_ready k_remove]; rewrite Er; cbn [map sum ready_weight];
    match goal with |- context [sum (map (load ?z) _)] => change (load z) with (load s) end; try (destruct remove); rewrite ?map_app, ?sum_app; cbn [map sum]; lia.
  all: subst t; cbn [k_ready k_remove]; rewrite Er; cbn [map sum length];
    match goal with |- context [sum (map (load ?z) _)] => change (load z) with (load s) end; lia.
Qed.

Lemma steps_bound k s : steps (setup m n) k s -> k + measure s <= measure (setup m n).
Proof. induction 1 as [|k s s' _ IH Hs]; [lia|]. apply step_measure in Hs. lia. Qed.

(** Something can be done until the worker has ended, unless a downloader died. *)
Lemma progress s : inv s -> k_status s = Running -> k_dead s = 0 -> exists s', step s s'.
Proof.
  intros Hi E Z. pose proof Hi as [Vf Vo Vn Vl Vs Vg].
  destruct (k_ready s) as [|[i|] r] eqn:Er.
  - assert (N : k_finished s <> m) by (intros H; apply Vs in H; congruence). cbn in Vn.
    assert (P : exists d, d < m /\ pending s d <> 0).
    { destruct (Exists_dec (fun d => pending s d <> 0) (seq 0 m)) as [H|H].
      - intros x. destruct (Nat.eq_dec (pending s x) 0); [right|left]; auto.
      - apply Exists_exists in H. destruct H as (d & Hd & H). apply in_seq in Hd. exists d. split; [lia|exact H].
      - exfalso. assert (sum (map (pending s) (seq 0 m)) = 0); [|lia]. rewrite (sum_ext _ (fun _ => 0)).
        + clear. induction (seq 0 m); cbn; auto.
        + intros x Hx. destruct (Nat.eq_dec (pending s x) 0) as [Ez|Ez]; [exact Ez|]. exfalso. apply H. apply Exists_exists. eauto. }
    destruct P as (d & Hd & P). destruct (Vf d Hd) as [[l F]|[F _]]; [|unfold pending in P; rewrite F in P; cbn in P; lia].
    destruct (k_busy s d) as [[i [|p ps]]|] eqn:Eb.
    + eexists. eapply put; eassumption.
    + destruct (broken p) eqn:Ep; eexists; [eapply copy_raises|eapply copy]; eassumption.
    + destruct l as [|i l]; cbn [map app] in F; [eexists; eapply leave; eassumption|].
      destruct (forallb (k_cache s) (paths i)) eqn:Ec; eexists; [eapply take_cached|eapply take]; eassumption.
  - destruct (succeeds paths bad s i) eqn:Ec; eexists; [eapply work|eapply work_raises]; eassumption.
  - eexists. eapply count; eassumption.
Qed.

(** ** Files *)
Record files (s : wk) : Prop := Files {
  f_cache : forall p, k_cache s p = true -> broken p = false;
  f_out : forall i, In i (k_done s) \/ In i (somes (k_ready s)) -> Forall (fun p => broken p = false) (paths i);
  f_busy : forall d i ps, k_busy s d = Some (i, ps) -> exists qs, paths i = qs ++ ps /\ Forall (fun p => broken p = false) qs
}.
Lemma step_files s s' : files s -> step s s' -> files s'.
Proof.
  intros [Fc Fo Fb] Hs. inversion Hs as
    [d i q Hd Et Eb Ec|d i q Hd Et Eb Ec|d i p ps Hd Eb Er|d i p ps Hd Eb Er|d i Hd Eb|d q Hd Et Eb|i r Est Er Ec|i r Est Er Ec|r Est Er|p ps r Er|r Er]; subst s';
  constructor; cbn [k_todo k_busy k_dead k_ready k_finished k_done k_remove k_cache k_status]; try assumption.
  - intros j [H|H]; [apply Fo; left; exact H|]. rewrite somes_app in H. apply in_app_or in H. destruct H as [H|[<-|[]]]; [apply Fo; right; exact H|].
    apply Forall_forall. intros p Hp. apply Fc. rewrite forallb_forall in Ec. apply Ec. exact Hp.
  - intros e j ps. destruct (Nat.eq_dec e d) as [->|N]; [rewrite set_same|rewrite set_other by exact N; apply Fb]. intros H. injection H as <- <-. exists []. auto.
  - intros x. destruct (Nat.eq_dec x p) as [->|N]; [auto|rewrite set_other by exact N; apply Fc].
  - intros e j qs. destruct (Nat.eq_dec e d) as [->|N]; [rewrite set_same|rewrite set_other by exact N; apply Fb]. intros H. injection H as <- <-.
    destruct (Fb d i (p :: ps) Eb) as (l & E & H). exists (l ++ [p]). rewrite <- app_assoc. split; [exact E|]. apply Forall_app. auto.
  - intros e j qs. destruct (Nat.eq_dec e d) as [->|N]; [rewrite set_same; discriminate|rewrite set_other by exact N; apply Fb].
  - intros j [H|H]; [apply Fo; left; exact H|]. rewrite somes_app in H. apply in_app_or in H. destruct H as [H|[<-|[]]]; [apply Fo; right; exact H|].
    destruct (Fb d i [] Eb) as (l & E & H). rewrite app_nil_r in E. rewrite E. exact H.
  - intros e j qs. destruct (Nat.eq_dec e d) as [->|N]; [rewrite set_same; discriminate|rewrite set_other by exact N; apply Fb].
  - intros j [H|H]; apply Fo; [left; exact H|]. rewrite somes_app in H. cbn in H. rewrite app_nil_r in H. right. exact H.
  - intros j [H|H]; apply Fo; rewrite Er; [|right; right; exact H]. apply in_app_or in H. destruct H as [H|[<-|[]]]; [left; exact H|right; left; reflexivity].
  - intros j [H|H]; apply Fo; rewrite Er; [|right; right; exact H]. apply in_app_or in H. destruct H as [H|[<-|[]]]; [left; exact H|right; left; reflexivity].
  - intros j [H|H]; apply Fo; rewrite Er; [left|right]; exact H.
  - intros x. destruct (Nat.eq_dec x p) as [->|N]; [rewrite set_same; discriminate|rewrite set_other by exact N; apply Fc].
Qed.
Lemma steps_files k s : steps (setup m n) k s -> files s.
Proof.
  induction 1 as [|k s s' _ IH Hs]; [|eapply step_files; eassumption]. constructor; cbn; [discriminate|intros i [[]|[]]|discriminate].
Qed.

(** With inputs that share no files, or files that are kept, the function finds its files. *)
Section Available.
Hypothesis apart : remove = true -> forall i j p, i < n -> j < n -> In p (paths i) -> In p (paths j) -> i = j.
Record avail (s : wk) : Prop := Avail {
  a_ready : forall i p, In i (somes (k_ready s)) -> In p (paths i) -> k_cache s p = true;
  a_busy : forall d i ps, d < m -> k_busy s d = Some (i, ps) -> exists qs, paths i = qs ++ ps /\ forall p, In p qs -> k_cache s p = true;
  a_gone : forall ps p, In ps (k_remove s) -> In p ps -> remove = true /\ exists i, In i (k_done s) /\ In p (paths i);
  a_status : k_status s <> Failed \/ exists i, In i (k_done s) /\ bad i = true
}.

Lemma held_new s d i ps : inv s -> d < m -> k_busy s d = Some (i, ps) -> i < n /\ ~ In i (k_done s).
Proof.
  intros Hi Hd E. destruct (v_order s Hi d Hd) as (rest & Eo & _). rewrite E in Eo. cbn [held app] in Eo.
  assert (Hc : i mod m = d) by (eapply in_class; exact Eo).
  assert (I : In i (filter (cls m d) (seq 0 n))) by (rewrite <- Eo; apply in_or_app; right; left; reflexivity).
  pose proof (NoDup_filter (cls m d) (seq_NoDup n 0)) as N. rewrite <- Eo in N. apply NoDup_remove_2 in N.
  apply filter_In in I. destruct I as [I _]. apply in_seq in I. split; [lia|]. intros H. apply N. apply in_or_app. left. apply filter_In.
  split; [apply in_or_app; left; exact H|]. unfold cls. apply Nat.eqb_eq. exact Hc.
Qed.
Lemma ready_new s i : inv s -> In i (somes (k_ready s)) -> i < n /\ ~ In i (k_done s).
Proof.
  intros Hi H. assert (Hd : i mod m < m) by (apply Nat.mod_upper_bound; lia). destruct (v_order s Hi _ Hd) as (rest & Eo & _).
  rewrite filter_app, <- app_assoc in Eo. pose proof (NoDup_filter (cls m (i mod m)) (seq_NoDup n 0)) as N. rewrite <- Eo in N.
  assert (C : cls m (i mod m) i = true) by (unfold cls; apply Nat.eqb_refl).
  assert (I2 : In i (filter (cls m (i mod m)) (somes (k_ready s)))) by (apply filter_In; auto).
  assert (I : In i (filter (cls m (i mod m)) (seq 0 n))) by (rewrite <- Eo; apply in_or_app; right; apply in_or_app; left; exact I2).
  apply filter_In in I. destruct I as [I _]. apply in_seq in I. split; [lia|]. intros Hd'.
  assert (I3 : In i (filter (cls m (i mod m)) (k_done s))) by (apply filter_In; auto).
  apply in_split in I3. destruct I3 as (a & b & Ea). rewrite Ea, <- app_assoc in N. cbn in N. apply NoDup_remove_2 in N. apply N.
  apply in_or_app. right. apply in_or_app. right. apply in_or_app. left. exact I2.
Qed.

Lemma step_avail s s' : inv s -> avail s -> step s s' -> avail s'.
Proof.
  intros Hi [Ar Ab Ag As] Hs. inversion Hs as
    [d i q Hd Et Eb Ec|d i q Hd Et Eb Ec|d i p ps Hd Eb Er|d i p ps Hd Eb Er|d i Hd Eb|d q Hd Et Eb|i r Est Er Ec|i r Est Er Ec|r Est Er|p ps r Er|r Er]; subst s';
  constructor; cbn [k_todo k_busy k_dead k_ready k_finished k_done k_remove k_cache k_status]; try assumption.
  - intros j p H Hp. rewrite somes_app in H. apply in_app_or in H. destruct H as [H|[<-|[]]]; [eapply Ar; eassumption|]. rewrite forallb_forall in Ec. apply Ec. exact Hp.
  - intros e j ps He. destruct (Nat.eq_dec e d) as [->|N]; [rewrite set_same|rewrite set_other by exact N; apply Ab; exact He]. intros H. injection H as <- <-. exists []. split; [reflexivity|intros p []].
  - intros j x H Hx. destruct (Nat.eq_dec x p) as [->|N]; [apply set_same|rewrite set_other by exact N; eapply Ar; eassumption].
  - intros e j qs He. destruct (Nat.eq_dec e d) as [->|N].
    + rewrite set_same. intros H. injection H as <- <-. destruct (Ab d i (p :: ps) Hd Eb) as (l & E & H). exists (l ++ [p]). rewrite <- app_assoc. split; [exact E|].
      intros x Hx. destruct (Nat.eq_dec x p) as [->|N]; [apply set_same|rewrite set_other by exact N]. apply in_app_or in Hx. destruct Hx as [Hx|[->|[]]]; [apply H; exact Hx|congruence].
    + rewrite set_other by exact N. intros H. destruct (Ab e j qs He H) as (l & E & H'). exists l. split; [exact E|]. intros x Hx.
      destruct (Nat.eq_dec x p) as [->|N']; [apply set_same|rewrite set_other by exact N'; apply H'; exact Hx].
  - intros e j qs He. destruct (Nat.eq_dec e d) as [->|N]; [rewrite set_same; discriminate|rewrite set_other by exact N; apply Ab; exact He].
  - intros j p H Hp. rewrite somes_app in H. apply in_app_or in H. destruct H as [H|[<-|[]]]; [eapply Ar; eassumption|].
    destruct (Ab d i [] Hd Eb) as (l & E & H). rewrite app_nil_r in E. apply H. rewrite <- E. exact Hp.
  - intros e j qs He. destruct (Nat.eq_dec e d) as [->|N]; [rewrite set_same; discriminate|rewrite set_other by exact N; apply Ab; exact He].
  - intros j p H Hp. rewrite somes_app in H. cbn in H. rewrite app_nil_r in H. eapply Ar; eassumption.
  - intros j p H Hp. apply (Ar j p); [rewrite Er; right; exact H|exact Hp].
  - intros qs p Hq Hp. assert (K : In qs (k_remove s) \/ (remove = true /\ qs = paths i)).
    { destruct remove; [apply in_app_or in Hq; destruct Hq as [Hq|[<-|[]]]; auto|auto]. }
    destruct K as [K|[K ->]].
    + destruct (Ag qs p K Hp) as (H & j & Hj & Hp'). split; [exact H|]. exists j. split; [apply in_or_app; left; exact Hj|exact Hp'].
    + split; [exact K|]. exists i. split; [apply in_or_app; right; left; reflexivity|exact Hp].
  - left. discriminate.
  - intros j p H Hp. apply (Ar j p); [rewrite Er; right; exact H|exact Hp].
  - intros qs p Hq Hp. destruct (Ag qs p Hq Hp) as (H & j & Hj & Hp'). split; [exact H|]. exists j. split; [apply in_or_app; left; exact Hj|exact Hp'].
  - right. exists i. split; [apply in_or_app; right; left; reflexivity|]. unfold succeeds in Ec.
    replace (forallb (k_cache s) (paths i)) with true in Ec; [apply negb_false_iff; exact Ec|]. symmetry. apply forallb_forall. intros p Hp. apply (Ar i p); [|exact Hp].
    rewrite Er. left. reflexivity.
  - intros j p H Hp. apply (Ar j p); [rewrite Er; exact H|exact Hp].
  - destruct As as [As|As]; [left|right; exact As]. destruct (S (k_finished s) =? m); discriminate.
  - intros j x H Hx. destruct (Nat.eq_dec x p) as [->|N]; [|rewrite set_other by exact N; eapply Ar; eassumption]. exfalso.
    destruct (Ag (p :: ps) p) as (Hr & k & Hk & Hp); [rewrite Er; left; reflexivity|left; reflexivity|].
    destruct (ready_new s j Hi H) as [Hj1 Hj2]. destruct (done_once s Hi) as [_ Hdn]. assert (j = k) by (eapply apart; eauto). subst k. contradiction.
  - intros e j qs He H. destruct (Ab e j qs He H) as (l & E & H'). exists l. split; [exact E|]. intros x Hx.
    destruct (Nat.eq_dec x p) as [->|N]; [|rewrite set_other by exact N; apply H'; exact Hx]. exfalso.
    destruct (Ag (p :: ps) p) as (Hr & k & Hk & Hp); [rewrite Er; left; reflexivity|left; reflexivity|].
    destruct (held_new s e j qs Hi He H) as [Hj1 Hj2]. destruct (done_once s Hi) as [_ Hdn].
    assert (j = k) by (eapply apart; eauto; rewrite E; apply in_or_app; left; exact Hx). subst k. contradiction.
  - intros qs x Hq Hx. destruct Hq as [<-|Hq]; [apply (Ag (p :: ps) x); [rewrite Er; left; reflexivity|right; exact Hx]|].
    apply (Ag qs x); [rewrite Er; right; exact Hq|exact Hx].
  - intros qs x Hq Hx. apply (Ag qs x); [rewrite Er; right; exact Hq|exact Hx].
Qed.
Lemma steps_avail k s : steps (setup m n) k s -> avail s.
Proof.
  intros H. induction H as [|k s s' Hs' IH Hs]; [|eapply step_avail; [eapply steps_inv; exact Hs'|exact IH|exact Hs]].
  constructor; cbn; [intros ? ? []|discriminate|intros ? ? []|left; discriminate].
Qed.
End Available.
End Inv.

(** ** Without downloaders *)
Lemma fake_nones f m : forall finished processed, finished < m -> m <= finished + f -> fake_loop f m [] finished processed = Ok processed.
Proof.
  induction f as [|f IH]; intros finished processed H1 H2; [lia|]. cbn [fake_loop]. destruct (Nat.eqb_spec (S finished) m); [reflexivity|]. apply IH; lia.
Qed.
Lemma fake_ok m items : 0 < m -> forall f processed, length items + m <= f -> fake_loop f m items 0 processed = Ok (processed ++ items).
Proof.
  intros Hm. induction items as [|i items IH]; intros f processed Hf.
  - rewrite app_nil_r. apply fake_nones; [exact Hm|cbn in Hf; lia].
  - destruct f as [|f]; [cbn in Hf; lia|]. cbn [fake_loop]. rewrite IH by (cbn in Hf; lia). rewrite <- app_assoc. reflexivity.
Qed.

(** ** The parent *)
Section Parent.
Context (workers : nat) (n : nat -> nat).
Let total := sum (map n (seq 0 workers)).

Lemma sends_weak k c l : sends k c l -> sends k 0 l.
Proof. intros H. inversion H as [|? c' l' H1 H2 H3|]; subst; [apply sends_nothing|apply sends_progress; [lia|assumption|assumption]|apply sends_end]. Qed.
Lemma sends_tail k c x l : sends k c (x :: l) -> sends k 0 l.
Proof. intros H. inversion H as [|? c' l' H1 H2 H3|]; subst; [eapply sends_weak; exact H3|apply sends_nothing]. Qed.
Lemma sends_head k c x l : sends k c (x :: l) -> x < k \/ x = k.
Proof. intros H. inversion H; subst; [left; lia|right; reflexivity]. Qed.

Lemma sum_le_eq (f g : nat -> nat) l : (forall x, In x l -> f x <= g x) -> sum (map f l) = sum (map g l) -> forall x, In x l -> f x = g x.
Proof.
  induction l as [|a l IH]; intros H E x I; [destruct I|]. cbn in E.
  assert (L : sum (map f l) <= sum (map g l)).
  { clear - H. induction l as [|b l IHl]; [cbn; lia|]. cbn. specialize (H b) as Hb. assert (f b <= g b) by (apply Hb; right; left; reflexivity).
    assert (sum (map f l) <= sum (map g l)); [|lia]. apply IHl. intros y [->|Hy]; apply H; [left; reflexivity|right; right; exact Hy]. }
  assert (Ha : f a <= g a) by (apply H; left; reflexivity).
  destruct I as [<-|I]; [lia|]. apply IH; [|lia|exact I]. intros y Hy. apply H. right. exact Hy.
Qed.

Lemma parent_returned ms : forall tracker,
  (forall w, w < workers -> tracker w <= n w) ->
  (forall w, w < workers -> sends (n w) 0 (counts w ms)) ->
  parent workers total tracker ms = Returned ->
  exists ms1 ms2, ms = ms1 ++ ms2 /\ ~ In Error ms1 /\ forall w, w < workers -> tracker w < n w -> In (n w) (counts w ms1).
Proof.
  induction ms as [|[w c|] ms IH]; intros tracker Ht Hs H; cbn [parent] in H; try discriminate.
  assert (Ht' : forall x, x < workers -> set tracker w c x <= n x).
  { intros x Hx. destruct (Nat.eq_dec x w) as [->|N]; [|rewrite set_other by exact N; apply Ht; exact Hx]. rewrite set_same.
    specialize (Hs w Hx). cbn [counts flat_map] in Hs. rewrite Nat.eqb_refl in Hs. cbn [app] in Hs. apply sends_head in Hs. lia. }
  destruct (Nat.eqb_spec (sum (map (set tracker w c) (seq 0 workers))) total) as [E|E].
  - exists [Progress w c], ms. split; [reflexivity|]. split; [intros [K|[]]; discriminate K|]. intros x Hx Hlt.
    assert (Q : set tracker w c x = n x).
    { apply (sum_le_eq _ _ (seq 0 workers)); [|exact E|apply in_seq; lia]. intros y Hy. apply Ht'. apply in_seq in Hy. lia. }
    destruct (Nat.eq_dec x w) as [->|N]; [|rewrite set_other in Q by exact N; lia]. rewrite set_same in Q. subst c. cbn. rewrite Nat.eqb_refl. left. reflexivity.
  - destruct (IH (set tracker w c) Ht') as (ms1 & ms2 & -> & Hne & Hin).
    + intros x Hx. specialize (Hs x Hx). cbn [counts flat_map] in Hs. destruct (w =? x); [cbn [app] in Hs; eapply sends_tail; exact Hs|exact Hs].
    + exact H.
    + exists (Progress w c :: ms1), ms2. split; [reflexivity|]. split; [intros [K|K]; [discriminate K|contradiction]|]. intros x Hx Hlt.
      destruct (Nat.eq_dec x w) as [->|N].
      * cbn [counts flat_map]. rewrite Nat.eqb_refl. cbn [app]. destruct (Nat.eq_dec c (n w)) as [->|Nc]; [left; reflexivity|right].
        apply Hin; [exact Hx|]. rewrite set_same. specialize (Ht' w Hx). rewrite set_same in Ht'. lia.
      * cbn [counts flat_map]. replace (w =? x) with false by (symmetry; apply Nat.eqb_neq; congruence). apply Hin; [exact Hx|]. rewrite set_other by exact N. exact Hlt.
Qed.

(** Once every worker has sent its end, the parent returns. *)
Lemma sends_end_last k c l : sends k c l -> In k l -> exists l', l = l' ++ [k].
Proof.
  induction 1 as [|c c' l H1 H2 H3 IH|c]; intros I; [destruct I| |exists []; reflexivity].
  destruct I as [->|I]; [lia|]. destruct (IH I) as [l' ->]. exists (c' :: l'). reflexivity.
Qed.
Lemma counts_app w a b : counts w (a ++ b) = counts w a ++ counts w b.
Proof. apply flat_map_app. Qed.

Fixpoint track (tracker : nat -> nat) (ms : list message) : nat -> nat :=
  match ms with [] => tracker | Progress w c :: ms' => track (set tracker w c) ms' | Error :: ms' => track tracker ms' end.
Lemma last_cons_default (l : list nat) : forall c z, last l c = last (c :: l) z.
Proof. induction l as [|a l IH]; intros c z; [reflexivity|]. change (last (c :: a :: l) z) with (last (a :: l) z). rewrite <- (IH a z), (IH a c). reflexivity. Qed.
Lemma track_last ms : forall tracker w, track tracker ms w = last (counts w ms) (tracker w).
Proof.
  induction ms as [|[w' c|] ms IH]; intros tracker w; cbn [track counts flat_map]; [reflexivity| |apply IH]. rewrite IH.
  destruct (Nat.eqb_spec w' w) as [->|N]; cbn [app].
  - rewrite set_same. change (flat_map _ ms) with (counts w ms). apply last_cons_default.
  - rewrite set_other by congruence. reflexivity.
Qed.
Lemma parent_end ms : forall tracker, ms <> [] -> ~ In Error ms -> sum (map (track tracker ms) (seq 0 workers)) = total -> parent workers total tracker ms = Returned.
Proof.
  induction ms as [|[w c|] ms IH]; intros tracker Hn He E; [congruence| |exfalso; apply He; left; reflexivity]. cbn [parent].
  destruct (Nat.eqb_spec (sum (map (set tracker w c) (seq 0 workers))) total) as [E'|E']; [reflexivity|]. apply IH; [|intros K; apply He; right; exact K|exact E].
  intros ->. cbn [track] in E. congruence.
Qed.
Lemma parent_complete ms : 0 < workers -> ~ In Error ms ->
  (forall w, w < workers -> sends (n w) 0 (counts w ms) /\ In (n w) (counts w ms)) ->
  parent workers total (fun _ => 0) ms = Returned.
Proof.
  intros Hw He H. apply parent_end; [|exact He|].
  - intros ->. destruct (H 0 Hw) as [_ []].
  - apply sum_ext. intros w Hi. apply in_seq in Hi. destruct (H w) as [Hs Hin]; [lia|]. rewrite track_last.
    destruct (sends_end_last _ _ _ Hs Hin) as [l' ->]. apply last_last.
Qed.

(** If a worker with inputs never sends its end, the parent does not return; it raises if and only if there was an error. *)
Lemma parent_not_returned ms w : w < workers -> 0 < n w -> ~ In (n w) (counts w ms) ->
  (forall w, w < workers -> sends (n w) 0 (counts w ms)) -> parent workers total (fun _ => 0) ms <> Returned.
Proof.
  intros Hw Hp Hni Hs H. destruct (parent_returned ms (fun _ => 0)) as (ms1 & ms2 & -> & _ & Hin); [intros; lia|exact Hs|exact H|].
  apply Hni. rewrite counts_app. apply in_or_app. left. apply Hin; assumption.
Qed.
Lemma parent_error ms : forall tracker, parent workers total tracker ms <> Returned ->
  parent workers total tracker ms = Raised <-> In Error ms.
Proof.
  induction ms as [|[w c|] ms IH]; intros tracker H; cbn [parent] in *.
  - split; [discriminate|intros []].
  - destruct (sum _ =? total); [congruence|]. rewrite (IH _ H). split; [right; assumption|intros [K|K]; [discriminate K|exact K]].
  - split; [left; reflexivity|reflexivity].
Qed.
End Parent.
