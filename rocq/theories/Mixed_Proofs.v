From Verif Require Import Base Iter_Model Iter_Spec Dict Loader_Order_Model Config_Model Combined_Model Combined_Spec Combined_Proofs Combined_Proofs2 Passes_Model.
From Verif Require Import Resume_Proofs Passes_Proofs Sampler_Proofs Mixed_Model Mixed_Spec.
From Coq Require Import QArith.
Local Open Scope nat_scope.
Local Ltac Zify.zify_post_hook ::= idtac.

(** ** Lists *)
Lemma map_res_In {A B} (f : A -> res B) : forall l m, map_res f l = Ok m -> forall y, In y m -> exists x, In x l /\ f x = Ok y.
Proof.
  induction l as [|x l IH]; intros m E y Hy; cbn [map_res] in E.
  - injection E as <-. destruct Hy.
  - destruct (f x) as [z|] eqn:Ez; [|discriminate]. cbn [bind] in E. destruct (map_res f l) as [ms|] eqn:Em; [|discriminate].
    cbn [bind] in E. injection E as <-. destruct Hy as [<-|Hy]; [exists x; split; [left; reflexivity|exact Ez]|].
    destruct (IH ms eq_refl y Hy) as (x' & Hx & E'). exists x'. split; [right; exact Hx|exact E'].
Qed.
Lemma map_res_length {A B} (f : A -> res B) : forall l m, map_res f l = Ok m -> length m = length l.
Proof.
  induction l as [|x l IH]; intros m E; cbn [map_res] in E; [injection E as <-; reflexivity|].
  destruct (f x); [|discriminate]. cbn [bind] in E. destruct (map_res f l) eqn:Em; [|discriminate]. cbn [bind] in E.
  injection E as <-. cbn. f_equal. apply IH. reflexivity.
Qed.
Lemma map_res_total {A B} (f : A -> res B) : forall l, (forall x, In x l -> exists y, f x = Ok y) -> exists m, map_res f l = Ok m.
Proof.
  induction l as [|x l IH]; intros H; [exists []; reflexivity|]. cbn [map_res].
  destruct (H x (or_introl eq_refl)) as (y & ->). destruct IH as (m & ->); [intros z Hz; apply H; right; exact Hz|].
  exists (y :: m). reflexivity.
Qed.
Lemma map_res_at {A B} (f : A -> res B) : forall l m, map_res f l = Ok m -> forall i x y, nth_error l i = Some x -> nth_error m i = Some y -> f x = Ok y.
Proof.
  induction l as [|a l IH]; intros m E [|i] x y Hx Hy; try discriminate; cbn [map_res] in E;
    (destruct (f a) as [z|] eqn:Ez; [|discriminate]); cbn [bind] in E; (destruct (map_res f l) as [ms|] eqn:Em; [|discriminate]);
    cbn [bind] in E; injection E as <-; cbn in Hx, Hy.
  - congruence.
  - eapply IH; eauto.
Qed.

(** ** The iterator *)
Section Steps.
Context {A : Type} (g : mcfg A).
Implicit Types s : cit A.

Lemma get_index_counts m B s k s1 : get_index (g_rng g) m B s = Ok (k, s1) -> c_counts s1 = c_counts s.
Proof.
  assert (N : forall k s1, new_index (g_rng g) s = Ok (k, s1) -> c_counts s1 = c_counts s).
  { intros k0 s0 E. unfold new_index in E. destruct (negb _); [discriminate|]. destruct (Qle_bool _ _); [discriminate|]. injection E as <- <-. reflexivity. }
  intros E. destruct m; cbn [get_index] in E; [exact (N _ _ E)|].
  destruct (match c_cur s with Some k => if B <=? c_inb s then None else Some k | None => None end).
  - injection E as <- <-. reflexivity.
  - destruct (new_index (g_rng g) s) as [[k0 s0]|] eqn:En; [|discriminate]. cbn [bind fst snd] in E. injection E as <- <-.
    cbn. apply (N _ _ eq_refl).
Qed.
Lemma get_sample_counts k s x s1 : get_sample k s = Ok (x, s1) -> length (c_counts s1) = length (c_counts s).
Proof.
  unfold get_sample. destruct (nth_error (c_iters s) k) as [[|y l]|]; try discriminate.
  destruct (length (c_counts s) <=? k); [discriminate|]. intros E. injection E as <- <-. cbn. apply upd_length.
Qed.
Lemma exhaust_counts k s s1 : exhaust k s = Ok s1 -> c_counts s1 = c_counts s.
Proof. unfold exhaust. destruct (renormalise _); [|discriminate]. cbn [bind]. intros E. injection E as <-. reflexivity. Qed.
Lemma next_all_counts m B ws0 : forall fuel s x s', next_all (g_rng g) fuel m B ws0 s = Combined_Model.Yield x s' ->
  length (c_counts s') = length (c_counts s).
Proof.
  induction fuel as [|f IH]; intros s x s' E; cbn [next_all] in E; [discriminate|].
  destruct (left_indexes (c_alive s)) as [|k0 [|k1 lf]]; [discriminate| |].
  - destruct (get_sample k0 s) as [[y t]|[]] eqn:Eg; try discriminate. injection E as <- <-. exact (get_sample_counts _ _ _ _ Eg).
  - destruct (get_index (g_rng g) m B s) as [[k s1]|] eqn:Ei; [|discriminate].
    destruct (get_sample k s1) as [[y t]|e] eqn:Eg.
    + injection E as <- <-. cbn [snd]. rewrite (get_sample_counts _ _ _ _ Eg), (get_index_counts _ _ _ _ _ Ei). reflexivity.
    + destruct e; try discriminate. destruct (exhaust k s1) as [s2|] eqn:Ex; [|discriminate].
      rewrite (IH _ _ _ E), (exhaust_counts _ _ _ Ex), (get_index_counts _ _ _ _ _ Ei). reflexivity.
Qed.
Lemma c_next_counts bs s x s' : c_next (g_rng g) (g_all g) (g_method g) bs (g_ws g) s = Combined_Model.Yield x s' ->
  length (c_counts s') = length (c_counts s).
Proof.
  unfold c_next. destruct (g_all g); [apply next_all_counts|].
  destruct (get_index (g_rng g) (g_method g) bs s) as [[k s1]|] eqn:Ei; [|discriminate].
  destruct (get_sample k s1) as [[y t]|[]] eqn:Eg; try discriminate. intros E. injection E as <- <-.
  cbn [snd]. rewrite (get_sample_counts _ _ _ _ Eg), (get_index_counts _ _ _ _ _ Ei). reflexivity.
Qed.
Lemma c_steps_counts bs : forall n s run fin, c_steps g bs n s = Ok (run, fin) ->
  Forall (fun xc => length (snd xc) = length (c_counts s)) run /\ length (c_counts (fst fin)) = length (c_counts s).
Proof.
  induction n as [|n IH]; intros s run fin E; cbn [c_steps] in E.
  - injection E as <- <-. split; [constructor|reflexivity].
  - destruct (c_next _ _ _ _ _ s) as [x s1|s1|e] eqn:En; [|injection E as <- <-; split; [constructor|reflexivity]|discriminate].
    destruct (c_steps g bs n s1) as [[run' fin']|] eqn:Es; [|discriminate]. cbn [bind fst snd] in E. injection E as <- <-.
    destruct (IH _ _ _ Es) as (F & L). pose proof (c_next_counts _ _ _ _ En) as C. rewrite C in *. split; [|exact L].
    constructor; [exact C|exact F].
Qed.

(** One call from a good state. *)
Context (Hg : mcfg_ok g).
Lemma next_ok bs s : Inv s ->
  match c_next (g_rng g) (g_all g) (g_method g) bs (g_ws g) s with
  | Combined_Model.Yield x s' => exists k l, nth_error (c_iters s) k = Some (x :: l) /\ c_iters s' = upd k (fun _ => l) (c_iters s) /\
                    Inv s' /\ c_counts s' = upd k S (c_counts s)
  | Combined_Model.Stop _ => exists k, nth_error (c_iters s) k = Some [] /\ (g_all g = true -> Forall (fun l => l = []) (c_iters s))
  | Combined_Model.Raise _ => False
  end.
Proof.
  intros HI. destruct Hg as (Hrng & _). destruct (g_all g) eqn:Ea.
  - pose proof (c_next_all_ok (g_rng g) Hrng (g_method g) bs (g_ws g) s HI) as G.
    destruct (c_next _ _ _ _ _ s); cbn [step_ok] in G; auto.
    destruct HI as (L & _ & _ & N & _). pose proof (nalive_le (c_alive s)).
    destruct (c_iters s) as [|l0 r] eqn:Ei; [cbn in *; lia|]. exists 0. split; [|auto]. inversion G; subst. reflexivity.
  - pose proof (c_next_first_ok (g_rng g) Hrng (g_method g) bs (g_ws g) s HI) as G.
    destruct (c_next _ _ _ _ _ s); auto. destruct G as (k & _ & Hk). exists k. split; [exact Hk|discriminate].
Qed.

Lemma c_steps_ok bs : forall n s, Inv s ->
  exists run s' e, c_steps g bs n s = Ok (run, (s', e)) /\ Inv s' /\ takes (c_iters s) (map fst run) (c_iters s') /\
    after (g_rng g) (g_all g) (g_method g) bs (g_ws g) (length run) s = Some (map fst run, s') /\
    if e then length run < n /\ (exists k, nth_error (c_iters s') k = Some []) /\ (g_all g = true -> Forall (fun l => l = []) (c_iters s')) /\
              (exists s'', c_next (g_rng g) (g_all g) (g_method g) bs (g_ws g) s' = Combined_Model.Stop s'')
    else length run = n.
Proof.
  induction n as [|n IH]; intros s HI; cbn [c_steps].
  - exists [], s, false. split; [reflexivity|]. split; [exact HI|]. split; [constructor|]. split; reflexivity.
  - pose proof (next_ok bs s HI) as G. destruct (c_next _ _ _ _ _ s) as [x s1|s1|e] eqn:En; [| |contradiction].
    + destruct G as (k & l & Hk & Hi & I1 & Hc). destruct (IH s1 I1) as (run & s' & e & E & I' & T & F & R).
      rewrite E. cbn [bind fst snd]. exists ((x, c_counts s1) :: run), s', e. split; [reflexivity|]. split; [exact I'|].
      split; [cbn [map fst]; econstructor; [exact Hk|]; rewrite <- Hi; exact T|].
      split; [cbn [length after map fst]; rewrite En, F; reflexivity|].
      destruct e; cbn [length]; [|lia]. destruct R as (R1 & R2). split; [lia|exact R2].
    + exists [], s, true. destruct G as (k & Hk & Ha). split; [reflexivity|]. split; [exact HI|]. split; [constructor|].
      split; [reflexivity|]. split; [cbn; lia|]. split; [exists k; exact Hk|]. split; [exact Ha|]. eauto.
Qed.

(** More calls continue. *)
Lemma c_steps_app bs : forall a b s run s', c_steps g bs a s = Ok (run, (s', false)) ->
  c_steps g bs (a + b) s = bind (c_steps g bs b s') (fun r => Ok (run ++ fst r, snd r)).
Proof.
  induction a as [|a IH]; intros b s run s' E; cbn [c_steps Nat.add] in *.
  - injection E as <- <-. destruct (c_steps g bs b s) as [[r f]|]; reflexivity.
  - destruct (c_next _ _ _ _ _ s) as [x s1|s1|e]; try discriminate.
    destruct (c_steps g bs a s1) as [[run' fin']|] eqn:Es; [|discriminate]. cbn [bind fst snd] in E. injection E as <- ->.
    rewrite (IH b s1 run' s' Es). destruct (c_steps g bs b s') as [[r f]|]; reflexivity.
Qed.
End Steps.

(** ** Histories *)
Section Hist.
Context {A : Type} (g : mcfg A) (Hg : mcfg_ok g).

Definition wf (st : mstate) : Prop :=
  length (m_mem st) = g_members g /\
  forall d, m_given st = Some d -> Forall (fun wc => length (snd wc) = g_members g) d.

Lemma wf_init : wf (m_init g).
Proof. split; [apply repeat_length|]. cbn. discriminate. Qed.
Lemma wf_begin st : wf st -> wf (m_begin st).
Proof. intros (H1 & H2). unfold m_begin. destruct (m_restore st); split; cbn; rewrite ?map_length; auto. Qed.

Lemma Forall_dset {B} (P : nat * B -> Prop) k v d : Forall P d -> P (k, v) -> Forall P (dset k v d).
Proof.
  intros F Hv. induction F as [|[k' v'] d Hx F IH]; cbn; [repeat constructor; exact Hv|].
  destruct (Nat.eqb_spec k' k) as [->|H]; constructor; auto.
Qed.

Lemma start_counts st w s : wf st -> m_start g st w = Ok s -> length (c_counts s) = g_members g.
Proof.
  intros (H1 & H2) E. unfold m_start in E. destruct (map_res _ _) as [its|] eqn:Em; [|discriminate]. cbn [bind] in E.
  injection E as <-. apply map_res_length in Em. rewrite combine_length, seq_length, H1, Nat.min_id in Em.
  cbn. destruct (m_given st) as [d|] eqn:Ed; [|rewrite repeat_length; exact Em].
  destruct (dget w d) as [l|] eqn:El; [|rewrite repeat_length; exact Em].
  apply dget_In in El. specialize (H2 d eq_refl). rewrite Forall_forall in H2. exact (H2 _ El).
Qed.

Lemma store_counts nw : forall bs c d, Forall (fun b : list (A * list nat) => b <> [] /\ Forall (fun xc => length (snd xc) = g_members g) b) bs ->
  Forall (fun wc => length (snd wc) = g_members g) d -> Forall (fun wc => length (snd wc) = g_members g) (store nw c bs d).
Proof.
  induction bs as [|b bs IH]; intros c d F Fd; cbn [store]; [exact Fd|]. inversion F as [|? ? [Hne Hb] Fb]; subst.
  apply IH; [exact Fb|]. apply Forall_dset; [exact Fd|]. cbn [snd]. unfold batch_counts.
  destruct (exists_last Hne) as (b0 & x & ->). rewrite map_app. cbn [map]. rewrite last_last.
  apply Forall_app in Hb. destruct Hb as [_ Hb]. inversion Hb; subst. assumption.
Qed.

Lemma runs_batches v st runs : wf st -> map_res (m_run g v st) (seq 0 (g_nw g)) = Ok runs ->
  forall ts, Forall (fun b => b <> [] /\ Forall (fun xc => length (snd xc) = g_members g) b)
    (map snd (fst (serve ts (map (fun r => pieces (g_B g) (fst r)) runs)))).
Proof.
  intros W E ts. destruct Hg as (_ & _ & _ & _ & _ & HB & _). apply Forall_forall. intros b Hb.
  set (qs := map (fun r => pieces (g_B g) (fst r)) runs) in *.
  assert (Hin : In b (concat qs)).
  { eapply Permutation_in; [symmetry; apply (serve_perm ts qs)|]. apply in_or_app. left. exact Hb. }
  apply in_concat in Hin. destruct Hin as (q & Hq & Hbq). apply in_map_iff in Hq. destruct Hq as ([run fin] & <- & Hr).
  cbn [fst] in Hbq. split.
  - pose proof (pieces_nonempty (g_B g) run HB) as F. rewrite Forall_forall in F. exact (F b Hbq).
  - destruct (map_res_In _ _ _ E _ Hr) as (w & Hw & Er). unfold m_run in Er.
    destruct (m_start g st w) as [s|] eqn:Es; [|discriminate]. cbn [bind] in Er.
    destruct (c_steps_counts g _ _ _ _ _ Er) as (F & _). rewrite (start_counts _ _ _ W Es) in F.
    rewrite <- (concat_pieces (g_B g) run HB) in F. rewrite Forall_forall in F. apply Forall_forall. intros xc Hx.
    apply F. apply in_concat. exists b. auto.
Qed.

Lemma wf_visit v st out st' : wf st -> m_visit g v st = Ok (out, st') -> wf st'.
Proof.
  intros W E. unfold m_visit in E. cbv zeta in E.
  set (st1 := m_begin st) in *. assert (W1 : wf st1) by (apply wf_begin; exact W).
  destruct (map_res (m_run g v st1) (seq 0 (g_nw g))) as [runs|] eqn:Er; [|discriminate]. cbn [bind] in E.
  injection E as _ <-. destruct Hg as (_ & _ & _ & _ & Hnw & _).
  pose proof (map_res_length _ _ _ Er) as Lr. rewrite seq_length in Lr. destruct runs as [|r0 runs]; [cbn in Lr; lia|].
  assert (Hc0 : length (c_counts (fst (snd r0))) = g_members g).
  { destruct (map_res_In _ _ _ Er r0 (or_introl eq_refl)) as (w & Hw & E0). unfold m_run in E0.
    destruct (m_start g st1 w) as [s|] eqn:Es; [|discriminate]. cbn [bind] in E0. destruct r0 as [run fin].
    destruct (c_steps_counts g _ _ _ _ _ E0) as (_ & L). rewrite (start_counts _ _ _ W1 Es) in L. exact L. }
  split.
  - cbn [m_mem]. destruct (g_inproc g); [|apply W1]. rewrite map_length, combine_length, seq_length, (proj1 W1). apply Nat.min_id.
  - cbn [m_given]. intros d Ed. destruct (m_shared st1) eqn:Esh.
    + injection Ed as <-. apply store_counts; [exact (runs_batches v st1 _ W1 Er _)|].
      unfold m_counts. rewrite Esh. destruct (m_given st1) as [d0|] eqn:E0; [|constructor]. apply (proj2 W1). exact E0.
    + destruct (m_given st1) as [d0|] eqn:E0; [|discriminate]. injection Ed as <-. pose proof (proj2 W1 d0 E0) as F0.
      destruct (g_inproc g); [|exact F0]. destruct (dget 0 d0); [|exact F0]. apply Forall_dset; [exact F0|exact Hc0].
Qed.

Lemma wf_save st o st' : wf st -> m_save g st = Ok (o, st') -> wf st' /\ m_restore st' = m_restore st.
Proof.
  intros W E. unfold m_save in E. cbv zeta in E.
  destruct (map_res _ (combine (seq 0 (g_members g)) (m_mem st))) as [sds|] eqn:Em; [|discriminate]. cbn [bind] in E. injection E as <- <-.
  apply map_res_length in Em. rewrite combine_length, seq_length, (proj1 W), Nat.min_id in Em.
  split; [|reflexivity]. split; [|apply W]. cbn [m_mem]. rewrite map_length, combine_length, (proj1 W), Em. apply Nat.min_id.
Qed.
Lemma wf_load o st st' : wf st -> obj_ok (g_members g) o -> m_load g o st = Ok st' -> wf st'.
Proof.
  intros W (O1 & O2) E. unfold m_load in E. cbv zeta in E. destruct (_ && _); [discriminate|]. injection E as <-.
  split; cbn [m_mem m_given].
  - rewrite map_length, combine_length, seq_length, (proj1 W). apply Nat.min_id.
  - intros d Ed. injection Ed as <-. exact O1.
Qed.
Lemma visit_restore v st out st' : m_visit g v st = Ok (out, st') ->
  m_restore st' = match v with Whole => false | Part _ => m_restore st end.
Proof.
  intros E. unfold m_visit in E. cbv zeta in E. destruct (map_res _ _); [|discriminate]. cbn [bind] in E. injection E as _ <-.
  cbn [m_restore]. destruct v; [reflexivity|]. unfold m_begin. destruct (m_restore st) eqn:Er; [reflexivity|]. reflexivity.
Qed.
Lemma wf_op o st st' : wf st -> op_ok (g_members g) o -> m_op g o st = Ok st' -> wf st'.
Proof.
  intros W Ho E. destruct o as [v| |obj]; cbn [m_op] in E.
  - destruct (m_visit g v st) as [[out s]|] eqn:Ev; [|discriminate]. injection E as <-. exact (wf_visit _ _ _ _ W Ev).
  - destruct (m_save g st) as [[o s]|] eqn:Ev; [|discriminate]. injection E as <-. exact (proj1 (wf_save _ _ _ W Ev)).
  - exact (wf_load _ _ _ W Ho E).
Qed.
Lemma wf_ops : forall ops st st', wf st -> Forall (op_ok (g_members g)) ops -> m_ops g ops st = Ok st' -> wf st'.
Proof.
  induction ops as [|o ops IH]; intros st st' W F E; cbn [m_ops] in E; [injection E as <-; exact W|].
  inversion F; subst. destruct (m_op g o st) as [s|] eqn:Eo; [|discriminate]. cbn [bind] in E.
  apply (IH s st'); auto. eapply wf_op; eauto.
Qed.
Lemma ops_no_load : forall ops st st', Forall (fun o => ~ is_load o) ops -> m_ops g ops st = Ok st' -> m_restore st = false -> wf st ->
  m_restore st' = false.
Proof.
  induction ops as [|o ops IH]; intros st st' F E R W; cbn [m_ops] in E; [injection E as <-; exact R|].
  inversion F as [|? ? Ho F']; subst. destruct (m_op g o st) as [s|] eqn:Eo; [|discriminate]. cbn [bind] in E.
  apply (IH s st' F' E).
  - destruct o as [v| |obj]; cbn [m_op] in Eo; [| |cbn in Ho; tauto].
    + destruct (m_visit g v st) as [[out s0]|] eqn:Ev; [|discriminate]. injection Eo as <-. cbn [snd]. rewrite (visit_restore _ _ _ _ Ev). destruct v; auto.
    + destruct (m_save g st) as [[ob s0]|] eqn:Ev; [|discriminate]. injection Eo as <-. cbn [snd]. rewrite (proj2 (wf_save _ _ _ W Ev)). exact R.
  - apply (wf_op o st s W); [destruct o; cbn in *; tauto|exact Eo].
Qed.
Lemma ops_app : forall a b st, m_ops g (a ++ b) st = bind (m_ops g a st) (m_ops g b).
Proof.
  induction a as [|o a IH]; intros b st; [reflexivity|]. cbn [app m_ops]. destruct (m_op g o st) as [s|]; [|reflexivity]. cbn [bind]. apply IH.
Qed.

(** ** A loop that is not resumed *)
Definition fresh_iters (st : mstate) (w : nat) : list (list A) :=
  map (fun k => g_data g k (m_epoch st + 1) (m_bs st) w) (seq 0 (g_members g)).
Definition given_to (st : mstate) (w : nat) : option (list nat) :=
  match m_given st with Some d => dget w d | None => None end.
Lemma start_fresh st w : length (m_mem st) = g_members g -> m_restore st = false ->
  m_start g (m_begin st) w = Ok (c_init (fresh_iters st w) (g_ws g) (given_to st w)).
Proof.
  intros L R. unfold m_begin, m_start. rewrite R. cbn [m_bs m_mem m_given].
  assert (E : map_res (fun kd => m_iter g (m_bs st) w (fst kd) (snd kd))
     (combine (seq 0 (g_members g)) (map (fun d : nat * option sdict => set_ep (m_epoch st + 1) (fst d, None)) (m_mem st)))
     = Ok (fresh_iters st w)); [|rewrite E; reflexivity].
  apply map_res_nth.
  - unfold fresh_iters. rewrite combine_length, !map_length, seq_length, L. apply Nat.min_id.
  - intros i [k d] y H1 H2. unfold fresh_iters in H2. rewrite nth_error_map in H2.
    destruct (nth_error (seq 0 (g_members g)) i) as [k'|] eqn:Ek; [|discriminate]. cbn [option_map] in H2. injection H2 as <-.
    assert (Hi : i < g_members g) by (rewrite <- (seq_length (g_members g) 0); apply nth_error_Some; congruence).
    destruct (nth_error (m_mem st) i) as [d0|] eqn:Ed; [|apply nth_error_None in Ed; lia].
    rewrite (combine_nth_error (seq 0 (g_members g)) _ i k' (m_epoch st + 1, None)) in H1; [|exact Ek|rewrite nth_error_map, Ed; reflexivity].
    injection H1 as <- <-. reflexivity.
Qed.
Lemma fresh_Inv st w : wf st -> Inv (c_init (fresh_iters st w) (g_ws g) (given_to st w)).
Proof.
  intros (L & G). destruct Hg as (Hrng & Hm & Hw & Hp & _). unfold fresh_iters. apply (init_inv_restored (g_rng g) Hrng).
  - intros E. apply (f_equal (@length _)) in E. rewrite map_length, seq_length in E. cbn in E. lia.
  - rewrite map_length, seq_length. exact Hw.
  - exact Hp.
  - intros l E. rewrite map_length, seq_length. unfold given_to in E. destruct (m_given st) as [d|] eqn:Ed; [|discriminate].
    apply dget_In in E. specialize (G d eq_refl). rewrite Forall_forall in G. exact (G _ E).
Qed.

Lemma serve_whole {B} nw (qs : list (list B)) y : 1 <= nw -> length qs = nw -> length (concat qs) <= y ->
  Permutation (map snd (fst (serve (tasks nw 0 false (nw * y)) qs))) (concat qs).
Proof.
  intros Hnw L Hy. pose proof (serve_perm (tasks nw 0 false (nw * y)) qs) as P.
  pose proof (drained nw 0 qs Hnw L y Hy) as D. rewrite window_0 in D.
  assert (C : concat (snd (serve (tasks nw 0 false (nw * y)) qs)) = []).
  { clear -D. induction D as [|q l <- _ IH]; [reflexivity|exact IH]. }
  rewrite C, app_nil_r in P. symmetry. exact P.
Qed.

Lemma takes_all {B} (s : list (list B)) out rest : takes s out rest -> Forall (fun l => l = []) rest -> Permutation out (concat s).
Proof.
  intros T F. pose proof (takes_permutation _ _ _ T) as P.
  assert (C : concat rest = []). { clear -F. induction F as [|l r -> _ IH]; [reflexivity|exact IH]. }
  rewrite C, app_nil_r in P. exact P.
Qed.

Lemma whole_run st w : wf st -> m_restore st = false -> exists run fin, m_run g Whole (m_begin st) w = Ok (run, fin) /\ (g_all g = true -> Permutation (map fst run) (concat (fresh_iters st w))).
Proof.
  intros W R. unfold m_run. rewrite (start_fresh st w (proj1 W) R). cbn [bind].
  set (s := c_init _ _ _). assert (HI : Inv s) by (apply fresh_Inv; exact W).
  set (bs := m_bs _).
  destruct (c_steps_ok g Hg bs (S (length (concat (c_iters s)))) s HI) as (run & s' & e & E & _ & T & _ & F).
  exists run, (s', e). split; [destruct (g_inproc g); exact E|]. intros Ha.
  pose proof (Permutation_length (takes_permutation _ _ _ T)) as P. rewrite app_length, map_length in P.
  destruct e; [|lia]. destruct F as (_ & _ & F & _). apply (takes_all _ _ _ T (F Ha)).
Qed.

Theorem complete_mix st whole : wf st -> m_restore st = false -> g_all g = true -> splits g whole ->
  exists out st', m_visit g Whole st = Ok (out, st') /\ Permutation (got out) (flat_map whole (seq 0 (g_members g))).
Proof.
  intros W R Ha Sp. pose proof Hg as (_ & Hm & _ & _ & Hnw & HB & _).
  destruct (map_res_total (m_run g Whole (m_begin st)) (seq 0 (g_nw g))) as (runs & Er).
  { intros w _. destruct (whole_run st w W R) as (run & fin & E & _). eauto. }
  unfold m_visit. cbv zeta. rewrite Er. cbn [bind]. eexists _, _. split; [reflexivity|].
  set (qs := map _ runs). unfold got. rewrite map_map. cbn [snd].
  assert (L : m_latest (m_begin st) = 0 /\ m_restore (m_begin st) = false) by (unfold m_begin; rewrite R; split; reflexivity).
  destruct L as (-> & ->).
  assert (Lq : length qs = g_nw g) by (unfold qs; rewrite map_length, (map_res_length _ _ _ Er), seq_length; reflexivity).
  pose proof (serve_whole (g_nw g) qs (2 + length (concat qs)) Hnw Lq ltac:(lia)) as P.
  set (o := fst (serve _ _)) in *.
  assert (P2 : Permutation (concat (map (fun x => map fst (snd x)) o)) (concat (map (map fst) (concat qs)))).
  { rewrite <- (map_map snd (map fst)). apply concat_perm, Permutation_map, P. }
  rewrite P2. clear P2 P o.
  assert (E1 : concat (map (map fst) (concat qs)) = concat (map (fun r => map fst (fst r)) runs)).
  { unfold qs. clear -HB. induction runs as [|[run fin] runs IH]; [reflexivity|]. cbn [map concat fst].
    rewrite map_app, concat_app, IH. f_equal. rewrite <- concat_map, concat_pieces by exact HB. reflexivity. }
  rewrite E1. clear E1.
  transitivity (flat_map (fun w => concat (fresh_iters st w)) (seq 0 (g_nw g))).
  { clear Lq qs. revert runs Er. induction (seq 0 (g_nw g)) as [|w ws IH]; intros runs Er; cbn [map_res] in Er; [injection Er as <-; reflexivity|].
    destruct (whole_run st w W R) as (run & fin & E & P). rewrite E in Er. cbn [bind] in Er.
    destruct (map_res _ ws) as [rs|] eqn:Ers; [|discriminate]. cbn [bind] in Er. injection Er as <-. cbn [map concat flat_map fst].
    apply Permutation_app; [apply P; exact Ha|apply IH; reflexivity]. }
  unfold fresh_iters. set (f := fun k w => g_data g k (m_epoch st + 1) (m_bs st) w).
  transitivity (flat_map (fun k => flat_map (f k) (seq 0 (g_nw g))) (seq 0 (g_members g))).
  { clear. generalize (seq 0 (g_members g)) as ks. generalize (seq 0 (g_nw g)) as ws.
    induction ws as [|w ws IH]; intros ks; cbn [flat_map].
    - induction ks as [|k ks IHk]; [reflexivity|exact IHk].
    - rewrite IH. clear IH. rewrite concat_map_flat_map.
      assert (E : forall ks, Permutation (flat_map (fun k => f k w) ks ++ flat_map (fun k => flat_map (f k) ws) ks)
                         (flat_map (fun k => f k w ++ flat_map (f k) ws) ks)).
      { clear. induction ks as [|k ks IH]; [reflexivity|]. cbn [flat_map]. rewrite <- IH, <- !app_assoc. apply Permutation_app_head.
        rewrite !app_assoc. apply Permutation_app_tail, Permutation_app_comm. }
      apply E. }
  assert (Q : forall ks, (forall k, In k ks -> k < g_members g) -> Permutation (flat_map (fun k => flat_map (f k) (seq 0 (g_nw g))) ks) (flat_map whole ks)).
  { induction ks as [|k ks IH]; intros H; [reflexivity|]. cbn [flat_map]. apply Permutation_app; [|apply IH; intros; apply H; right; assumption].
    apply Sp. apply H. left; reflexivity. }
  apply Q. intros k Hk. apply in_seq in Hk. lia.
Qed.
End Hist.
