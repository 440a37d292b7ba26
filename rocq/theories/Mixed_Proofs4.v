From Verif Require Import Base Iter_Model Iter_Spec Dict Loader_Order_Model Config_Model Combined_Model Combined_Spec Combined_Proofs Combined_Proofs2 Passes_Model.
From Verif Require Import Resume_Proofs Passes_Proofs Sampler_Proofs Mixed_Model Mixed_Spec Mixed_Proofs Mixed_Proofs2.
From Coq Require Import QArith.
Local Open Scope nat_scope.
Local Ltac Zify.zify_post_hook ::= idtac.

(** ** Batches of one dataset *)
Section Streams.
Context {A : Type} (g : mcfg A) (Hg : mcfg_ok g) (src : A -> nat) (Ha : g_all g = false) (Hps : g_method g = PerStream).
Implicit Types s : cit A.
Definition one_src (l : list A) : Prop := exists k, Forall (fun x => src x = k) l.

Lemma stream_step bs s x s1 : Inv s -> tagged src s ->
  c_next (g_rng g) (g_all g) (g_method g) bs (g_ws g) s = Combined_Model.Yield x s1 ->
  Inv s1 /\ tagged src s1 /\ c_cur s1 = Some (src x) /\
  (c_inb s1 = 1 \/ (c_cur s = Some (src x) /\ c_inb s < bs /\ c_inb s1 = S (c_inb s))) /\
  (forall k, c_cur s = Some k -> c_inb s < bs -> src x = k /\ c_inb s1 = S (c_inb s)).
Proof.
  intros HI T E. pose proof (next_ok g Hg bs s HI) as N. rewrite E in N. destruct N as (k & l & Hk & Hi & I1 & Hc).
  destruct (tagged_step src s k x l s1 T Hk Hi) as (T1 & Hs). split; [exact I1|]. split; [exact T1|].
  rewrite Ha, Hps in E. unfold c_next in E. cbn [get_index] in E.
  destruct (match c_cur s with Some k0 => if bs <=? c_inb s then None else Some k0 | None => None end) as [k0|] eqn:Ec.
  - assert (Hcur : c_cur s = Some k0 /\ c_inb s < bs).
    { destruct (c_cur s) as [k1|]; [|discriminate]. destruct (bs <=? c_inb s) eqn:Eb; [discriminate|]. injection Ec as ->. split; [reflexivity|]. apply Nat.leb_gt. exact Eb. }
    destruct Hcur as (Hcur & Hlt).
    unfold get_sample in E. cbn [set_draw c_iters c_counts] in E. destruct (nth_error (c_iters s) k0) as [[|y r]|] eqn:Ey; try discriminate.
    destruct (length (c_counts s) <=? k0); [discriminate|]. cbn [fst snd] in E. injection E as -> <-. cbn [c_cur c_inb].
    assert (src x = k0). { pose proof (T k0 _ Ey) as F. inversion F; subst. reflexivity. }
    subst k0. split; [exact Hcur|]. split; [right; auto|]. intros k1 H1 _. rewrite Hcur in H1. injection H1 as <-. auto.
  - destruct (new_index (g_rng g) s) as [[k0 s0]|] eqn:En; [|discriminate]. cbn [bind fst snd] in E.
    assert (Hs0 : c_iters s0 = c_iters s /\ c_counts s0 = c_counts s).
    { destruct (new_index_ok (g_rng g) (proj1 Hg) s HI) as (k1 & s2 & En' & _ & ->). rewrite En in En'. injection En' as _ ->. split; reflexivity. }
    unfold get_sample in E. cbn [set_draw c_iters c_counts] in E. rewrite (proj1 Hs0), (proj2 Hs0) in E. destruct (nth_error (c_iters s) k0) as [[|y r]|] eqn:Ey; try discriminate.
    destruct (length (c_counts s) <=? k0); [discriminate|]. cbn [fst snd] in E. injection E as -> <-. cbn [c_cur c_inb].
    assert (src x = k0). { pose proof (T k0 _ Ey) as F. inversion F; subst. reflexivity. }
    subst k0. split; [reflexivity|]. split; [left; reflexivity|].
    intros k1 H1 H2. rewrite H1 in Ec. replace (bs <=? c_inb s) with false in Ec by lia. discriminate.
Qed.

Lemma stream_run bs : 1 <= bs -> forall n s run fin k, Inv s -> tagged src s -> c_cur s = Some k -> c_inb s <= bs ->
  c_steps g bs n s = Ok (run, fin) ->
  Forall (fun x => src x = k) (firstn (bs - c_inb s) (map fst run)) /\
  Forall one_src (pieces bs (skipn (bs - c_inb s) (map fst run))).
Proof.
  intros HB. induction n as [|n IH]; intros s run fin k HI T Hc Hb E; cbn [c_steps] in E.
  - injection E as <- _. cbn [map]. rewrite firstn_nil, skipn_nil, pieces_nil. split; constructor.
  - destruct (c_next (g_rng g) (g_all g) (g_method g) bs (g_ws g) s) as [x s1|s1|ex] eqn:En; [| |discriminate].
    2:{ injection E as <- _. cbn [map]. rewrite firstn_nil, skipn_nil, pieces_nil. split; constructor. }
    destruct (c_steps g bs n s1) as [[r1 f1]|] eqn:E1; [|discriminate]. cbn [bind fst snd] in E. injection E as <- _. cbn [map fst].
    destruct (stream_step bs s x s1 HI T En) as (I1 & T1 & C1 & _ & Hk).
    destruct (Nat.eq_dec (c_inb s) bs) as [Eb|Nb].
    + destruct (stream_step bs s x s1 HI T En) as (_ & _ & _ & [B1|(_ & Hlt & _)] & _); [|lia].
      destruct (IH s1 r1 f1 (src x) I1 T1 C1 ltac:(lia) E1) as (F1 & F2). rewrite B1 in F1, F2.
      rewrite Eb, Nat.sub_diag. cbn [firstn skipn]. split; [constructor|]. rewrite pieces_cons by (auto; discriminate).
      destruct bs as [|b]; [lia|]. cbn [Nat.sub] in F1, F2. rewrite Nat.sub_0_r in F1, F2. cbn [firstn skipn]. constructor; [|exact F2].
      exists (src x). constructor; [reflexivity|exact F1].
    + destruct (Hk k Hc ltac:(lia)) as (Hx & B1). destruct (IH s1 r1 f1 k I1 T1) as (F1 & F2); [rewrite C1, Hx; reflexivity|lia|exact E1|].
      rewrite B1 in F1, F2. replace (bs - c_inb s) with (S (bs - S (c_inb s))) by lia. cbn [firstn skipn]. split; [constructor; assumption|exact F2].
Qed.
Lemma stream_pieces bs n its rest run fin : 1 <= bs -> Inv (c_init its (g_ws g) rest) -> tagged src (c_init its (g_ws g) rest) ->
  c_steps g bs n (c_init its (g_ws g) rest) = Ok (run, fin) -> Forall one_src (pieces bs (map fst run)).
Proof.
  intros HB HI T E. destruct n as [|n]; cbn [c_steps] in E; [injection E as <- _; constructor|].
  destruct (c_next (g_rng g) (g_all g) (g_method g) bs (g_ws g) _) as [x s1|s1|ex] eqn:En; [| |discriminate].
  2:{ injection E as <- _. constructor. }
  destruct (c_steps g bs n s1) as [[r1 f1]|] eqn:E1; [|discriminate]. cbn [bind fst snd] in E. injection E as <- _. cbn [map fst].
  destruct (stream_step bs _ x s1 HI T En) as (I1 & T1 & C1 & [B1|(C & _)] & _); [|discriminate].
  destruct (stream_run bs HB n s1 r1 f1 (src x) I1 T1 C1 ltac:(lia) E1) as (F1 & F2). rewrite B1 in F1, F2.
  rewrite pieces_cons by (auto; discriminate). destruct bs as [|b]; [lia|]. cbn [Nat.sub] in F1, F2. rewrite Nat.sub_0_r in F1, F2. cbn [firstn skipn].
  constructor; [|exact F2]. exists (src x). constructor; [reflexivity|exact F1].
Qed.

Lemma m_iter_source bs w k d l : source g src -> k < g_members g -> m_iter g bs w k d = Ok l -> Forall (fun x => src x = k) l.
Proof.
  intros Hs Hk E. unfold m_iter in E. cbv zeta in E.
  assert (P : forall e, Forall (fun x => src x = k) (g_data g k e bs w)) by (intros e; apply Forall_forall; intros x Hx; eapply Hs; eauto).
  destruct (snd d) as [s|]; [|injection E as <-; apply P].
  destruct (negb _); [discriminate|]. destruct (_ <? _); [discriminate|]. destruct (replay_sampling _ _ _) as [idx|]; [|discriminate]. cbn [bind] in E.
  destruct (nth_error idx w) as [i|]; [|discriminate]. destruct (_ <=? _); [discriminate|]. injection E as <-.
  pose proof (P (sd_epoch s)) as Q. rewrite <- (firstn_skipn i) in Q. apply Forall_app in Q. apply Q.
Qed.

Lemma start_ok st w s : wf g st -> source g src -> m_start g st w = Ok s ->
  exists its rest, s = c_init its (g_ws g) rest /\ Inv s /\ tagged src s.
Proof.
  intros W Hs E. pose proof Hg as (Hrng & Hm & Hw & Hp & _). pose proof (start_counts g st w s W E) as Lc.
  unfold m_start in E. destruct (map_res _ _) as [its|] eqn:Ei; [|discriminate]. cbn [bind] in E. injection E as <-.
  assert (Li : length its = g_members g). { rewrite (map_res_length _ _ _ Ei), combine_length, seq_length, (proj1 W). apply Nat.min_id. }
  eexists _, _. split; [reflexivity|]. split.
  - apply (init_inv_restored (g_rng g) Hrng); [intros C; rewrite C in Li; cbn in Li; lia|rewrite Li; exact Hw|exact Hp|].
    intros l El. rewrite Li. cbn [c_counts c_init] in Lc. rewrite El in Lc. exact Lc.
  - intros k l Hk. cbn [c_iters c_init] in Hk. assert (Hkm : k < g_members g) by (rewrite <- Li; apply nth_error_Some; congruence).
    destruct (nth_error (m_mem st) k) as [d|] eqn:Ed; [|apply nth_error_None in Ed; pose proof (proj1 W); lia].
    pose proof (map_res_at _ _ _ Ei k (k, d) l (combine_nth_error _ _ k k d (nth_error_seq 0 _ _ Hkm) Ed) Hk) as M.
    cbn [fst snd] in M. eapply m_iter_source; eauto.
Qed.

Lemma op_bs o st st' : m_op g o st = Ok st' -> m_bs st = g_B g -> m_bs st' = g_B g.
Proof.
  intros E Hb. destruct o as [v| |obj]; cbn [m_op] in E.
  - destruct (m_visit g v st) as [[out s0]|] eqn:Ev; [|discriminate]. cbn [bind snd] in E. injection E as <-.
    unfold m_visit in Ev. cbv zeta in Ev. destruct (map_res _ _); [|discriminate]. cbn [bind] in Ev. injection Ev as _ <-. cbn [m_bs].
    unfold m_begin. destruct (m_restore st); exact Hb.
  - destruct (m_save g st) as [[ob s0]|] eqn:Ev; [|discriminate]. cbn [bind snd] in E. injection E as <-.
    unfold m_save in Ev. cbv zeta in Ev. destruct (map_res _ _); [|discriminate]. cbn [bind] in Ev. injection Ev as _ <-. exact Hb.
  - unfold m_load in E. cbv zeta in E. destruct (negb _ && _); [discriminate|]. injection E as <-. cbn [m_bs]. rewrite Ha. exact Hb.
Qed.
Lemma ops_bs : forall ops st st', m_ops g ops st = Ok st' -> m_bs st = g_B g -> m_bs st' = g_B g.
Proof.
  induction ops as [|o ops IH]; intros st st' E Hb; cbn [m_ops] in E; [injection E as <-; exact Hb|].
  destruct (m_op g o st) as [s|] eqn:Eo; [|discriminate]. cbn [bind] in E. eapply IH; [exact E|]. eapply op_bs; eauto.
Qed.

Theorem stream_batches v st out st' : wf g st -> m_bs st = g_B g -> source g src -> m_visit g v st = Ok (out, st') ->
  forall wb, In wb out -> one_src (snd wb).
Proof.
  intros W Hb Hs E wb Hin. pose proof Hg as (_ & _ & _ & _ & _ & HB & _).
  unfold m_visit in E. cbv zeta in E. destruct (map_res (m_run g v (m_begin st)) (seq 0 (g_nw g))) as [runs|] eqn:Er; [|discriminate].
  cbn [bind] in E. injection E as <- _. apply in_map_iff in Hin. destruct Hin as ([w b] & <- & Hin). cbn [fst snd].
  set (qs := map (fun r => pieces (g_B g) (fst r)) runs) in *.
  assert (Hq : In b (concat qs)).
  { eapply Permutation_in; [symmetry; apply serve_perm|]. apply in_or_app. left. apply in_map_iff. exists (w, b). split; [reflexivity|exact Hin]. }
  apply in_concat in Hq. destruct Hq as (q & Hq & Hbq). apply in_map_iff in Hq. destruct Hq as ([run fin] & <- & Hr). cbn [fst] in Hbq.
  destruct (map_res_In _ _ _ Er _ Hr) as (w0 & _ & Em). unfold m_run in Em. destruct (m_start g (m_begin st) w0) as [s|] eqn:Es; [|discriminate]. cbn [bind] in Em.
  destruct (start_ok _ _ _ (wf_begin g st W) Hs Es) as (its & rest & -> & HI & T).
  assert (Eb : m_bs (m_begin st) = g_B g) by (unfold m_begin; destruct (m_restore st); exact Hb). rewrite Eb in Em.
  pose proof (stream_pieces (g_B g) _ its rest run fin HB HI T Em) as F. rewrite Forall_forall in F. apply F.
  assert (Epm : forall (l : list (A * list nat)), pieces (g_B g) (map fst l) = map (map fst) (pieces (g_B g) l)).
  { intros l. remember (length l) as n eqn:En. revert l En. induction n as [n IHn] using (well_founded_induction lt_wf). intros l En.
    destruct l as [|x l]; [reflexivity|]. remember (x :: l) as L eqn:EL. rewrite (pieces_cons _ L) by (subst; auto; discriminate).
    rewrite (pieces_cons _ (map fst L)) by (subst; auto; discriminate). rewrite firstn_map, skipn_map.
    change (map (map fst) (firstn (g_B g) L :: pieces (g_B g) (skipn (g_B g) L))) with (map fst (firstn (g_B g) L) :: map (map fst) (pieces (g_B g) (skipn (g_B g) L))).
    rewrite (IHn (length (skipn (g_B g) L))); [reflexivity| |reflexivity]. rewrite skipn_length. subst L. cbn [length] in *. lia. }
  rewrite Epm. apply in_map. exact Hbq.
Qed.
End Streams.

(** ** The loaded dict *)
Lemma given_kept {A} (g : mcfg A) : g_inproc g = false -> forall ops st st', Forall (fun o => ~ is_load o) ops -> m_restore st = false ->
  m_ops g ops st = Ok st' -> m_given st' = m_given st.
Proof.
  intros Hi. induction ops as [|o ops IH]; intros st st' F R E; cbn [m_ops] in E; [injection E as <-; reflexivity|].
  inversion F; subst. destruct (m_op g o st) as [s|] eqn:Eo; [|discriminate]. cbn [bind] in E.
  assert (G : m_given s = m_given st /\ m_restore s = false).
  { destruct o as [v| |obj]; cbn [m_op] in Eo; [| |cbn in H1; tauto].
    - destruct (m_visit g v st) as [[out s0]|] eqn:Ev; [|discriminate]. cbn [bind snd] in Eo. injection Eo as <-.
      unfold m_visit in Ev. cbv zeta in Ev. destruct (map_res _ _); [|discriminate]. cbn [bind] in Ev. injection Ev as _ <-. cbn [m_given m_restore].
      unfold m_begin. rewrite R. cbn [m_shared m_given m_restore]. rewrite Hi. split; [destruct (m_given st); reflexivity|destruct v; reflexivity].
    - destruct (m_save g st) as [[ob s0]|] eqn:Ev; [|discriminate]. cbn [bind snd] in Eo. injection Eo as <-.
      unfold m_save in Ev. cbv zeta in Ev. destruct (map_res _ _); [|discriminate]. cbn [bind] in Ev. injection Ev as _ <-. split; [reflexivity|exact R]. }
  destruct G as (G1 & G2). rewrite (IH s st' H2 G2 E). exact G1.
Qed.

Lemma ops_epoch {A} (g : mcfg A) : forall ops st st', Forall (fun o => ~ is_load o) ops -> m_ops g ops st = Ok st' -> m_restore st = false ->
  m_epoch st' = m_epoch st + loops ops.
Proof.
  induction ops as [|o ops IH]; intros st st' F E R; cbn [m_ops] in E; [injection E as <-; cbn; lia|].
  inversion F; subst. destruct (m_op g o st) as [s|] eqn:Eo; [|discriminate]. cbn [bind] in E.
  assert (G : m_epoch s = m_epoch st + loops [o] /\ m_restore s = false).
  { destruct o as [v| |obj]; cbn [m_op] in Eo; [| |cbn in H1; tauto].
    - destruct (m_visit g v st) as [[out s0]|] eqn:Ev; [|discriminate]. cbn [bind snd] in Eo. injection Eo as <-.
      unfold m_visit in Ev. cbv zeta in Ev. destruct (map_res _ _); [|discriminate]. cbn [bind] in Ev. injection Ev as _ <-. cbn [m_epoch m_restore].
      unfold m_begin. rewrite R. cbn [m_epoch m_restore loops]. split; [reflexivity|destruct v; reflexivity].
    - destruct (m_save g st) as [[ob s0]|] eqn:Ev; [|discriminate]. cbn [bind snd] in Eo. injection Eo as <-.
      unfold m_save in Ev. cbv zeta in Ev. destruct (map_res _ _); [|discriminate]. cbn [bind] in Ev. injection Ev as _ <-. cbn [m_epoch m_restore loops]. split; [lia|exact R]. }
  destruct G as (G1 & G2). rewrite (IH s st' H2 E G2), G1. destruct o; cbn [loops]; lia.
Qed.
