From Verif Require Import Base Iter_Model Iter_Spec Dict Loader_Order_Model Config_Model Combined_Model Combined_Spec Combined_Proofs Combined_Proofs2 Passes_Model.
From Verif Require Import Resume_Proofs Passes_Proofs Sampler_Proofs Mixed_Model Mixed_Spec Mixed_Proofs.
From Coq Require Import QArith.
Local Open Scope nat_scope.
Local Ltac Zify.zify_post_hook ::= idtac.

Section Count.
Context {A : Type} (g : mcfg A) (Hg : mcfg_ok g) (src : A -> nat).
Implicit Types s : cit A.

(** Counts after the samples [l]. *)
Definition vec (c0 : list nat) (l : list A) : list nat :=
  map (fun kc => snd kc + of_member src (fst kc) l) (combine (seq 0 (length c0)) c0).
Lemma vec_nth c0 l i : nth_error (vec c0 l) i = option_map (fun c => c + of_member src i l) (nth_error c0 i).
Proof.
  unfold vec. rewrite nth_error_map. destruct (nth_error c0 i) as [c|] eqn:E.
  - assert (i < length c0) by (apply nth_error_Some; congruence).
    rewrite (combine_nth_error (seq 0 (length c0)) c0 i i c); [reflexivity|rewrite nth_error_seq by assumption; reflexivity|exact E].
  - destruct (nth_error (combine (seq 0 (length c0)) c0) i) as [p|] eqn:E2; [|reflexivity].
    assert (i < length (combine (seq 0 (length c0)) c0)) by (apply nth_error_Some; congruence).
    rewrite combine_length, seq_length in H. apply nth_error_None in E. lia.
Qed.
Lemma vec_nil c0 : vec c0 [] = c0.
Proof. apply nth_error_ext. intros i. rewrite vec_nth. destruct (nth_error c0 i); cbn; [rewrite Nat.add_0_r|]; reflexivity. Qed.
Lemma of_member_app k l1 l2 : of_member src k (l1 ++ l2) = of_member src k l1 + of_member src k l2.
Proof. unfold of_member. rewrite filter_app, app_length. reflexivity. Qed.
Lemma vec_cons c0 k x l : src x = k -> vec (upd k S c0) l = vec c0 (x :: l).
Proof.
  intros Hs. apply nth_error_ext. intros i. rewrite !vec_nth. change (x :: l) with ([x] ++ l).
  destruct (Nat.eq_dec k i) as [<-|Hn].
  - rewrite nth_error_upd_eq. destruct (nth_error c0 k) as [c|]; [|reflexivity]. cbn [option_map]. f_equal. rewrite of_member_app.
    unfold of_member at 2. cbn [filter]. rewrite Hs, Nat.eqb_refl. cbn [length]. lia.
  - rewrite nth_error_upd_neq by exact Hn. destruct (nth_error c0 i) as [c|]; [|reflexivity]. cbn [option_map]. f_equal. rewrite of_member_app.
    unfold of_member at 2. cbn [filter]. rewrite Hs. destruct (Nat.eqb_spec k i); [contradiction|]. reflexivity.
Qed.

Definition tagged s : Prop := forall k l, nth_error (c_iters s) k = Some l -> Forall (fun x => src x = k) l.
Lemma tagged_step s k x l s1 : tagged s -> nth_error (c_iters s) k = Some (x :: l) -> c_iters s1 = upd k (fun _ => l) (c_iters s) ->
  tagged s1 /\ src x = k.
Proof.
  intros T E Hi. pose proof (T k _ E) as F. inversion F; subst. split; [|reflexivity]. intros j lj Hj. rewrite Hi in Hj.
  destruct (Nat.eq_dec (src x) j) as [<-|Hn].
  - rewrite nth_error_upd_eq, E in Hj. cbn in Hj. injection Hj as <-. assumption.
  - rewrite nth_error_upd_neq in Hj by exact Hn. apply T. exact Hj.
Qed.

Lemma steps_vec bs : forall n s run fin, Inv s -> tagged s -> c_steps g bs n s = Ok (run, fin) ->
  c_counts (fst fin) = vec (c_counts s) (map fst run) /\
  forall pre suf, run = pre ++ suf -> pre <> [] -> last (map snd pre) [] = vec (c_counts s) (map fst pre).
Proof.
  induction n as [|n IH]; intros s run fin HI T E; cbn [c_steps] in E.
  - injection E as <- <-. split; [symmetry; apply vec_nil|]. intros [|p pre] suf H Hne; [congruence|discriminate].
  - pose proof (next_ok g Hg bs s HI) as G. destruct (c_next _ _ _ _ _ s) as [x s1|s1|e]; [| |discriminate].
    + destruct (c_steps g bs n s1) as [[run' fin']|] eqn:Es; [|discriminate]. cbn [bind fst snd] in E. injection E as <- <-.
      destruct G as (k & l & Hk & Hi & I1 & Hc). destruct (tagged_step s k x l s1 T Hk Hi) as (T1 & Hs).
      destruct (IH s1 run' fin' I1 T1 Es) as (F1 & F2). rewrite Hc, (vec_cons _ k x _ Hs) in F1. split; [exact F1|].
      intros [|p pre] suf H Hne; [congruence|]. cbn [app] in H. injection H as <- H. cbn [map fst snd].
      destruct pre as [|p pre].
      * cbn. rewrite <- (vec_cons _ k x [] Hs), vec_nil. exact Hc.
      * change (last (map snd (p :: pre)) [] = vec (c_counts s) (x :: map fst (p :: pre))).
        rewrite (F2 (p :: pre) suf H) by discriminate. rewrite Hc. apply vec_cons. exact Hs.
    + injection E as <- <-. split; [symmetry; apply vec_nil|]. intros [|p pre] suf H Hne; [congruence|discriminate].
Qed.

(** ** The counts stored by the loader *)
Definition at_k (k : nat) (d : cdict) : nat := sum (map (fun wc => nth k (snd wc) 0) d).
Lemma at_k_dset k w v d : at_k k (dset w v d) + match dget w d with Some o => nth k o 0 | None => 0 end = at_k k d + nth k v 0.
Proof.
  unfold at_k. induction d as [|[w' v'] d IH]; cbn; [lia|]. destruct (Nat.eqb_spec w' w) as [->|H]; cbn; [lia|].
  destruct (dget w d); cbn in *; lia.
Qed.
Lemma store_app nw : forall bs c d b, store nw c (bs ++ [b]) d = dset ((c + length bs) mod nw) (@batch_counts A b) (store nw c bs d).
Proof.
  induction bs as [|b0 bs IH]; intros c d b; cbn [app store length]; [rewrite Nat.add_0_r; reflexivity|].
  rewrite IH. f_equal. f_equal. lia.
Qed.
Lemma from_worker_app {B} w (l1 l2 : list (nat * B)) : from_worker w (l1 ++ l2) = from_worker w l1 ++ from_worker w l2.
Proof. unfold from_worker. rewrite filter_app, map_app. reflexivity. Qed.

Lemma zeros_nth n k : k < n -> nth_error (repeat 0 n) k = Some 0.
Proof. intros H. destruct (nth_error (repeat 0 n) k) as [x|] eqn:E; [apply nth_error_In, repeat_spec in E; congruence|]. apply nth_error_None in E. rewrite repeat_length in E. lia. Qed.

Lemma store_ok nw z (out : list (nat * list (A * list nat))) :
  (forall j wb, nth_error out j = Some wb -> fst wb = j mod nw) ->
  Forall (fun wb => snd wb <> []) out ->
  (forall w pre suf, from_worker w out = pre ++ suf -> pre <> [] -> last (map snd (concat pre)) [] = vec (repeat 0 z) (map fst (concat pre))) ->
  (forall w, dget w (store nw 0 (map snd out) []) =
     match from_worker w out with [] => None | _ => Some (vec (repeat 0 z) (map fst (concat (from_worker w out)))) end) /\
  (forall k, k < z -> at_k k (store nw 0 (map snd out) []) = of_member src k (map fst (concat (map snd out)))).
Proof.
  induction out as [|[w b] out IH] using rev_ind; intros H1 H2 H3; [split; [reflexivity|]; intros; reflexivity|].
  apply Forall_app in H2. destruct H2 as [H2 Hb]. inversion Hb as [|? ? Hb' _]; subst. cbn [snd] in Hb'. clear Hb.
  destruct IH as (I1 & I2).
  { intros j wb Hj. apply H1. rewrite nth_error_app1; [exact Hj|]. apply nth_error_Some. congruence. }
  { exact H2. }
  { intros v pre suf Hv Hne. apply (H3 v pre (suf ++ from_worker v [(w, b)])); [|exact Hne]. rewrite from_worker_app, Hv, app_assoc. reflexivity. }
  assert (Hw : w = length out mod nw). { apply (H1 (length out) (w, b)). rewrite nth_error_app2, Nat.sub_diag by lia. reflexivity. }
  rewrite map_app. cbn [map]. rewrite store_app, map_length. cbn [Nat.add snd]. rewrite <- Hw.
  set (d := store nw 0 (map snd out) []) in *.
  assert (Fw : from_worker w (out ++ [(w, b)]) = from_worker w out ++ [b]).
  { rewrite from_worker_app. f_equal. unfold from_worker. cbn. rewrite Nat.eqb_refl. reflexivity. }
  assert (Bc : batch_counts b = vec (repeat 0 z) (map fst (concat (from_worker w out ++ [b])))).
  { rewrite <- (H3 w (from_worker w out ++ [b]) []).
    - unfold batch_counts. rewrite concat_app. cbn [concat]. rewrite app_nil_r, map_app.
      destruct (exists_last Hb') as (b0 & x & ->). rewrite (map_app _ b0 [x]). cbn [map]. rewrite app_assoc, !last_last. reflexivity.
    - rewrite app_nil_r. exact Fw.
    - destruct (from_worker w out); discriminate. }
  split.
  - intros v. rewrite dget_dset. destruct (Nat.eqb_spec w v) as [<-|Hn].
    + rewrite Fw, Bc. destruct (from_worker w out); reflexivity.
    + rewrite I1. rewrite from_worker_app. assert (E0 : from_worker v [(w, b)] = []).
      { unfold from_worker. cbn. destruct (Nat.eqb_spec w v); [contradiction|reflexivity]. }
      rewrite E0, app_nil_r. reflexivity.
  - intros k Hk. pose proof (at_k_dset k w (batch_counts b) d) as E. set (X := at_k k (dset w (batch_counts b) d)) in *. clearbody X.
    rewrite I1, (I2 k Hk), Bc in E.
    assert (Nv : forall l, nth k (vec (repeat 0 z) l) 0 = of_member src k l).
    { intros l. pose proof (vec_nth (repeat 0 z) l k) as V. rewrite zeros_nth in V by exact Hk. cbn [option_map Nat.add] in V.
      apply nth_error_nth with (d := 0) in V. exact V. }
    assert (Eo : match match from_worker w out with [] => None | _ => Some (vec (repeat 0 z) (map fst (concat (from_worker w out)))) end with
                 | Some o => nth k o 0 | None => 0 end = of_member src k (map fst (concat (from_worker w out)))).
    { destruct (from_worker w out); [reflexivity|]. apply Nv. }
    rewrite Eo, Nv, concat_app, map_app, of_member_app in E. cbn [concat] in E. rewrite app_nil_r in E.
    rewrite concat_app, map_app, of_member_app. cbn [concat]. rewrite app_nil_r. lia.
Qed.

(** Adding up. *)
Lemma add_counts_nth : forall a b k, nth_error (add_counts a b) k = option_map (fun x => x + nth k b 0) (nth_error a k).
Proof.
  induction a as [|x a IH]; intros [|y b] [|k]; cbn; try reflexivity.
  - f_equal. lia.
  - destruct (nth_error a k); cbn; f_equal; lia.
  - apply IH.
Qed.
Lemma saved_counts_nth z (d : cdict) k : k < z -> nth_error (saved_counts z (map snd d)) k = Some (at_k k d).
Proof.
  intros Hk. unfold saved_counts.
  assert (G : forall d a, nth_error (fold_left add_counts (map snd d) a) k = option_map (fun x => x + at_k k d) (nth_error a k)).
  { induction d0 as [|[w c] d0 IH]; intros a; cbn [map fold_left snd].
    - unfold at_k. cbn. destruct (nth_error a k); cbn; [rewrite Nat.add_0_r|]; reflexivity.
    - rewrite IH, add_counts_nth. destruct (nth_error a k); cbn; [|reflexivity]. f_equal. unfold at_k. cbn. lia. }
  rewrite G, zeros_nth by exact Hk. reflexivity.
Qed.

(** ** States saved without any load before *)
Definition unloaded (st : mstate) : Prop :=
  m_restore st = false /\ m_given st = None /\ m_shared st = false /\ m_bs st = g_B g /\ length (m_mem st) = g_members g /\
  (g_inproc g = false -> m_it st = None).
Lemma unloaded_init : unloaded (m_init g).
Proof. unfold unloaded. cbn. rewrite repeat_length. auto 7. Qed.
Lemma unloaded_wf st : unloaded st -> wf g st.
Proof. intros (_ & H & _ & _ & L & _). split; [exact L|]. rewrite H. discriminate. Qed.
Lemma unloaded_op o st st' : unloaded st -> ~ is_load o -> m_op g o st = Ok st' -> unloaded st'.
Proof.
  intros U Hl E. pose proof (unloaded_wf st U) as W. pose proof U as (H1 & H2 & H3 & H4 & H5 & H6).
  assert (W' : wf g st') by (apply (wf_op g Hg o st st' W); [destruct o; cbn in *; tauto|exact E]).
  destruct o as [v| |obj]; cbn [m_op] in E; [| |cbn in Hl; tauto].
  - destruct (m_visit g v st) as [[out s0]|] eqn:Ev; [|discriminate]. cbn [bind snd] in E. injection E as <-.
    pose proof (visit_restore g v st _ _ Ev) as R. unfold m_visit in Ev. cbv zeta in Ev. destruct (map_res _ _); [|discriminate].
    cbn [bind] in Ev. injection Ev as _ <-. unfold unloaded. cbn [m_restore] in R.
    unfold m_begin in *. rewrite H1 in *. cbn [m_restore m_given m_shared m_bs m_mem m_it m_own m_counts] in *.
    rewrite H2. split; [destruct v; auto|]. split; [reflexivity|]. split; [reflexivity|]. split; [exact H4|]. split; [apply W'|].
    intros Hi. rewrite Hi. apply H6, Hi.
  - destruct (m_save g st) as [[ob s0]|] eqn:Ev; [|discriminate]. cbn [bind snd] in E. injection E as <-.
    unfold m_save in Ev. cbv zeta in Ev. destruct (map_res _ _); [|discriminate]. cbn [bind] in Ev. injection Ev as _ <-.
    unfold unloaded. cbn [m_restore m_given m_shared m_bs m_mem m_it]. split; [exact H1|]. split; [exact H2|]. split; [exact H3|]. split; [exact H4|]. split; [apply W'|exact H6].
Qed.
Lemma unloaded_ops : forall ops st st', unloaded st -> Forall (fun o => ~ is_load o) ops -> m_ops g ops st = Ok st' -> unloaded st'.
Proof.
  induction ops as [|o ops IH]; intros st st' U F E; cbn [m_ops] in E; [injection E as <-; exact U|].
  inversion F; subst. destruct (m_op g o st) as [s|] eqn:Eo; [|discriminate]. cbn [bind] in E. refine (IH s st' _ H2 E). exact (unloaded_op o st s U H1 Eo).
Qed.

(** ** One worker *)
Lemma serve_one {B} : forall ts (q : list B), Forall (eq 0) ts -> fst (serve ts [q]) = map (pair 0) (firstn (length ts) q).
Proof.
  induction ts as [|t ts IH]; intros q F; [reflexivity|]. inversion F; subst. cbn [serve nth_error length].
  destruct q as [|b q].
  - rewrite IH by assumption. destruct (length ts); reflexivity.
  - cbn [upd tl]. specialize (IH q H2). destruct (serve ts [q]) as [o qs]. cbn [fst] in *. rewrite IH. reflexivity.
Qed.
Lemma tasks_one latest restore n : Forall (eq 0) (tasks 1 latest restore n).
Proof.
  apply Forall_forall. intros t Ht. unfold tasks in Ht. apply in_map_iff in Ht. destruct Ht as (j & <- & _).
  unfold task_worker. destruct latest; cbn [Nat.ltb Nat.leb Nat.sub seq length andb].
  - rewrite andb_false_r. apply eq_sym. apply Nat.mod_1_r.
  - rewrite andb_false_r. symmetry. apply Nat.mod_1_r.
Qed.
Lemma serve_pieces {B} bsz latest restore n (run : list B) : 1 <= bsz ->
  fst (serve (tasks 1 latest restore n) [pieces bsz run]) = map (pair 0) (firstn n (pieces bsz run)).
Proof. intros HB. rewrite serve_one by apply tasks_one. unfold tasks. rewrite map_length, seq_length. reflexivity. Qed.
Lemma pieces_all {B} bsz n (run : list B) : 1 <= bsz -> length run <= n * bsz -> firstn n (pieces bsz run) = pieces bsz run.
Proof.
  intros HB Hl. pose proof (pieces_skipn bsz run n HB) as S. rewrite (skipn_all2 run) in S by nia. cbn in S.
  rewrite <- (firstn_skipn n (pieces bsz run)) at 2. rewrite S. symmetry. apply app_nil_r.
Qed.
Lemma from_zero {B} (l : list B) : from_worker 0 (map (pair 0) l) = l.
Proof. unfold from_worker. induction l as [|x l IH]; [reflexivity|]. cbn. f_equal. exact IH. Qed.

Lemma fresh_tagged st w : source g src -> tagged (c_init (fresh_iters g st w) (g_ws g) (given_to st w)).
Proof.
  intros Hs k l E. cbn [c_iters c_init] in E. unfold fresh_iters in E. rewrite nth_error_map in E.
  destruct (nth_error (seq 0 (g_members g)) k) as [k'|] eqn:Ek; [|discriminate]. cbn in E. injection E as <-.
  assert (k < g_members g) by (rewrite <- (seq_length (g_members g) 0); apply nth_error_Some; congruence).
  rewrite nth_error_seq in Ek by assumption. injection Ek as <-. apply Forall_forall. intros x Hx. eapply Hs; eauto.
Qed.

Theorem visit_counts v st out st' : source g src -> unloaded st -> m_visit g v st = Ok (out, st') ->
  (forall j wb, nth_error out j = Some wb -> fst wb = j mod g_nw g) ->
  exists o st2, m_save g st' = Ok (o, st2) /\ o_epoch o = m_epoch st + 1 /\ o_latest o = (length out - 1) mod g_nw g /\
    (forall k, k < g_members g -> exists s : sdict, nth_error (o_members o) k = Some s /\ sd_samples s = of_member src k (got out) /\
       sd_workers s = g_nw g /\ sd_batch s = g_B g /\ (g_inproc g = false -> sd_epoch s = o_epoch o)) /\
    (forall w c, dget w (o_counts o) = Some c -> forall k, k < g_members g -> nth_error c k = Some (of_member src k (concat (from_worker w out)))).
Proof.
  intros Hs U E Ht. pose proof (unloaded_wf st U) as W. pose proof U as (H1 & H2 & H3 & H4 & H5 & H6).
  pose proof Hg as (_ & Hm & _ & _ & Hnw & HB & Hip).
  assert (U' : unloaded st'). { apply (unloaded_op (Loop v) st st' U); [exact (fun x => x)|]. cbn [m_op]. rewrite E. reflexivity. }
  unfold m_visit in E. cbv zeta in E. destruct (map_res (m_run g v (m_begin st)) (seq 0 (g_nw g))) as [runs|] eqn:Er; [|discriminate].
  cbn [bind] in E. injection E as <- Est.
  set (qs := map _ runs) in *. set (n := match v with Whole => _ | Part n => n end) in *.
  set (o := fst (serve (tasks _ _ _ n) qs)) in *.
  assert (Hrun : forall w run fin, nth_error runs w = Some (run, fin) -> w < g_nw g /\ exists m,
      c_steps g (m_bs (m_begin st)) m (c_init (fresh_iters g st w) (g_ws g) (given_to st w)) = Ok (run, fin) /\
      (g_inproc g = true -> length run <= n * g_B g)).
  { intros w run fin Hw. assert (Lw : w < g_nw g). { rewrite <- (seq_length (g_nw g) 0), <- (map_res_length _ _ _ Er). apply nth_error_Some. congruence. }
    split; [exact Lw|]. pose proof (map_res_at _ _ _ Er w w (run, fin) (nth_error_seq _ _ _ Lw) Hw) as R.
    unfold m_run in R. rewrite (start_fresh g st w (proj1 W) H1) in R. cbn [bind] in R. eexists. split; [exact R|].
    intros Hi. rewrite Hi in R. destruct v as [|p].
    - assert (Ein : In (pieces (g_B g) run) qs) by (unfold qs; apply in_map_iff; exists (run, fin); split; [reflexivity|eapply nth_error_In; eauto]).
      apply in_split in Ein. destruct Ein as (qa & qb & Eq). unfold n. rewrite Eq, concat_app. cbn [concat]. rewrite !app_length.
      pose proof (concat_pieces (g_B g) run HB) as Ec. rewrite <- Ec at 1.
      assert (Lc : forall l : list (list (A * list nat)), Forall (fun b => length b <= g_B g) l -> length (concat l) <= length l * g_B g).
      { induction 1; cbn [concat length]; [lia|]. rewrite app_length. lia. }
      pose proof (Lc (pieces (g_B g) run)) as L. assert (length (concat (pieces (g_B g) run)) <= length (pieces (g_B g) run) * g_B g).
      { apply L. apply Forall_forall. intros b Hb. apply In_nth_error in Hb. destruct Hb as (i & Hi'). 
        pose proof (pieces_skipn (g_B g) run i HB) as Sk. assert (Hd : exists tl, skipn i (pieces (g_B g) run) = b :: tl).
        { apply nth_error_split in Hi'. destruct Hi' as (l1 & l2 & -> & <-). exists l2. rewrite skipn_app, skipn_all, Nat.sub_diag. reflexivity. }
        destruct Hd as (tl & Hd). rewrite Hd in Sk. pose proof (pieces_firstn (g_B g) (skipn (g_B g * i) run) 1 HB) as P1.
        rewrite <- Sk in P1. cbn [firstn concat] in P1. rewrite app_nil_r in P1. rewrite P1, Nat.mul_1_r. apply firstn_le_length. }
      rewrite (Hip Hi). nia.
    - unfold n. destruct (c_steps_ok g Hg (m_bs (m_begin st)) (p * g_B g) _ (fresh_Inv g Hg st w W)) as (r' & s' & e & R' & _ & _ & _ & Le).
      rewrite R in R'. injection R' as -> _. destruct e; lia. }
  assert (C0 : forall w, c_counts (c_init (fresh_iters g st w) (g_ws g) (given_to st w)) = repeat 0 (g_members g)).
  { intros w. unfold given_to. rewrite H2. cbn [c_counts c_init]. unfold fresh_iters. rewrite map_length, seq_length. reflexivity. }
  assert (Hv : forall w run fin, nth_error runs w = Some (run, fin) -> c_counts (fst fin) = vec (repeat 0 (g_members g)) (map fst run) /\
     forall pre suf, run = pre ++ suf -> pre <> [] -> last (map snd pre) [] = vec (repeat 0 (g_members g)) (map fst pre)).
  { intros w run fin Hw. destruct (Hrun w run fin Hw) as (_ & m & R & _). rewrite <- (C0 w).
    exact (steps_vec _ m _ _ _ (fresh_Inv g Hg st w W) (fresh_tagged st w Hs) R). }
  assert (Ht' : forall j wb, nth_error o j = Some wb -> fst wb = j mod g_nw g).
  { intros j wb Hj. specialize (Ht j (fst wb, map fst (snd wb))). cbn [fst] in Ht. apply Ht. rewrite nth_error_map, Hj. reflexivity. }
  assert (Hq : forall w, from_worker w o <> [] -> exists run fin m, nth_error runs w = Some (run, fin) /\ from_worker w o = firstn m (pieces (g_B g) run)).
  { intros w Hne. destruct (nth_error runs w) as [[run fin]|] eqn:Ew.
    - exists run, fin. pose proof (serve_queue (tasks (g_nw g) (m_latest (m_begin st)) (m_restore (m_begin st)) n) qs w (pieces (g_B g) run)) as Q.
      unfold qs in Q at 1. rewrite nth_error_map, Ew in Q. specialize (Q eq_refl). fold o in Q. unfold o in *. destruct (serve _ qs) as [o0 q0].
      cbn [fst] in *. eexists. split; [reflexivity|]. apply Q.
    - exfalso. apply Hne. unfold from_worker. apply nth_error_None in Ew. rewrite (map_res_length _ _ _ Er), seq_length in Ew.
      assert (Fw : filter (fun p : nat * list (A * list nat) => fst p =? w) o = []); [|rewrite Fw; reflexivity].
      destruct (filter _ o) as [|p l] eqn:Ef; [reflexivity|exfalso]. assert (Hin : In p (filter (fun p : nat * list (A * list nat) => fst p =? w) o)) by (rewrite Ef; left; reflexivity).
      apply filter_In in Hin. destruct Hin as (Hin & Hw). apply Nat.eqb_eq in Hw. apply In_nth_error in Hin. destruct Hin as (j & Hj).
      rewrite (Ht' j p Hj) in Hw. pose proof (Nat.mod_upper_bound j (g_nw g)). lia. }
  assert (Wb : wf g (m_begin st)) by (apply wf_begin; exact W).
  destruct (store_ok (g_nw g) (g_members g) o Ht') as (S1 & S2).
  { pose proof (runs_batches g Hg v (m_begin st) runs Wb Er (tasks (g_nw g) (m_latest (m_begin st)) (m_restore (m_begin st)) n)) as F.
    fold qs in F. fold o in F. apply Forall_map in F. eapply Forall_impl; [|exact F]. cbn. tauto. }
  { intros w pre suf Hf Hne. destruct (Hq w) as (run & fin & m & Ew & Fw). { rewrite Hf. destruct pre; [congruence|discriminate]. }
    destruct (Hv w run fin Ew) as (_ & G).
    apply (G _ (concat suf ++ skipn (g_B g * m) run)).
    - rewrite app_assoc, <- concat_app, <- Hf, Fw, pieces_firstn by exact HB. symmetry. apply firstn_skipn.
    - rewrite Hf in Fw. pose proof (pieces_nonempty (g_B g) run HB) as P. destruct pre as [|p pre]; [congruence|].
      assert (In p (pieces (g_B g) run)). { rewrite <- (firstn_skipn m), <- Fw. left. reflexivity. }
      rewrite Forall_forall in P. specialize (P p H). intros C. cbn [concat] in C. apply app_eq_nil in C. destruct C. contradiction. }
  assert (Eg : forall l : list (nat * list (A * list nat)), got (map (fun wb => (fst wb, map fst (snd wb))) l) = map fst (concat (map snd l))).
  { intros l. unfold got. rewrite map_map. cbn [snd]. rewrite <- (map_map snd (map fst)), concat_map. reflexivity. }
  assert (Efw : forall w (l : list (nat * list (A * list nat))), from_worker w (map (fun wb => (fst wb, map fst (snd wb))) l) = map (map fst) (from_worker w l)).
  { intros w l. unfold from_worker. induction l as [|[v0 b] l IH]; [reflexivity|]. cbn [map filter fst]. destruct (v0 =? w); cbn [map]; [f_equal; exact IH|exact IH]. }
  pose proof (store_ok) as _.
  assert (Mc : m_counts st' = store (g_nw g) 0 (map snd o) []).
  { rewrite <- Est. unfold m_counts, m_begin. rewrite H1. cbn [m_shared m_own m_cycle m_given]. reflexivity. }
  assert (Tot : forall k, k < g_members g -> nth_error (match m_it st' with Some c => c | None => saved_counts (g_members g) (map snd (m_counts st')) end) k = Some (of_member src k (map fst (concat (map snd o))))).
  { intros k Hk. destruct (g_inproc g) eqn:Hi.
    - assert (N1 := Hip eq_refl). assert (Lr : length runs = 1) by (rewrite (map_res_length _ _ _ Er), seq_length; exact N1).
      destruct runs as [|[run fin] [|]]; cbn in Lr; try discriminate. 
      rewrite <- Est. cbn [m_it snd]. destruct (Hv 0 run fin eq_refl) as (G & _). rewrite G, vec_nth, zeros_nth by exact Hk. cbn [option_map Nat.add].
      f_equal. f_equal. f_equal. unfold o, qs. cbn [map fst]. rewrite N1, serve_pieces by exact HB.
      rewrite map_map. cbn [snd]. rewrite map_id. destruct (Hrun 0 run fin eq_refl) as (_ & m & _ & Lr').
      rewrite pieces_all by (try exact HB; apply Lr'; reflexivity). symmetry. apply concat_pieces. exact HB.
    - destruct U' as (_ & _ & _ & _ & _ & U6). rewrite (U6 Hi), Mc, saved_counts_nth by exact Hk. f_equal. apply S2. exact Hk. }
  rewrite Eg. unfold m_save. cbv zeta.
  destruct (map_res_total (fun kd : nat * (nat * option sdict) => match nth_error (match m_it st' with Some c => c | None => saved_counts (g_members g) (map snd (m_counts st')) end) (fst kd) with Some n => Ok (mem_save g n (snd kd)) | None => Err IndexError end)
     (combine (seq 0 (g_members g)) (m_mem st'))) as (sds & Es).
  { intros [k d] Hin. apply in_combine_l in Hin. apply in_seq in Hin. cbn [fst]. rewrite (Tot k ltac:(lia)). eauto. }
  assert (Eb : m_latest st' = (length o - 1) mod g_nw g /\ m_epoch st' = m_epoch st + 1 /\
    (forall d, In d (m_mem st') -> snd d = None /\ (g_inproc g = false -> fst d = m_epoch st + 1))).
  { rewrite <- Est. unfold m_begin. rewrite H1. cbn [m_latest m_epoch m_cycle m_mem]. split; [|split].
    - destruct (length o) as [|n']; [rewrite Nat.mod_0_l by lia; reflexivity|]. cbn [Nat.add]. f_equal. lia.
    - reflexivity.
    - intros d Hd. destruct (g_inproc g).
      + apply in_map_iff in Hd. destruct Hd as ([k x] & <- & Hd). apply in_combine_r in Hd. apply in_map_iff in Hd. destruct Hd as (y & <- & _).
        cbn [fst snd]. unfold m_after, set_ep. cbn [snd fst]. split; [|discriminate]. match goal with |- context [if ?b then _ else _] => destruct b end; reflexivity.
      + apply in_map_iff in Hd. destruct Hd as (y & <- & _). unfold set_ep. cbn [snd fst]. split; [reflexivity|intros _; reflexivity]. }
  destruct Eb as (Eb1 & Eb2 & Eb3).
  rewrite Es. cbn [bind]. eexists _, _. split; [reflexivity|]. cbn [o_members o_counts o_epoch o_latest].
  split; [exact Eb2|]. split; [rewrite map_length; exact Eb1|]. split.
  - intros k Hk. destruct U' as (_ & _ & _ & _ & U5 & _).
    destruct (nth_error (m_mem st') k) as [d|] eqn:Ed; [|apply nth_error_None in Ed; lia].
    assert (Ec : nth_error (combine (seq 0 (g_members g)) (m_mem st')) k = Some (k, d)) by (apply combine_nth_error; [apply nth_error_seq; exact Hk|exact Ed]).
    destruct (nth_error sds k) as [s|] eqn:Ek.
    2:{ apply nth_error_None in Ek. rewrite (map_res_length _ _ _ Es), combine_length, seq_length, U5 in Ek. lia. }
    exists s. split; [reflexivity|]. pose proof (map_res_at _ _ _ Es k _ _ Ec Ek) as M. cbn [fst snd] in M. rewrite (Tot k Hk) in M.
    injection M as <-. destruct (Eb3 d (nth_error_In _ _ Ed)) as (D1 & D2). unfold mem_save. rewrite D1. cbn [sd_samples sd_workers sd_batch sd_epoch].
    repeat (split; [reflexivity|]). intros Hi. rewrite Eb2. apply D2, Hi.
  - intros w c Hw k Hk. rewrite Mc, S1 in Hw. rewrite Efw, <- concat_map.
    destruct (from_worker w o) eqn:Ef; [discriminate|]. injection Hw as <-. rewrite vec_nth, zeros_nth by exact Hk. reflexivity.
Qed.
End Count.
