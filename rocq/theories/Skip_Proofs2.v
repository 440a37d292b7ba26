(** The skip-deletion table of a dataset on one node. *)
From Verif Require Import Base Assign_Model Assign_Spec Assign_Proofs Shuffle_Proofs Iter_Model Iter_Spec Iter_Proofs.
From Verif Require Import Skip_Model Skip_Spec Skip_Proofs.
Local Ltac Zify.zify_post_hook ::= idtac.

Lemma give_chunks c iv ws :
  Forall2 (fun w w' => w_chunks w' = w_chunks w \/ w_chunks w' = w_chunks w ++ [c]) ws (give c iv ws).
Proof.
  revert iv; induction ws as [|w ws IH]; intros iv; cbn [give]; [constructor|].
  assert (R : forall l, Forall2 (fun w w' => w_chunks w' = w_chunks w \/ w_chunks w' = w_chunks w ++ [c]) l l)
    by (induction l; constructor; auto).
  destruct (w_left w =? 0); [constructor; auto|]. destruct (iv_size iv =? 0); [apply R|].
  destruct (w_left w <? iv_size iv); constructor; cbn; auto.
Qed.

Lemma assign_fold_NoDup l ws (seen : list nat) :
  NoDup (seen ++ map fst l) ->
  Forall (fun w => NoDup (w_chunks w) /\ incl (w_chunks w) seen) ws ->
  Forall (fun w => NoDup (w_chunks w)) (assign_fold l ws).
Proof.
  revert ws seen; induction l as [|[c iv] l IH]; intros ws seen Hn HF.
  - cbn. eapply Forall_impl; [|exact HF]. cbn; tauto.
  - cbn [assign_fold fold_left fst snd]. fold (assign_fold l (give c iv ws)).
    apply (IH _ (seen ++ [c])); [rewrite <- app_assoc; exact Hn|].
    assert (Hc : ~ In c seen).
    { cbn in Hn. apply NoDup_remove_2 in Hn. intros H. apply Hn. apply in_or_app; auto. }
    pose proof (give_chunks c iv ws) as HG. clear Hn IH.
    induction HG as [|w w' ws ws' [E|E] HG IH]; [constructor| |]; inversion HF; subst;
      (constructor; [|apply IH; assumption]); destruct H1 as [N I]; rewrite E.
    + split; [exact N|]. intros x Hx. apply in_or_app; left; auto.
    + split.
      * apply NoDup_rev in N. rewrite <- (rev_involutive (w_chunks w ++ [c])).
        apply NoDup_rev. rewrite rev_app_distr. cbn. constructor; [|exact N].
        rewrite <- in_rev. intros H. apply Hc, I, H.
      * intros x Hx. apply in_app_or in Hx. apply in_or_app. destruct Hx; [left; auto|right; auto].
Qed.

Lemma map_fst_combine {A B} (xs : list A) (ys : list B) : length xs = length ys -> map fst (combine xs ys) = xs.
Proof. revert ys; induction xs as [|x xs IH]; intros [|y ys] H; cbn in *; try lia; [reflexivity|]. f_equal; apply IH; lia. Qed.

Lemma assign_NoDup W nw B dl idx ivs a :
  1 <= nw -> 1 <= B -> length idx = length ivs -> NoDup idx ->
  assign W nw B dl idx ivs = Ok a -> Forall (@NoDup nat) (fst a).
Proof.
  intros Hnw HB Hl Hn H. rewrite assign_eq in H by assumption. cbn zeta in H. injection H as <-. cbn [fst].
  rewrite Forall_map. apply (assign_fold_NoDup _ _ []).
  - cbn. rewrite map_fst_combine by exact Hl. exact Hn.
  - rewrite Forall_map. apply Forall_forall. intros q _. cbn. split; [constructor|intros x []].
Qed.

Lemma one_node_NoDup rng shuffle env seed dl nw B epoch ivs a :
  rng_ok rng -> 1 <= nw -> 1 <= B -> num_nodes env = 1 ->
  shuffle_assign rng shuffle env seed dl nw B epoch ivs = Ok a -> Forall (@NoDup nat) (fst a).
Proof.
  intros Hr Hnw HB H1 H. destruct shuffle; cbn [shuffle_assign] in H.
  - destruct (full_shuffle_first rng env seed dl nw B epoch ivs Hr (or_intror H1)) as (p & Hp & E).
    rewrite E in H. eapply assign_NoDup; [exact Hnw|exact HB| | |exact H].
    + rewrite map_length; reflexivity.
    + eapply Permutation_NoDup; [apply Permutation_sym, Hp|apply seq_NoDup].
  - unfold no_shuffle_assign in H. eapply assign_NoDup; [exact Hnw|exact HB| | |exact H].
    + apply seq_length.
    + apply seq_NoDup.
Qed.

Lemma assignment_shaped nw R a : assignment_ok (R * nw) a -> shaped nw R (fst a) (snd a).
Proof.
  intros [(H1 & H2 & H3) H4]. split; [exact H1|]. split; [exact H2|].
  intros w cs ivs Hc Hi.
  assert (Hw : nth_error (workers a) w = Some (cs, ivs)).
  { unfold workers. clear -Hc Hi. revert w Hc Hi. generalize (snd a). generalize (fst a).
    induction l as [|x l IH]; intros [|y l2] [|w] Hc Hi; try discriminate.
    - injection Hc as ->. injection Hi as ->. reflexivity.
    - cbn. apply IH; assumption. }
  apply nth_error_In in Hw. rewrite Forall_forall in H3, H4. specialize (H3 _ Hw). specialize (H4 _ Hw).
  cbn in H3, H4. split; [exact H3|]. eapply Forall_impl; [|exact H4]. unfold iv_size. cbn. intros; lia.
Qed.

(** The table as the workers of one node see it. *)
Lemma worker_skip_one_node W nw B a w :
  1 <= W -> 1 <= nw -> w < W * nw -> length (fst a) = W * nw -> length (snd a) = W * nw ->
  worker_skip (Env W (w / nw) 1) nw (w mod nw) B a =
  bind (find_skip_deletion nw B (fst a) (snd a)) (fun t => Ok (dflt (dget w (invert_map t)))).
Proof.
  intros HW Hn Hw H1 H2. unfold worker_skip. cbn [num_nodes world_size global_rank]. cbn [Nat.eqb].
  rewrite Nat.div_1_r. destruct (Nat.eqb_spec W 0); [lia|].
  assert (Hd : w / nw < W) by (apply Nat.div_lt_upper_bound; lia).
  rewrite (Nat.div_small (w / nw) W) by exact Hd. rewrite !Nat.mul_0_l, !skipn_O.
  rewrite !firstn_all2 by lia. rewrite (Nat.mod_small (w / nw) W) by exact Hd.
  replace (w / nw * nw + w mod nw) with w by (rewrite Nat.mul_comm; apply Nat.div_mod; lia).
  destruct (find_skip_deletion nw B (fst a) (snd a)) as [t|e]; cbn [bind]; [|reflexivity].
  destruct (dget w (invert_map t)); reflexivity.
Qed.

Theorem one_node_skip rng shuffle W seed dl nw B epoch ivs a :
  rng_ok rng -> 1 <= W -> 1 <= nw -> 1 <= B ->
  (forall r, shuffle_assign rng shuffle (Env W r 1) seed dl nw B epoch ivs = Ok a) ->
  exists skips, length skips = W * nw /\
    (forall w l, nth_error skips w = Some l ->
       worker_skip (Env W (w / nw) 1) nw (w mod nw) B a = Ok l) /\
    exactly_one_deletes (fst a) (fun w c => exists l, nth_error skips w = Some l /\ In c l).
Proof.
  intros Hr HW Hn HB Ha. specialize (Ha 0).
  pose proof (one_node_NoDup _ _ (Env W 0 1) _ _ _ _ _ _ _ Hr Hn HB eq_refl Ha) as Hnd.
  pose proof (shuffle_assign_ok _ _ (Env W 0 1) _ _ _ _ _ _ _ HW Hn HB Ha) as Hok. cbn [world_size] in Hok.
  pose proof (assignment_shaped nw W a Hok) as HS.
  destruct (find_skip_ok nw W B (fst a) (snd a) Hn HB HS Hnd) as (t & Et & Hk & He).
  destruct Hok as [(L1 & L2 & _) _].
  exists (map (fun w => dflt (dget w (invert_map t))) (seq 0 (W * nw))).
  split; [rewrite map_length, seq_length; reflexivity|].
  assert (Hnth : forall w, w < W * nw -> nth_error (map (fun w => dflt (dget w (invert_map t))) (seq 0 (W * nw))) w
                                       = Some (dflt (dget w (invert_map t)))).
  { intros w Hw. rewrite nth_error_map, nth_error_seq by exact Hw. reflexivity. }
  assert (Hlst : forall w c, w < W * nw ->
            (exists l, nth_error (map (fun w => dflt (dget w (invert_map t))) (seq 0 (W * nw))) w = Some l /\ In c l)
            <-> listed t w c).
  { intros w c Hw. rewrite Hnth by exact Hw. rewrite <- (invert_listed t w c Hk). unfold listed. split.
    - intros (l & E & Hin). injection E as <-. destruct (dget w (invert_map t)); cbn in Hin; [eauto|destruct Hin].
    - intros (l & E & Hin). rewrite E. exists l. auto. }
  split.
  - intros w l Hl. assert (Hw : w < W * nw).
    { assert (H : nth_error (map (fun w => dflt (dget w (invert_map t))) (seq 0 (W * nw))) w <> None) by congruence.
      apply nth_error_Some in H. rewrite map_length, seq_length in H. exact H. }
    rewrite (worker_skip_one_node W nw B a w HW Hn Hw L1 L2), Et. cbn [bind].
    rewrite Hnth in Hl by exact Hw. injection Hl as <-. reflexivity.
  - destruct He as [He1 He2]. split.
    + intros c Hc. destruct (He1 c Hc) as (w0 & H1 & H2). exists w0. split; [exact H1|].
      intros w Hw. assert (Hlt : w < W * nw).
      { destruct Hw as (l & Hl & _). rewrite <- L1. apply nth_error_Some. congruence. }
      rewrite Hlst by exact Hlt. apply H2, Hw.
    + intros w c Hl. assert (Hlt : w < W * nw).
      { destruct Hl as (l & Hl & _). assert (H : nth_error (map (fun w => dflt (dget w (invert_map t))) (seq 0 (W * nw))) w <> None) by congruence.
        apply nth_error_Some in H. rewrite map_length, seq_length in H. exact H. }
      apply He2. apply Hlst; assumption.
Qed.
