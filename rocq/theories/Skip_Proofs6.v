(** Jobs of several nodes: the nodes on which the table is that of the node. *)
From Verif Require Import Base Assign_Model Assign_Spec Assign_Proofs Shuffle_Proofs Iter_Model Iter_Spec Iter_Proofs.
From Verif Require Import Skip_Model Skip_Spec Skip_Proofs Skip_Proofs2.
Local Ltac Zify.zify_post_hook ::= idtac.

Lemma first_NoDup rng shuffle env seed dl nw B epoch ivs a :
  rng_ok rng -> 1 <= nw -> 1 <= B -> shuffle = false \/ epoch = 1 ->
  shuffle_assign rng shuffle env seed dl nw B epoch ivs = Ok a -> Forall (@NoDup nat) (fst a).
Proof.
  intros Hr Hnw HB H1 H. destruct shuffle; cbn [shuffle_assign] in H.
  - destruct H1 as [H1|H1]; [discriminate|].
    destruct (full_shuffle_first rng env seed dl nw B epoch ivs Hr (or_introl H1)) as (p & Hp & E).
    rewrite E in H. eapply assign_NoDup; [exact Hnw|exact HB| | |exact H].
    + rewrite map_length; reflexivity.
    + eapply Permutation_NoDup; [apply Permutation_sym, Hp|apply seq_NoDup].
  - unfold no_shuffle_assign in H. eapply assign_NoDup; [exact Hnw|exact HB| | |exact H].
    + apply seq_length.
    + apply seq_NoDup.
Qed.

Lemma shaped_part nw ns nodes k wc wi : k < nodes -> shaped nw (nodes * ns) wc wi ->
  shaped nw ns (firstn (ns * nw) (skipn (k * ns * nw) wc)) (firstn (ns * nw) (skipn (k * ns * nw) wi)).
Proof.
  intros Hk (S1 & S2 & S3). assert (Hle : k * ns * nw + ns * nw <= nodes * ns * nw).
  { replace (k * ns * nw + ns * nw) with ((k + 1) * (ns * nw)) by lia. rewrite <- Nat.mul_assoc. apply Nat.mul_le_mono_r. lia. }
  split; [rewrite firstn_length, skipn_length; lia|]. split; [rewrite firstn_length, skipn_length; lia|].
  intros w cs ivs Hc Hi.
  assert (Hw : w < ns * nw).
  { assert (Q : w < length (firstn (ns * nw) (skipn (k * ns * nw) wc))) by (apply nth_error_Some; congruence). rewrite firstn_length in Q. lia. }
  rewrite nth_error_slice in Hc by exact Hw. rewrite nth_error_slice in Hi by exact Hw. exact (S3 _ _ _ Hc Hi).
Qed.

Lemma Forall_part {A} (P : A -> Prop) l n k : Forall P l -> Forall P (firstn n (skipn k l)).
Proof.
  intros H. rewrite Forall_forall in *. intros x Hx. apply H.
  rewrite <- (firstn_skipn k l). apply in_or_app. right. rewrite <- (firstn_skipn n (skipn k l)). apply in_or_app. left. exact Hx.
Qed.

Lemma worker_skip_node ns nodes k nw B a w :
  1 <= ns -> 1 <= nw -> w < ns * nw -> k < nodes -> k = 0 \/ ns = 1 ->
  worker_skip (Env (nodes * ns) (k * ns + w / nw) nodes) nw (w mod nw) B a =
  bind (find_skip_deletion nw B (firstn (ns * nw) (skipn (k * ns * nw) (fst a))) (firstn (ns * nw) (skipn (k * ns * nw) (snd a))))
    (fun t => Ok (dflt (dget w (invert_map t)))).
Proof.
  intros Hs Hn Hw Hk Hc. unfold worker_skip. cbn [num_nodes world_size global_rank].
  destruct (Nat.eqb_spec nodes 0); [lia|]. rewrite (Nat.mul_comm nodes ns), Nat.div_mul by lia. destruct (Nat.eqb_spec ns 0); [lia|].
  assert (Hd : w / nw < ns) by (apply Nat.div_lt_upper_bound; lia).
  assert (Q1 : (k * ns + w / nw) / ns = k) by (rewrite Nat.div_add_l by lia; rewrite Nat.div_small by exact Hd; lia).
  assert (Q2 : (k * ns + w / nw) mod ns = w / nw) by (rewrite Nat.add_comm, Nat.mod_add by lia; apply Nat.mod_small; exact Hd).
  rewrite Q1, Q2. replace (w / nw * nw + w mod nw) with w by (rewrite Nat.mul_comm; apply Nat.div_mod; lia).
  replace (k * ns * (ns * nw)) with (k * ns * nw) by (destruct Hc as [->| ->]; lia).
  match goal with |- bind ?x _ = _ => destruct x as [t|e] end; cbn [bind]; [|reflexivity].
  destruct (dget w (invert_map t)); reflexivity.
Qed.

Theorem node_skip rng shuffle ns nodes k seed dl nw B epoch ivs a :
  rng_ok rng -> 1 <= ns -> 1 <= nw -> 1 <= B -> k < nodes -> k = 0 \/ ns = 1 -> shuffle = false \/ epoch = 1 ->
  (forall r, shuffle_assign rng shuffle (Env (nodes * ns) r nodes) seed dl nw B epoch ivs = Ok a) ->
  exists skips, length skips = ns * nw /\
    (forall w l, nth_error skips w = Some l ->
       worker_skip (Env (nodes * ns) (k * ns + w / nw) nodes) nw (w mod nw) B a = Ok l) /\
    exactly_one_deletes (firstn (ns * nw) (skipn (k * ns * nw) (fst a))) (fun w c => exists l, nth_error skips w = Some l /\ In c l).
Proof.
  intros Hr Hs Hn HB Hk Hc He Ha. specialize (Ha 0).
  pose proof (first_NoDup _ _ (Env (nodes * ns) 0 nodes) _ _ _ _ _ _ _ Hr Hn HB He Ha) as Hnd.
  assert (HW : 1 <= nodes * ns) by nia.
  pose proof (shuffle_assign_ok _ _ (Env (nodes * ns) 0 nodes) _ _ _ _ _ _ _ HW Hn HB Ha) as Hok. cbn [world_size] in Hok.
  pose proof (shaped_part nw ns nodes k _ _ Hk (assignment_shaped nw (nodes * ns) a Hok)) as HS.
  destruct (find_skip_ok nw ns B _ _ Hn HB HS (Forall_part _ _ _ _ Hnd)) as (t & Et & Hkk & Hex).
  assert (L1 : length (firstn (ns * nw) (skipn (k * ns * nw) (fst a))) = ns * nw) by apply HS.
  exists (map (fun w => dflt (dget w (invert_map t))) (seq 0 (ns * nw))).
  split; [rewrite map_length, seq_length; reflexivity|].
  assert (Hnth : forall w, w < ns * nw -> nth_error (map (fun w => dflt (dget w (invert_map t))) (seq 0 (ns * nw))) w
                                       = Some (dflt (dget w (invert_map t)))).
  { intros w Hw. rewrite nth_error_map, nth_error_seq by exact Hw. reflexivity. }
  assert (Hlt : forall w l, nth_error (map (fun w => dflt (dget w (invert_map t))) (seq 0 (ns * nw))) w = Some l -> w < ns * nw).
  { intros w l E. assert (H : nth_error (map (fun w => dflt (dget w (invert_map t))) (seq 0 (ns * nw))) w <> None) by congruence.
    apply nth_error_Some in H. rewrite map_length, seq_length in H. exact H. }
  assert (Hlst : forall w c, w < ns * nw ->
            (exists l, nth_error (map (fun w => dflt (dget w (invert_map t))) (seq 0 (ns * nw))) w = Some l /\ In c l)
            <-> listed t w c).
  { intros w c Hw. rewrite Hnth by exact Hw. rewrite <- (invert_listed t w c Hkk). unfold listed. split.
    - intros (l & E & Hin). injection E as <-. destruct (dget w (invert_map t)); cbn in Hin; [eauto|destruct Hin].
    - intros (l & E & Hin). rewrite E. exists l. auto. }
  split.
  - intros w l Hl. pose proof (Hlt _ _ Hl) as Hw. rewrite worker_skip_node by assumption. rewrite Et. cbn [bind].
    rewrite Hnth in Hl by exact Hw. injection Hl as <-. reflexivity.
  - destruct Hex as [He1 He2]. split.
    + intros c Hcc. destruct (He1 c Hcc) as (w0 & H1 & H2). exists w0. split; [exact H1|].
      intros w Hw. assert (Hl : w < ns * nw).
      { destruct Hw as (l & Hl & _). rewrite <- L1. apply nth_error_Some. congruence. }
      rewrite Hlst by exact Hl. apply H2, Hw.
    + intros w c Hl. assert (Hw : w < ns * nw) by (destruct Hl as (l & E & _); exact (Hlt _ _ E)).
      apply He2. apply Hlst; assumption.
Qed.

Lemma beyond_skip ns nodes k nw B a w j :
  1 <= ns -> nodes <= k * ns -> w < ns -> 1 <= nodes -> length (fst a) = nodes * ns * nw -> length (snd a) = nodes * ns * nw ->
  worker_skip (Env (nodes * ns) (k * ns + w) nodes) nw j B a = Ok [].
Proof.
  intros Hs Hk Hw Hn L1 L2. unfold worker_skip. cbn [num_nodes world_size global_rank].
  destruct (Nat.eqb_spec nodes 0); [lia|]. rewrite (Nat.mul_comm nodes ns), Nat.div_mul by lia. destruct (Nat.eqb_spec ns 0); [lia|].
  rewrite Nat.div_add_l, Nat.div_small, Nat.add_0_r by lia.
  assert (Q : nodes * ns * nw <= k * ns * (ns * nw)).
  { rewrite <- !Nat.mul_assoc, (Nat.mul_assoc k ns). apply Nat.mul_le_mono_r. exact Hk. }
  rewrite !skipn_all2 by lia. rewrite !firstn_nil. reflexivity.
Qed.
