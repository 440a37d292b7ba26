(** The worker of a rank that may delete a chunk is the last of the rank to need it. *)
From Verif Require Import Base Assign_Model Assign_Spec Assign_Proofs Shuffle_Proofs Iter_Model Iter_Spec Iter_Proofs.
From Verif Require Import Loader_Order_Model Skip_Model Skip_Spec Skip_Proofs Skip_Proofs2 Skip_Proofs3 Skip_Proofs4.
Local Ltac Zify.zify_post_hook ::= idtac.

Definition part {A} (nw r : nat) (l : list A) : list A := firstn nw (skipn (r * nw) l).

Lemma slice_par nw R wc wi r : 1 <= nw -> shaped nw R wc wi -> r < R -> par nw (part nw r wc) (map (map iv_size) (part nw r wi)).
Proof.
  intros Hn (S1 & S2 & S3) Hr. assert (Hlr : r * nw + nw <= R * nw) by nia. unfold part.
  split; [rewrite firstn_length, skipn_length; lia|].
  split; [rewrite map_length, firstn_length, skipn_length; lia|].
  intros i l Hi. apply nth_error_map_some in Hi. destruct Hi as (ivs & Hi & ->).
  assert (Hlt : i < nw).
  { assert (Hs : i < length (firstn nw (skipn (r * nw) wi))) by (apply nth_error_Some; congruence).
    rewrite firstn_length in Hs. lia. }
  rewrite nth_error_slice in Hi by exact Hlt.
  assert (Hb : r * nw + i < length wc) by lia. apply nth_error_Some in Hb.
  destruct (nth_error wc (r * nw + i)) as [cs|] eqn:Ec; [|congruence].
  destruct (S3 _ _ _ Ec Hi) as [Hl HF]. split.
  - rewrite Forall_map. exact HF.
  - exists cs. rewrite nth_error_slice by exact Hlt. rewrite map_length. auto.
Qed.

(** The numbers of samples of the workers of a rank. *)
Lemma even_rank nw B q e : 1 <= nw -> e < B -> 1 <= q + e ->
  exists K z, z < nw /\ 1 <= K /\ forall v T, v < nw ->
    T = B * (q / nw + (if v <? q mod nw then 1 else 0)) + (if v =? q mod nw then e else 0) ->
    (v < z -> T = K * B) /\ (z < v -> T = (K - 1) * B) /\ (v = z -> (K - 1) * B < T <= K * B).
Proof.
  intros Hnw He Hq. pose proof (Nat.mod_upper_bound q nw ltac:(lia)) as Hm. pose proof (Nat.div_mod q nw ltac:(lia)) as D.
  set (b := q / nw) in *. set (m := q mod nw) in *. clearbody b m.
  destruct (Nat.eq_dec e 0) as [->|Ne].
  - destruct (Nat.eq_dec m 0) as [->|Nm].
    + assert (1 <= b) by nia. exists b, (nw - 1). split; [lia|]. split; [lia|]. intros v T Hv ->. destruct (Nat.ltb_spec v 0); [lia|].
      assert (Q : (if v =? 0 then 0 else 0) = 0) by (destruct (v =? 0); reflexivity). rewrite Q. pose proof (q_p b B ltac:(lia)). split; [lia|]. split; lia.
    + exists (b + 1), (m - 1). split; [lia|]. split; [lia|]. intros v T Hv ->. replace (b + 1 - 1) with b by lia. rewrite !q_s.
      assert (Q : (if v =? m then 0 else 0) = 0) by (destruct (v =? m); reflexivity). rewrite Q.
      destruct (Nat.ltb_spec v m); split; [|split| |split]; lia.
  - exists (b + 1), m. split; [lia|]. split; [lia|]. intros v T Hv ->. replace (b + 1 - 1) with b by lia. rewrite !q_s.
    destruct (Nat.ltb_spec v m), (Nat.eqb_spec v m); split; [|split| |split| |split| |split]; lia.
Qed.

Lemma one_node_assign rng shuffle W seed dl nw B epoch ivs a r :
  rng_ok rng -> shuffle_assign rng shuffle (Env W r 1) seed dl nw B epoch ivs = Ok a ->
  exists idx ivs', length idx = length ivs' /\ (forall iv, In iv ivs' -> In iv ivs) /\ assign W nw B dl idx ivs' = Ok a.
Proof.
  intros Hr H. destruct shuffle; cbn [shuffle_assign] in H.
  - destruct (full_shuffle_first rng (Env W r 1) seed dl nw B epoch ivs Hr (or_intror eq_refl)) as (p & Hp & E). cbn [world_size] in E. rewrite E in H.
    exists p, (map (fun i => nth i ivs dIv) p). split; [rewrite map_length; reflexivity|]. split; [|exact H].
    intros iv Hin. apply in_map_iff in Hin. destruct Hin as (i & <- & Hi). apply nth_In.
    apply (Permutation_in _ Hp) in Hi. apply in_seq in Hi. lia.
  - exists (seq 0 (length ivs)), ivs. split; [apply seq_length|]. split; [auto|exact H].
Qed.

Theorem skip_last rng shuffle W seed dl nw B epoch ivs a c r :
  rng_ok rng -> 1 <= W -> 1 <= nw -> 1 <= B -> dl = true \/ W = 1 ->
  Forall (fun iv => B <= iv_size iv) ivs ->
  (forall r, shuffle_assign rng shuffle (Env W r 1) seed dl nw B epoch ivs = Ok a) ->
  shared_by_two (fst a) c -> (forall w, reads (fst a) w c -> w / nw = r) ->
  exists w0, w0 < nw /\
    (forall w, w < nw -> reads (fst a) (r * nw + w) c ->
       exists l, worker_skip (Env W r 1) nw w B a = Ok l /\ (In c l <-> w <> w0)) /\
    forall n, Forall (fun w => nw * length (pieces B (stream (shuffle_call rng shuffle seed) epoch w)) <= n) (rank_workers nw r a) ->
      last_served c (fst (serve (tasks nw 0 false n)
                            (map (pieces B) (map (stream (shuffle_call rng shuffle seed) epoch) (rank_workers nw r a))))) w0.
Proof.
  intros Hr HW Hn HB Hdl Hbig Ha Hsh Hone. pose proof (Ha 0) as Ha0.
  pose proof (one_node_NoDup _ _ (Env W 0 1) _ _ _ _ _ _ _ Hr Hn HB eq_refl Ha0) as Hnd.
  pose proof (shuffle_assign_ok _ _ (Env W 0 1) _ _ _ _ _ _ _ HW Hn HB Ha0) as Hok. cbn [world_size] in Hok.
  pose proof (assignment_shaped nw W a Hok) as HS.
  destruct (one_node_assign _ _ _ _ _ _ _ _ _ _ _ Hr Ha0) as (idx & ivs' & Hlen & Hincl & Has).
  assert (Hbig' : Forall (fun iv => B <= iv_size iv) ivs') by (rewrite Forall_forall in *; auto).
  pose proof (assign_fat W nw B dl idx ivs' a Hn HB Hbig' Has) as Hfat.
  destruct (assign_counts W nw B dl idx ivs' HW Hn HB Hlen) as (a' & extra & Ha' & Hex & Hex0 & Hcnt). rewrite Has in Ha'. injection Ha' as <-.
  set (q := length (dataset_samples idx ivs') / B / W) in *.
  destruct Hok as [(L1 & L2 & L3) _].
  assert (Hrd : forall w, reads (fst a) w c -> w < W * nw).
  { intros w (l & E & _). rewrite <- L1. apply nth_error_Some. congruence. }
  assert (HrW : r < W).
  { destruct Hsh as (w1 & _ & _ & R1 & _). rewrite <- (Hone _ R1). apply Nat.div_lt_upper_bound; [lia|]. rewrite Nat.mul_comm. apply Hrd, R1. }
  assert (Hrn : r * nw + nw <= W * nw) by (clear -HrW; nia).
  set (C0 := part nw r (fst a)). set (S0 := map (map iv_size) (part nw r (snd a))).
  assert (Hpar : par nw C0 S0) by (apply (slice_par nw W); assumption).
  assert (Hworker : forall v S, nth_error S0 v = Some S -> v < nw /\ exists cs ivs1, nth_error (fst a) (r * nw + v) = Some cs /\ nth_error (snd a) (r * nw + v) = Some ivs1 /\
            nth_error (workers a) (r * nw + v) = Some (cs, ivs1) /\ S = map iv_size ivs1 /\ length cs = length ivs1).
  { intros v S E. assert (Hv : v < nw) by (destruct Hpar as (_ & L & _); rewrite <- L; apply nth_error_Some; congruence). split; [exact Hv|].
    unfold S0, part in E. apply nth_error_map_some in E. destruct E as (ivs1 & E & ->). rewrite nth_error_slice in E by exact Hv.
    destruct (Hcnt r v HrW Hv) as ([cs ivs2] & Ew & _). pose proof Ew as Ew2. unfold workers in Ew2.
    assert (K : nth_error (fst a) (r * nw + v) = Some cs /\ nth_error (snd a) (r * nw + v) = Some ivs2).
    { clear -Ew2. revert Ew2. generalize (r * nw + v). generalize (snd a). induction (fst a) as [|x l IH]; intros [|y l2] [|k] E; try discriminate; cbn in *; [injection E as -> ->; auto|apply IH; exact E]. }
    destruct K as [K1 K2]. rewrite E in K2. injection K2 as <-. exists cs, ivs1. repeat (apply conj; [auto|]).
    rewrite Forall_forall in L3. exact (L3 (cs, ivs1) (nth_error_In _ _ Ew)). }
  assert (HfatS : forall v S, nth_error S0 v = Some S -> fat B S).
  { intros v S E. destruct (Hworker v S E) as (_ & cs & ivs1 & _ & E2 & _ & -> & _). rewrite Forall_forall in Hfat. apply Hfat. exact (nth_error_In _ _ E2). }
  set (e := if r =? W - 1 then extra else 0).
  assert (He : e < B).
  { unfold e. destruct (r =? W - 1); [|lia]. destruct Hdl as [->| ->]; [rewrite Hex0 by reflexivity; lia|lia]. }
  assert (Hsum : forall v S, nth_error S0 v = Some S -> sum S = B * (q / nw + (if v <? q mod nw then 1 else 0)) + (if v =? q mod nw then e else 0)).
  { intros v S E. destruct (Hworker v S E) as (Hv & cs & ivs1 & _ & _ & Ew & -> & Lw). destruct (Hcnt r v HrW Hv) as (w & Ew' & Hw). rewrite Ew in Ew'. injection Ew' as <-.
    unfold worker_samples in Hw. cbn [fst snd] in Hw. rewrite dataset_samples_length in Hw by exact Lw. rewrite Hw. f_equal. unfold e.
    destruct (r =? W - 1), (v =? q mod nw); reflexivity. }
  assert (Hqe : 1 <= q + e).
  { destruct (Nat.eq_dec (q + e) 0) as [Z|]; [exfalso|lia]. assert (q = 0) by lia. assert (e = 0) by lia.
    destruct Hsh as (w1 & _ & _ & R1 & _). destruct R1 as (l & E & Hin). assert (R1 : reads (fst a) w1 c) by (exists l; auto).
    pose proof (Hone _ R1) as Hw. pose proof (Nat.div_mod w1 nw ltac:(lia)) as D. pose proof (Nat.mod_upper_bound w1 nw ltac:(lia)) as U.
    rewrite Hw in D. destruct (nth_error S0 (w1 mod nw)) as [S|] eqn:ES; [|apply nth_error_None in ES; destruct Hpar as (_ & L & _); lia].
    pose proof (Hsum _ _ ES) as Hs. destruct (Hworker _ _ ES) as (_ & cs & ivs1 & E1 & _ & _ & -> & Lw).
    replace (r * nw + w1 mod nw) with w1 in E1 by lia. rewrite E in E1. injection E1 as <-.
    destruct Hpar as (_ & _ & P). destruct (P _ _ ES) as (F & _). rewrite H in Hs. rewrite Nat.div_0_l, Nat.mod_0_l in Hs by lia. rewrite H0 in Hs.
    destruct l as [|x l]; [destruct Hin|]. destruct ivs1 as [|iv ivs1]; [discriminate|]. cbn [map sum] in *. inversion F; subst.
    destruct (w1 mod nw <? 0) eqn:E0; [apply Nat.ltb_lt in E0; lia|]. destruct (w1 mod nw =? 0); lia. }
  destruct (even_rank nw B q e Hn He Hqe) as (K & z & Hz & HK & Hkz).
  assert (Htot : forall v S, nth_error S0 v = Some S ->
    (v < z -> sum S = K * B) /\ (z < v -> sum S = (K - 1) * B) /\ (v = z -> (K - 1) * B < sum S <= K * B)).
  { intros v S E. apply Hkz; [apply (Hworker v S E)|apply Hsum, E]. }
  (* the table *)
  set (P := fun c' w => reads (fst a) w c' /\ (c' = c -> exists t i, w = r * nw + i /\ i < nw /\ lastly B c C0 S0 t i)).
  destruct (find_skip_gen nw B (fst a) (snd a) P Hn HB Hnd) as (t & Et & Hk & Hdel & _).
  { intros c' lr l _ Hin. destruct (track_ok nw W B c' (fst a) (snd a) lr l Hn HB HS Hin) as (i & n & A1 & A2 & A3).
    exists i, n. split; [exact A1|]. split; [exact A3|]. intros ->. pose proof (Hone _ A3) as Q. rewrite Nat.div_add_l, Nat.div_small, Nat.add_0_r in Q by lia. subst lr.
    apply aggregate_In in Hin. destruct Hin as [El Hne]. pose proof (rank_share nw r (fst a) c Hn) as Hocc. rewrite <- El in Hocc.
    unfold track in A1. fold (part nw r (fst a)) in A1. fold (part nw r (snd a)) in A1. fold C0 S0 in A1. fold (part nw r (fst a)) in Hocc. fold C0 in Hocc.
    assert (H1 : 1 <= length l) by (destruct l; [congruence|cbn; lia]).
    assert (I0 : inv nw B c C0 S0 (Sk C0 S0 (length l) 0 None 0) 0 0) by (apply (start_inv nw B c K z); assumption).
    destruct (simulate_exact nw B c K z C0 S0 Hn HB Hz HK Hpar HfatS Htot _ _ 0 0 i n I0 A1) as (t2 & Hi & Hlast).
    exists t2, i. auto. }
  destruct (Hdel c Hsh) as (w0 & [Hw0 Hl0] & Hiff). destruct (Hl0 eq_refl) as (t2 & i & -> & Hi & Hlast).
  exists i. split; [exact Hi|]. split.
  - intros w Hw Rw. pose proof (worker_skip_one_node W nw B a (r * nw + w) HW Hn ltac:(lia) L1 L2) as E.
    assert (Q1 : (r * nw + w) / nw = r) by (rewrite Nat.div_add_l by lia; rewrite Nat.div_small by lia; lia).
    assert (Q2 : (r * nw + w) mod nw = w) by (rewrite Nat.add_comm, Nat.mod_add by lia; apply Nat.mod_small; lia).
    rewrite Q1, Q2, Et in E. cbn [bind] in E. eexists. split; [exact E|].
    assert (Q3 : In c (dflt (dget (r * nw + w) (invert_map t))) <-> listed t (r * nw + w) c).
    { rewrite <- (invert_listed t (r * nw + w) c Hk). unfold listed. destruct (dget (r * nw + w) (invert_map t)) as [l|]; cbn [dflt].
      - split; [intros Hin; exists l; auto|intros (l' & E2 & Hin); injection E2 as ->; exact Hin].
      - split; [intros []|intros (l' & E2 & _); discriminate]. }
    rewrite Q3, (Hiff _ Rw). lia.
  - intros n Hnn. apply (served_last nw B c C0 S0 t2 i); auto.
    + unfold rank_workers. rewrite map_length, firstn_length, skipn_length. unfold workers. rewrite combine_length. lia.
    + intros v s C S Es EC ES. destruct (Hworker v S ES) as (Hv & cs & ivs1 & E1 & E2 & Ew & -> & Lw).
      unfold rank_workers in Es. rewrite nth_error_map in Es. rewrite nth_error_slice, Ew in Es by exact Hv. cbn [option_map] in Es. injection Es as <-.
      unfold C0, part in EC. rewrite nth_error_slice, E1 in EC by exact Hv. injection EC as <-.
      unfold stream. cbn [fst snd]. apply stream_colours. apply shuffle_call_ok; exact Hr.
    + rewrite Forall_map. exact Hnn.
Qed.
