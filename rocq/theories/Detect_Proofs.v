(** Lemmas about the detection of the parts of a job. *)
From Verif Require Import Base Assign_Model Assign_Spec Assign_Proofs Shuffle_Proofs Iter_Model Iter_Spec Iter_Proofs Epoch_Proofs Dataset_Proofs2
  Detect_Model Detect_Spec.
From Coq Require Import String List Permutation.
Local Open Scope list_scope.
Local Open Scope nat_scope.
Local Ltac Zify.zify_post_hook ::= idtac.

Lemma no_overrule_detect p : no_overrule p -> detect p = from_group p.
Proof.
  unfold no_overrule. intros H. inversion H as [|? ? H1 HA]; subst. inversion HA as [|? ? H2 HB]; subst. inversion HB as [|? ? H3 HC]; subst. inversion HC as [|? ? H4 _]; subst.
  unfold detect. rewrite H1. unfold getenv. rewrite H2, H3, H4. destruct (from_group p) as [[a b c]|e]; reflexivity.
Qed.

(** The number of nodes that every process finds. *)
Definition found_nodes (gpus : option nat) (W : nat) : nat :=
  match gpus with Some g => if 1 <=? W / g then W / g else 1 | None => 1 end.
Lemma found_nodes_pos gpus W : 1 <= found_nodes gpus W.
Proof. unfold found_nodes. destruct gpus as [g|]; [|lia]. destruct (1 <=? W / g) eqn:E; [apply Nat.leb_le in E; exact E|lia]. Qed.
Lemma found_one g W : 1 <= g -> W < 2 * g -> found_nodes (Some g) W = 1.
Proof.
  intros Hg HW. cbn [found_nodes]. destruct (1 <=? W / g) eqn:E; [|reflexivity]. apply Nat.leb_le in E.
  assert (W / g < 2) by (apply Nat.div_lt_upper_bound; lia). lia.
Qed.
Lemma found_exact g n : 1 <= g -> 1 <= n -> found_nodes (Some g) (n * g) = n.
Proof.
  intros Hg Hn. cbn [found_nodes]. rewrite Nat.div_mul by lia. replace (1 <=? n) with true by (symmetry; apply Nat.leb_le; lia). reflexivity.
Qed.

Lemma detect_joined gpus ps r p :
  joined ps -> nth_error ps r = Some p -> r_gpus p = gpus ->
  (forall g, gpus = Some g -> 1 <= g /\ (List.length ps < 2 * g \/ exists n, List.length ps = n * g)) ->
  detect p = Ok (Env (List.length ps) r (found_nodes gpus (List.length ps))).
Proof.
  intros Hj Hp Hg Hok. destruct (Hj r p Hp) as [Hgr Hno]. rewrite (no_overrule_detect _ Hno).
  unfold from_group. rewrite Hgr, Hg. destruct gpus as [g|]; [|reflexivity].
  destruct (Hok g eq_refl) as [H1 H2]. fold (found_nodes (Some g) (List.length ps)).
  replace ((1 <? found_nodes (Some g) (List.length ps)) && negb (List.length ps mod g =? 0)) with false; [reflexivity|].
  symmetry. destruct H2 as [H2|[n Hn]].
  - rewrite found_one by lia. reflexivity.
  - rewrite Hn, Nat.mod_mul by lia. apply andb_false_r.
Qed.

Lemma shuffle_assign_rank rng shuffle W r n seed nw B epoch ivs :
  shuffle_assign rng shuffle (Env W r n) seed false nw B epoch ivs = shuffle_assign rng shuffle (Env W 0 n) seed false nw B epoch ivs.
Proof. destruct shuffle; reflexivity. Qed.

Lemma assign_samples_nodes rng shuffle W n seed nw B epoch ivs :
  rng_ok rng -> 1 <= W -> 1 <= nw -> 1 <= B -> (shuffle = false \/ epoch = 1 \/ n = 1) ->
  exists a, shuffle_assign rng shuffle (Env W 0 n) seed false nw B epoch ivs = Ok a /\ assignment_ok (W * nw) a /\
    Permutation (flat_map worker_samples (workers a)) (dataset_samples (seq 0 (List.length ivs)) ivs).
Proof.
  intros Hrng HW Hnw HB Hc. destruct shuffle.
  - assert (Hc' : epoch = 1 \/ num_nodes (Env W 0 n) = 1) by (cbn [num_nodes]; destruct Hc as [Hc|Hc]; [discriminate|exact Hc]).
    destruct (full_shuffle_first rng (Env W 0 n) seed false nw B epoch ivs Hrng Hc') as (p & Hp & Hfs).
    cbn [world_size] in Hfs.
    destruct (assign_no_drop W nw B p (map (fun i => nth i ivs dIv) p) HW Hnw HB) as (a & Ha & Hsh & Hsam & _).
    { rewrite map_length; reflexivity. }
    exists a. cbn [shuffle_assign]. split; [rewrite Hfs; exact Ha|]. split.
    + eapply assign_assignment_ok; eauto. rewrite map_length; reflexivity.
    + rewrite Hsam. apply dataset_samples_perm; exact Hp.
  - destruct (assign_no_drop W nw B (seq 0 (List.length ivs)) ivs HW Hnw HB) as (a & Ha & Hsh & Hsam & _); [apply seq_length|].
    exists a. split; [exact Ha|]. split; [eapply assign_assignment_ok; eauto; apply seq_length|]. rewrite Hsam. reflexivity.
Qed.

(** A job whose processes find their ranks and one number of nodes reads every sample once. *)
Lemma delivered_all rng shuffle seed nw B epoch ivs ps n :
  (forall r p, nth_error ps r = Some p -> detect p = Ok (Env (List.length ps) r n)) ->
  rng_ok rng -> ps <> [] -> 1 <= nw -> 1 <= B -> (shuffle = false \/ epoch = 1 \/ n = 1) ->
  exists all, delivered rng shuffle seed nw B epoch ivs ps all /\
    Permutation (concat all) (dataset_samples (seq 0 (List.length ivs)) ivs).
Proof.
  intros Hd Hrng Hne Hnw HB Hc.
  assert (HW : 1 <= List.length ps) by (destruct ps; [congruence|cbn; lia]).
  destruct (assign_samples_nodes rng shuffle (List.length ps) n seed nw B epoch ivs Hrng HW Hnw HB Hc) as (a & Ha & Haok & Hperm).
  destruct (runs_streams (shuffle_call rng shuffle seed) (List.length ps) nw epoch n a (shuffle_call_ok rng shuffle seed Hrng) Haok Hnw)
    as (runs & Hl & Hruns & Hst).
  exists (map (map req_sample) runs). split; [split|].
  - rewrite map_length. exact Hl.
  - intros r i p Hp Hi. assert (Hr : r < List.length ps) by (apply nth_error_Some; congruence).
    destruct (Hruns r i Hr Hi) as (reqs & s0 & s' & H1 & H2 & H3).
    exists (map req_sample reqs). split; [rewrite nth_error_map, H1; reflexivity|].
    exists (Env (List.length ps) r n), a, s0, reqs, s'. split; [exact (Hd _ _ Hp)|]. split; [rewrite shuffle_assign_rank; exact Ha|].
    split; [exact H2|]. split; [exact H3|reflexivity].
  - rewrite Hst, <- flat_map_concat_map. rewrite <- Hperm. apply Permutation_flat_map_ext. intros w _. apply stream_perm, shuffle_call_ok, Hrng.
Qed.

(** What a process reads is determined by its view. *)
Lemma delivers_fun rng shuffle seed nw B epoch ivs p i s1 s2 :
  delivers rng shuffle seed nw B epoch ivs p i s1 -> delivers rng shuffle seed nw B epoch ivs p i s2 -> s1 = s2.
Proof.
  intros (e1 & a1 & t1 & q1 & u1 & D1 & A1 & I1 & R1 & ->) (e2 & a2 & t2 & q2 & u2 & D2 & A2 & I2 & R2 & ->).
  rewrite D1 in D2; injection D2 as <-. rewrite A1 in A2; injection A2 as <-. rewrite I1 in I2; injection I2 as <-.
  destruct (Run_det _ _ _ _ _ _ R1 R2) as [-> _]. reflexivity.
Qed.
Lemma delivers_same_view rng shuffle seed nw B epoch ivs p q i s :
  detect p = detect q -> delivers rng shuffle seed nw B epoch ivs p i s -> delivers rng shuffle seed nw B epoch ivs q i s.
Proof. intros E (e & a & t & r & u & D & H). exists e, a, t, r, u. rewrite <- E. auto. Qed.

(** What the worker of a process reads is a rearrangement of its part of the assignment. *)
Lemma delivers_part rng shuffle seed nw B epoch ivs p i s env a n w :
  rng_ok rng -> detect p = Ok env -> shuffle_assign rng shuffle env seed false nw B epoch ivs = Ok a -> assignment_ok n a ->
  nth_error (workers a) (global_rank env * nw + i) = Some w ->
  delivers rng shuffle seed nw B epoch ivs p i s -> Permutation s (worker_samples w).
Proof.
  intros Hrng D A Haok Hw (e1 & a1 & t1 & q1 & u1 & D1 & A1 & I1 & R1 & ->).
  rewrite D in D1; injection D1 as <-. rewrite A in A1; injection A1 as <-.
  destruct (fresh_run (shuffle_call rng shuffle seed) env nw i epoch a n w (shuffle_call_ok rng shuffle seed Hrng) Haok Hw)
    as (s0 & reqs & s' & H1 & H2 & H3 & _).
  rewrite H1 in I1; injection I1 as <-. destruct (Run_det _ _ _ _ _ _ R1 H2) as [-> _]. rewrite H3. apply stream_perm, shuffle_call_ok, Hrng.
Qed.


Lemma shard_inj nw a i b j : i < nw -> j < nw -> a * nw + i = b * nw + j -> a = b /\ i = j.
Proof.
  intros Hi Hj E. assert (Ha : a = b).
  { rewrite (Nat.div_unique (a * nw + i) nw a i) by lia. rewrite E. symmetry. apply (Nat.div_unique _ nw b j); lia. }
  subst b. lia.
Qed.

Lemma delivers_ok rng shuffle seed nw B epoch ivs p i env a n w :
  rng_ok rng -> detect p = Ok env -> shuffle_assign rng shuffle env seed false nw B epoch ivs = Ok a -> assignment_ok n a ->
  nth_error (workers a) (global_rank env * nw + i) = Some w ->
  exists s, delivers rng shuffle seed nw B epoch ivs p i s /\ Permutation s (worker_samples w).
Proof.
  intros Hrng D A Haok Hw.
  destruct (fresh_run (shuffle_call rng shuffle seed) env nw i epoch a n w (shuffle_call_ok rng shuffle seed Hrng) Haok Hw)
    as (s0 & reqs & s' & H1 & H2 & H3 & _).
  exists (map req_sample reqs). split; [exists env, a, s0, reqs, s'; auto|]. rewrite H3. apply stream_perm, shuffle_call_ok, Hrng.
Qed.
(** With one dataloader worker: the processes read a rearrangement of the parts [parts], and nothing else. *)
Lemma delivered_one rng shuffle seed B epoch ivs ps (parts : list (list (nat * nat))) :
  Forall2 (fun p part => exists s, delivers rng shuffle seed 1 B epoch ivs p 0 s /\ Permutation s part) ps parts ->
  (exists all, delivered rng shuffle seed 1 B epoch ivs ps all) /\
  forall all, delivered rng shuffle seed 1 B epoch ivs ps all -> Permutation (concat all) (concat parts).
Proof.
  intros H. split.
  - induction H as [|p part ps parts (s & Hs & _) _ (all & Hl & IH)].
    + exists []. split; [reflexivity|]. intros [|r] i p Hp; discriminate.
    + exists (s :: all). split; [cbn [List.length]; lia|]. intros [|r] i q Hq Hi.
      * injection Hq as <-. exists s. replace i with 0 by lia. split; [reflexivity|exact Hs].
      * destruct (IH r i q Hq Hi) as (s2 & E & D). exists s2. split; [exact E|exact D].
  - induction H as [|p part ps parts (s & Hs & Hp) _ IH]; intros all [Hl Hd].
    + destruct all; [apply Permutation_refl|discriminate].
    + destruct all as [|s2 all]; [cbn in Hl; lia|]. cbn [concat]. apply Permutation_app.
      * destruct (Hd 0 0 p eq_refl ltac:(lia)) as (s3 & E & D). cbn in E. injection E as ->. rewrite (delivers_fun _ _ _ _ _ _ _ _ _ _ _ D Hs). exact Hp.
      * apply IH. split; [cbn [List.length] in Hl; lia|]. intros r i q Hq Hi. exact (Hd (S r) i q Hq Hi).
Qed.
