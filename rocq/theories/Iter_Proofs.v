From Verif Require Import Base Assign_Model Assign_Spec Assign_Proofs Shuffle_Proofs.
From Verif Require Import Iter_Model Iter_Spec Loader_Order_Model.

(** * A complete run *)

(** Expected 'last index' flags: only the final request carries it. *)
Definition last_flags (n : nat) : list bool :=
  match n with 0 => [] | S m => repeat false m ++ [true] end.
Definition first_download (cs : list nat) (n : nat) : list (option (list nat)) :=
  match n with 0 => [] | S m => Some cs :: repeat None m end.

Section Run.
  Context (shuf : shuf_t) (cs : list nat) (ivs : list interval) (epoch stop : nat).
  Context (Hshuf : forall l n e k, length (shuf l n e k) = length l).
  Context (Hlen : length cs = length ivs).
  Context (Hne : Forall (fun iv => iv_rs iv < iv_re iv) ivs).
  Let n := length cs.
  Let mk u k g t r ic := DS cs ivs u k (Some n) g stop t epoch r ic.
  Let rest k := chunk_order shuf n epoch k (combine (skipn k cs) (skipn k ivs)).

  Lemma rest_length k :
    length (rest k) = sum (map iv_size (skipn k ivs)).
  Proof.
    unfold rest. assert (H : length (skipn k cs) = length (skipn k ivs)) by (rewrite !skipn_length; lia).
    generalize n as m. intros m. revert H. generalize (skipn k cs) as l1, (skipn k ivs) as l2. clear -Hshuf.
    intros l1; revert k; induction l1 as [|c l1 IH]; intros k [|iv l2] H; cbn [length combine chunk_order map sum] in *;
      try lia.
    rewrite app_length, map_length, Hshuf, seq_length, IH by lia. reflexivity.
  Qed.

  Lemma rest_cons k c iv :
    nth_error cs k = Some c -> nth_error ivs k = Some iv ->
    rest k = map (fun i => (c, i)) (shuf (seq (iv_rs iv) (iv_re iv - iv_rs iv)) n epoch k) ++ rest (S k).
  Proof.
    intros Hc Hi. unfold rest. rewrite (skipn_nth_cons _ _ _ Hc), (skipn_nth_cons _ _ _ Hi). reflexivity.
  Qed.

  Definition goal u k g t r ic : Prop :=
    exists reqs s', Run shuf (mk u k g t r ic) reqs s' /\
      map req_sample reqs = map (fun i => (nth (k - 1) cs 0, i)) u ++ rest k /\
      d_epoch s' = epoch + 1 /\ d_restored s' = false /\
      map rq_last reqs = last_flags (length reqs) /\
      map rq_download reqs =
        if t then repeat None (length reqs)
        else first_download (skipn (match u with [] => k | _ => k - 1 end) cs) (length reqs).

  Lemma run_all R : forall u k g t r ic,
    length u + length (rest k) = R -> k <= n -> (u <> [] -> 1 <= k) -> g + R <= stop -> goal u k g t r ic.
  Proof.
    induction R as [R IH] using lt_wf_ind.
    assert (Hcase : forall i up k g t r ic,
      length (i :: up) + length (rest k) = R -> 1 <= k <= n -> g + R <= stop -> goal (i :: up) k g t r ic).
    { intros i up k g t r ic HR Hk Hg. change (S (length up) + length (rest k) = R) in HR.
      destruct (IH (R - 1) ltac:(lia) up k (g + 1) true r (ic + 1)) as (reqs & s' & H1 & H2 & H3 & H4 & H5 & H6);
        [lia|lia|lia|lia|].
      destruct (nth_error cs (k - 1)) as [c|] eqn:Ec; [|apply nth_error_None in Ec; unfold n in *; lia].
      exists (Req i c (if t then None else Some (skipn (k - 1) cs)) ((k =? n) && (length up =? 0)) :: reqs), s'.
      assert (Hlr : length reqs = length up + length (rest k)).
      { apply (f_equal (@length _)) in H2. rewrite app_length, !map_length in H2. unfold sample in *. lia. }
      split; [|split; [|split; [|split; [|split]]]]; auto.
      - eapply Run_yield; [|exact H1]. unfold next, mk, pop_next. cbn [d_stop d_global d_upcoming d_chunks d_next
          d_num_chunks d_triggered d_ivs d_epoch d_restored d_in_chunk].
        replace (stop <=? g) with false by lia. rewrite Ec. reflexivity.
      - cbn [map app]. rewrite H2. unfold req_sample; cbn [rq_chunk rq_index].
        rewrite (nth_error_nth _ _ 0 Ec). reflexivity.
      - cbn [map rq_last length last_flags]. rewrite H5.
        assert (Hfl : (k =? n) && (length up =? 0) = (length reqs =? 0)).
        { destruct (Nat.eqb_spec k n) as [->|Hkn].
          - cbn [andb]. rewrite Hlr.
            replace (rest n) with (@nil sample) by (unfold rest, n; rewrite skipn_all; reflexivity).
            cbn [length]. rewrite Nat.add_0_r. reflexivity.
          - destruct (nth_error ivs k) as [iv|] eqn:Ei; [|apply nth_error_None in Ei; unfold n in *; lia].
            destruct (nth_error cs k) as [c'|] eqn:Ec'; [|apply nth_error_None in Ec'; unfold n in *; lia].
            rewrite (rest_cons k c' iv Ec' Ei), app_length, map_length, Hshuf, seq_length in Hlr.
            assert (iv_rs iv < iv_re iv).
            { rewrite Forall_forall in Hne. apply Hne. eapply nth_error_In; exact Ei. }
            cbn [andb]. symmetry. apply Nat.eqb_neq. lia. }
        rewrite Hfl. destruct (length reqs); reflexivity.
      - cbn [map rq_download length first_download]. rewrite H6. destruct t; reflexivity. }
    intros u k g t r ic HR Hk Hu Hg. destruct u as [|i up].
    2:{ apply Hcase; auto. split; [apply Hu; discriminate|exact Hk]. }
    destruct (Nat.eq_dec k n) as [->|Hkn].
    - exists [], (stop_epoch (mk [] n g t r ic)).
      assert (Hr : rest n = []) by (unfold rest, n; rewrite skipn_all; reflexivity).
      split; [|split; [|split; [|split; [|split]]]]; auto.
      + apply Run_stop. unfold next, mk. cbn [d_stop d_global d_upcoming].
        destruct (stop <=? g); [reflexivity|]. unfold refill. cbn [d_num_chunks d_next].
        rewrite Nat.leb_refl. reflexivity.
      + destruct t; reflexivity.
    - destruct (nth_error ivs k) as [iv|] eqn:Ei; [|apply nth_error_None in Ei; unfold n in *; lia].
      destruct (nth_error cs k) as [c|] eqn:Ec; [|apply nth_error_None in Ec; unfold n in *; lia].
      assert (Hiv : iv_rs iv < iv_re iv).
      { rewrite Forall_forall in Hne. apply Hne. eapply nth_error_In; exact Ei. }
      set (u' := shuf (seq (iv_rs iv) (iv_re iv - iv_rs iv)) n epoch k).
      assert (Hu' : length u' = iv_re iv - iv_rs iv) by (unfold u'; rewrite Hshuf, seq_length; reflexivity).
      pose proof (rest_cons k c iv Ec Ei) as Hrest. fold u' in Hrest.
      assert (HR' : length u' + length (rest (S k)) = R).
      { rewrite Hrest, app_length, map_length in HR. cbn [length] in HR. unfold sample in *. lia. }
      assert (E : exists i up, u' = i :: up).
      { destruct u' as [|i up]; [cbn [length] in Hu'; lia|eauto]. }
      destruct E as (i & up & E).
      destruct (Hcase i up (k + 1) g t r 0) as (reqs & s' & H1 & H2 & H3 & H4 & H5 & H6).
      { rewrite <- E. replace (k + 1) with (S k) by lia. exact HR'. }
      { lia. }
      { lia. }
      exists reqs, s'. split; [|split; [|split; [|split; [|split]]]]; auto.
      + assert (Hn : next shuf (mk [] k g t r ic) = next shuf (mk (i :: up) (k + 1) g t r 0)).
        { unfold next, mk. cbn [d_stop d_global d_upcoming].
          replace (stop <=? g) with false by lia.
          unfold refill. cbn [d_num_chunks d_next d_ivs d_chunks d_epoch d_global d_stop d_triggered d_restored].
          replace (n <=? k) with false by lia. rewrite Ei. fold u'. rewrite E. reflexivity. }
        inversion H1 as [s1 s2 Hs|s1 r1 s2 rs s3 Hy Hrun]; subst.
        * apply Run_stop. rewrite Hn. exact Hs.
        * eapply Run_yield; [rewrite Hn; exact Hy|exact Hrun].
      + cbn [map app]. rewrite H2, Hrest, <- E. replace (k + 1 - 1) with k by lia.
        replace (k + 1) with (S k) by lia. rewrite (nth_error_nth _ _ 0 Ec). reflexivity.
      + rewrite H6. replace (k + 1 - 1) with k by lia. reflexivity.
  Qed.
End Run.

Lemma Run_det shuf s r1 s1 r2 s2 : Run shuf s r1 s1 -> Run shuf s r2 s2 -> r1 = r2 /\ s1 = s2.
Proof.
  intros H; revert r2 s2; induction H as [s s' E|s r sa rs s' E _ IH]; intros r2 s2 H2.
  - inversion H2 as [? ? E2|? ? ? ? ? E2 _]; subst; rewrite E in E2; [|discriminate].
    injection E2 as ->. auto.
  - inversion H2 as [? ? E2|? ? ? ? ? E2 H3]; subst; rewrite E in E2; [discriminate|].
    injection E2 as <- <-. destruct (IH _ _ H3) as [-> ->]. auto.
Qed.

(** * Fresh iteration *)

Lemma shuf_ok_length shuf : shuf_ok shuf -> forall l n e k, length (shuf l n e k) = length l.
Proof. intros H l n e k. apply Permutation_length, H. Qed.

Lemma workers_nth (a : list (list nat) * list (list interval)) k w :
  nth_error (workers a) k = Some w ->
  nth_error (fst a) k = Some (fst w) /\ nth_error (snd a) k = Some (snd w).
Proof.
  destruct a as [xs ys]. unfold workers; cbn [fst snd]. revert k ys.
  induction xs as [|x xs IH]; intros [|k] [|y ys] H; cbn in *; try discriminate.
  - injection H as <-. auto.
  - apply IH; exact H.
Qed.

Lemma assignment_ok_worker n a k w :
  assignment_ok n a -> nth_error (workers a) k = Some w ->
  length (fst w) = length (snd w) /\ Forall (fun iv => iv_rs iv < iv_re iv) (snd w).
Proof.
  intros ((_ & _ & H1) & H2) Hw. apply nth_error_In in Hw.
  rewrite Forall_forall in H1, H2. auto.
Qed.

Lemma stream_rest shuf epoch cs ivs :
  stream shuf epoch (cs, ivs) = chunk_order shuf (length cs) epoch 0 (combine (skipn 0 cs) (skipn 0 ivs)).
Proof. reflexivity. Qed.

Lemma stream_length shuf epoch w :
  shuf_ok shuf -> length (fst w) = length (snd w) ->
  length (stream shuf epoch w) = sum (map iv_size (snd w)).
Proof.
  intros Hs Hl. destruct w as [cs ivs]; cbn [fst snd] in *. rewrite stream_rest.
  eapply (rest_length shuf cs ivs epoch); [exact 0|apply shuf_ok_length; exact Hs|exact Hl].
Qed.

Theorem fresh_run shuf env nw wrank epoch a n w :
  shuf_ok shuf -> assignment_ok n a -> nth_error (workers a) (global_rank env * nw + wrank) = Some w ->
  exists s0 reqs s', iter_fresh env nw wrank epoch a = Ok s0 /\ Run shuf s0 reqs s' /\
    map req_sample reqs = stream shuf epoch w /\
    d_epoch s' = epoch + 1 /\ d_restored s' = false /\
    map rq_last reqs = last_flags (length reqs) /\
    map rq_download reqs = first_download (fst w) (length reqs).
Proof.
  intros Hs Ha Hw. destruct (assignment_ok_worker _ _ _ _ Ha Hw) as [Hl Hne].
  destruct (workers_nth _ _ _ Hw) as [E1 E2]. unfold iter_fresh. rewrite E1, E2.
  destruct w as [cs ivs]; cbn [fst snd] in *.
  destruct (run_all shuf cs ivs epoch (sum (map iv_size ivs)) (shuf_ok_length _ Hs) Hl Hne
              (sum (map iv_size ivs)) [] 0 0 false false 0) as (reqs & s' & H1 & H2 & H3 & H4 & H5 & H6).
  { eapply (rest_length shuf cs ivs epoch); [exact 0|apply shuf_ok_length; exact Hs|exact Hl]. }
  { lia. } { congruence. } { lia. }
  eexists; exists reqs, s'. split; [reflexivity|]. split; [exact H1|]. split; [exact H2|]. auto.
Qed.

Lemma chunk_order_perm shuf n epoch k cis :
  shuf_ok shuf -> Permutation (chunk_order shuf n epoch k cis) (flat_map samples_of cis).
Proof.
  intros Hs. revert k; induction cis as [|[c iv] cis IH]; intros k; [constructor|].
  cbn [chunk_order flat_map]. apply Permutation_app; [|apply IH].
  unfold samples_of; cbn [fst snd]. apply Permutation_map, Hs.
Qed.

Lemma stream_perm shuf epoch w : shuf_ok shuf -> Permutation (stream shuf epoch w) (worker_samples w).
Proof. intros Hs. apply chunk_order_perm; exact Hs. Qed.

Lemma shuffle_call_ok rng shuffle seed : rng_ok rng -> shuf_ok (shuffle_call rng shuffle seed).
Proof.
  intros H l n e k. unfold shuffle_call. destruct shuffle; [|apply Permutation_refl].
  apply permute_Permutation, H.
Qed.

Lemma gather_length {A} (l : list A) idx r : gather l idx = Ok r -> length r = length idx.
Proof.
  revert r; induction idx as [|i idx IH]; intros r H; cbn [gather] in H.
  - injection H as <-. reflexivity.
  - destruct (nth_error l i); [|discriminate]. destruct (gather l idx) as [r'|]; cbn [bind] in H; [|discriminate].
    injection H as <-. cbn [length]. f_equal. apply IH; reflexivity.
Qed.

Lemma shuffle_assign_from_assign rng shuffle env seed dl nw B epoch ivs a :
  shuffle_assign rng shuffle env seed dl nw B epoch ivs = Ok a ->
  exists idx ivs', length idx = length ivs' /\ assign (world_size env) nw B dl idx ivs' = Ok a.
Proof.
  unfold shuffle_assign. destruct shuffle.
  - unfold full_shuffle_assign. set (p := permute _ _).
    destruct (gather ivs p) as [g|] eqn:Eg; cbn [bind]; [|discriminate].
    destruct (assign _ _ _ _ p g) as [a1|] eqn:Ea; cbn [bind]; [|discriminate].
    destruct ((epoch =? 1) || (num_nodes env =? 1)).
    + intros H; injection H as <-. exists p, g. split; [|exact Ea]. symmetry; eapply gather_length; exact Eg.
    + destruct (intra_node_shuffle rng env nw (fst a1) seed epoch) as [q|]; cbn [bind]; [|discriminate].
      destruct (gather ivs q) as [g'|] eqn:Eg'; cbn [bind]; [|discriminate].
      intros H. exists q, g'. split; [|exact H]. symmetry; eapply gather_length; exact Eg'.
  - intros H. exists (seq 0 (length ivs)), ivs. split; [apply seq_length|exact H].
Qed.

Lemma assign_assignment_ok W nw B dl idx ivs a :
  1 <= W -> 1 <= nw -> 1 <= B -> length idx = length ivs ->
  assign W nw B dl idx ivs = Ok a -> assignment_ok (W * nw) a.
Proof.
  intros HW Hnw HB Hl Ha. destruct (assign_main W nw B dl idx ivs HW Hnw HB Hl) as (a' & Ha' & Hsh & _ & _ & Hp).
  rewrite Ha in Ha'. injection Ha' as <-. split; [exact Hsh|].
  destruct Hsh as (_ & _ & Hl2).
  rewrite Forall_forall in *. intros w Hw. specialize (Hp w Hw). specialize (Hl2 w Hw).
  apply Forall_forall. intros iv Hiv. destruct w as [cs is]; cbn [fst snd] in *.
  assert (E : exists c, In (c, iv) (combine cs is)).
  { clear -Hl2 Hiv. revert is Hl2 Hiv; induction cs as [|c cs IH]; intros [|i is] Hl2 Hiv; cbn in *; try lia; try tauto.
    destruct Hiv as [->|Hiv]; [exists c; auto|]. destruct (IH is ltac:(lia) Hiv) as [c' Hc']. exists c'; auto. }
  destruct E as [c Hc]. rewrite Forall_forall in Hp. destruct (Hp _ Hc) as (iv0 & _ & Hsub).
  cbn [snd] in Hsub. unfold sub_interval in Hsub. lia.
Qed.

Lemma shuffle_assign_ok rng shuffle env seed dl nw B epoch ivs a :
  1 <= world_size env -> 1 <= nw -> 1 <= B ->
  shuffle_assign rng shuffle env seed dl nw B epoch ivs = Ok a -> assignment_ok (world_size env * nw) a.
Proof.
  intros HW Hnw HB H. destruct (shuffle_assign_from_assign _ _ _ _ _ _ _ _ _ _ H) as (idx & ivs' & Hl & Ha).
  eapply assign_assignment_ok; eauto.
Qed.

Lemma workers_length n a : shape_ok n a -> length (workers a) = n.
Proof. intros (H1 & H2 & _). unfold workers. rewrite combine_length. lia. Qed.

Lemma map_snd_combine {A B} (xs : list A) (ys : list B) : length xs = length ys -> map snd (combine xs ys) = ys.
Proof. revert ys; induction xs as [|x xs IH]; intros [|y ys] H; cbn in *; try lia; [reflexivity|]. f_equal; apply IH; lia. Qed.

Lemma firstn_skipn_all {A B} (P : A -> B -> Prop) (l : list A) n k :
  k + n <= length l -> (forall i x, i < n -> nth_error l (k + i) = Some x -> exists y, P x y) ->
  exists ys, length ys = n /\ Forall2 P (firstn n (skipn k l)) ys.
Proof.
  revert k; induction n as [|n IH]; intros k Hl H.
  - exists []. split; [reflexivity|constructor].
  - destruct (nth_error l k) as [x|] eqn:E; [|apply nth_error_None in E; lia].
    destruct (H 0 x ltac:(lia)) as [y Hy]; [rewrite Nat.add_0_r; exact E|].
    destruct (IH (S k)) as (ys & Hys & HF).
    { lia. }
    { intros i x' Hi Hx. apply (H (S i) x' ltac:(lia)). rewrite <- Hx. f_equal; lia. }
    exists (y :: ys). split; [cbn; lia|]. rewrite (skipn_nth_cons _ _ _ E). cbn [firstn]. constructor; auto.
Qed.
