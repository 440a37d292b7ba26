(** Lemmas about the shuffled assignments. *)
From Verif Require Import Base Assign_Model Assign_Spec Assign_Proofs.

Lemma permute_seq p n : Forall (fun i => i < n) p -> permute p (seq 0 n) = p.
Proof.
  unfold permute. induction 1 as [|i p Hi _ IH]; [reflexivity|].
  cbn [flat_map]. rewrite (nth_error_nth' _ 0) by (rewrite seq_length; exact Hi).
  rewrite seq_nth by exact Hi. cbn. f_equal; exact IH.
Qed.

Lemma permute_id {A} (l : list A) : permute (seq 0 (length l)) l = l.
Proof.
  unfold permute.
  assert (H : forall (pre l : list A),
             flat_map (fun i => match nth_error (pre ++ l) i with Some x => [x] | None => [] end)
                      (seq (length pre) (length l)) = l).
  { intros pre m; revert pre; induction m as [|x m IH]; intros pre; [reflexivity|].
    cbn [length seq flat_map].
    rewrite nth_error_app2, Nat.sub_diag by lia. cbn [nth_error app]. f_equal.
    specialize (IH (pre ++ [x])). rewrite app_length in IH. cbn [length] in IH.
    replace (length pre + 1) with (S (length pre)) in IH by lia.
    rewrite <- app_assoc in IH. exact IH. }
  exact (H [] l).
Qed.

Lemma permute_Permutation {A} p (l : list A) :
  Permutation p (seq 0 (length l)) -> Permutation (permute p l) l.
Proof.
  intros H. rewrite <- (permute_id l) at 2. unfold permute.
  apply Permutation_flat_map. exact H.
Qed.

Lemma Permutation_seq_lt p n : Permutation p (seq 0 n) -> Forall (fun i => i < n) p.
Proof.
  intros H. apply Forall_forall. intros i Hi. apply (Permutation_in _ H) in Hi.
  apply in_seq in Hi. lia.
Qed.

Lemma gather_ok {A} (l : list A) idx :
  Forall (fun i => i < length l) idx -> exists r, gather l idx = Ok r /\ length r = length idx /\
    (forall d, r = map (fun i => nth i l d) idx).
Proof.
  induction 1 as [|i idx Hi _ (r & Hr & Hl & Hn)].
  - exists []. repeat split; auto.
  - cbn [gather]. destruct (nth_error l i) as [x|] eqn:E.
    + rewrite Hr. cbn [bind]. exists (x :: r). repeat split; [cbn; lia|].
      intros d. cbn [map]. rewrite <- (Hn d). f_equal. symmetry; apply nth_error_nth; exact E.
    + apply nth_error_None in E. lia.
Qed.

Definition dIv := Iv 0 0 0 0.

Lemma combine_map_r {A B} (f : A -> B) l : combine l (map f l) = map (fun x => (x, f x)) l.
Proof. induction l as [|x l IH]; simpl; [reflexivity|]. f_equal; exact IH. Qed.

(** Samples of the dataset as a function of the list of chunk indexes. *)
Lemma dataset_samples_map ivs idx :
  dataset_samples idx (map (fun i => nth i ivs dIv) idx) = flat_map (fun i => samples_of (i, nth i ivs dIv)) idx.
Proof.
  unfold dataset_samples. rewrite combine_map_r.
  rewrite flat_map_concat_map, map_map, <- flat_map_concat_map. reflexivity.
Qed.

Lemma ivs_as_map ivs : map (fun i => nth i ivs dIv) (seq 0 (length ivs)) = ivs.
Proof.
  apply nth_ext with (d := dIv) (d' := dIv); rewrite map_length, seq_length; [reflexivity|].
  intros n Hn. rewrite (nth_indep _ dIv (nth 0 ivs dIv)) by (rewrite map_length, seq_length; exact Hn).
  rewrite (map_nth (fun i => nth i ivs dIv) (seq 0 (length ivs)) 0), seq_nth by exact Hn. reflexivity.
Qed.

Lemma dataset_samples_perm ivs p :
  Permutation p (seq 0 (length ivs)) ->
  Permutation (dataset_samples p (map (fun i => nth i ivs dIv) p)) (dataset_samples (seq 0 (length ivs)) ivs).
Proof.
  intros H.
  replace (dataset_samples (seq 0 (length ivs)) ivs)
    with (dataset_samples (seq 0 (length ivs)) (map (fun i => nth i ivs dIv) (seq 0 (length ivs))))
    by (rewrite ivs_as_map; reflexivity).
  rewrite !dataset_samples_map.
  apply Permutation_flat_map. exact H.
Qed.

(** ** One node (or first epoch) *)

Lemma full_shuffle_first rng env seed dl nw B epoch ivs :
  rng_ok rng -> (epoch = 1 \/ num_nodes env = 1) ->
  exists p, Permutation p (seq 0 (length ivs)) /\
    full_shuffle_assign rng env seed dl nw B epoch ivs =
    assign (world_size env) nw B dl p (map (fun i => nth i ivs dIv) p).
Proof.
  intros Hrng Hc. unfold full_shuffle_assign.
  set (p := rng [seed; if 1 <? num_nodes env then 1 else epoch] (length ivs)).
  assert (Hp : Permutation p (seq 0 (length ivs))) by apply Hrng.
  rewrite permute_seq by (apply Permutation_seq_lt; exact Hp).
  destruct (gather_ok ivs p) as (r & Hr & _ & Hn); [apply Permutation_seq_lt; exact Hp|].
  rewrite Hr, (Hn dIv). cbn [bind].
  exists p; split; [exact Hp|].
  destruct (assign (world_size env) nw B dl p (map (fun i => nth i ivs dIv) p)) as [a|e]; [|reflexivity].
  cbn [bind]. replace ((epoch =? 1) || (num_nodes env =? 1)) with true; [reflexivity|].
  symmetry; apply orb_true_iff. destruct Hc as [E|E]; [left|right]; apply Nat.eqb_eq; exact E.
Qed.

Lemma sum_map_perm ivs p :
  Permutation p (seq 0 (length ivs)) ->
  sum (map iv_size (map (fun i => nth i ivs dIv) p)) = sum (map iv_size ivs).
Proof.
  intros H.
  replace (map iv_size ivs) with (map iv_size (map (fun i => nth i ivs dIv) (seq 0 (length ivs))))
    by (rewrite ivs_as_map; reflexivity).
  apply sum_Permutation.
  rewrite !map_map. apply Permutation_map. exact H.
Qed.

(** ** Grouping by nodes keeps the chunks *)

Lemma concat_upd_perm {A} k (x : list A) (ls : list (list A)) :
  k < length ls -> Permutation (concat (upd k (fun l => l ++ x) ls)) (concat ls ++ x).
Proof.
  revert k; induction ls as [|l ls IH]; intros [|k] H; cbn [length] in *; try lia; cbn [upd concat].
  - rewrite <- !app_assoc. apply Permutation_app_head, Permutation_app_comm.
  - rewrite <- app_assoc. apply Permutation_app_head. apply IH; lia.
Qed.

Lemma group_by_nodes_loop_ok wid cpw W nodes nw acc :
  1 <= nw -> 1 <= W / nodes -> length acc = nodes ->
  (wid + length cpw) <= nodes * (W / nodes) * nw ->
  exists g, group_by_nodes_loop wid cpw W nodes nw acc = Ok g /\ length g = nodes /\
            Permutation (concat g) (concat acc ++ concat cpw).
Proof.
  intros Hnw HWn. set (m := W / nodes) in *.
  revert wid acc; induction cpw as [|c cpw IH]; intros wid acc Hacc Hb.
  { exists acc. cbn. rewrite app_nil_r. repeat split; auto. }
  cbn [group_by_nodes_loop]. fold m.
  replace (nw =? 0) with false by lia. replace (m =? 0) with false by lia.
  cbn [length] in Hb.
  assert (Hlt : wid / nw / m < nodes).
  { rewrite Nat.div_div by lia. apply Nat.div_lt_upper_bound; [nia|].
    replace (nw * m * nodes) with (nodes * m * nw) by lia. lia. }
  replace (wid / nw / m <? length acc) with true by lia.
  destruct (IH (S wid) (upd (wid / nw / m) (fun l => l ++ c) acc)) as (g & Hg & Hgl & Hp).
  { rewrite upd_length; exact Hacc. }
  { lia. }
  exists g. repeat split; auto.
  rewrite Hp. cbn [concat]. rewrite concat_upd_perm by (rewrite Hacc; exact Hlt).
  rewrite <- app_assoc. reflexivity.
Qed.

Lemma concat_repeat_nil {A} n : concat (repeat (@nil A) n) = [].
Proof. induction n as [|n IH]; [reflexivity|exact IH]. Qed.

Lemma intra_node_shuffle_ok rng env nw cpw seed epoch :
  rng_ok rng -> 1 <= nw -> 1 <= num_nodes env ->
  num_nodes env * (world_size env / num_nodes env) = world_size env -> 1 <= world_size env ->
  length cpw = world_size env * nw ->
  exists idx, intra_node_shuffle rng env nw cpw seed epoch = Ok idx /\ Permutation idx (concat cpw).
Proof.
  intros Hrng Hnw Hn Hdiv HW Hlen.
  unfold intra_node_shuffle, group_by_nodes. replace (num_nodes env =? 0) with false by lia.
  destruct (group_by_nodes_loop_ok 0 cpw (world_size env) (num_nodes env) nw (repeat [] (num_nodes env)))
    as (g & Hg & _ & Hp).
  { exact Hnw. }
  { destruct (world_size env / num_nodes env); lia. }
  { apply repeat_length. }
  { rewrite Hdiv. lia. }
  rewrite Hg. cbn [bind]. eexists; split; [reflexivity|].
  rewrite concat_repeat_nil in Hp. cbn [app] in Hp. rewrite <- Hp.
  rewrite concat_map_flat_map.
  replace (concat g) with (flat_map (fun l : list nat => l) g) by (rewrite flat_map_concat_map, map_id; reflexivity).
  apply Permutation_flat_map_ext. intros l _. apply permute_Permutation, Hrng.
Qed.

(** ** Several nodes, later epochs, no chunk shared *)

Lemma in_concat_fst (a : list (list nat) * list (list interval)) n c :
  shape_ok n a -> (In c (concat (fst a)) <-> exists w iv, In w (workers a) /\ In (c, iv) (combine (fst w) (snd w))).
Proof.
  intros (H1 & H2 & H3). destruct a as [cs is]. unfold workers in *; cbn [fst snd] in *.
  assert (Hl : length cs = length is) by lia. clear H1 H2.
  revert is Hl H3; induction cs as [|c0 cs IH]; intros [|i0 is] Hl H3; cbn [length combine concat] in *; try lia.
  { split; [intros []|intros (w & iv & [] & _)]. }
  inversion H3 as [|? ? Hh Ht]; subst. cbn [fst snd] in Hh.
  rewrite in_app_iff, (IH is) by (auto; lia). split.
  - intros [Hin|(w & iv & Hw & Hc)].
    + destruct (In_nth_error _ _ Hin) as [k Hk].
      assert (Hkl : k < length c0) by (apply nth_error_Some; congruence).
      exists (c0, i0), (nth k i0 dIv). split; [left; reflexivity|]. cbn [fst snd].
      rewrite (nth_error_nth' c0 0 Hkl) in Hk. injection Hk as Hk.
      rewrite <- Hk, <- combine_nth by exact Hh. apply nth_In. rewrite combine_length; lia.
    + exists w, iv. split; [right; exact Hw|exact Hc].
  - intros (w & iv & [Hw|Hw] & Hc).
    + subst w. left. cbn [fst snd] in Hc. eapply in_combine_l; exact Hc.
    + right. exists w, iv. auto.
Qed.

Lemma in_dataset_samples c i idx ivs :
  In (c, i) (dataset_samples idx ivs) <->
  exists iv, In (c, iv) (combine idx ivs) /\ iv_rs iv <= i < iv_re iv.
Proof.
  unfold dataset_samples. rewrite in_flat_map. split.
  - intros ([c' iv] & H1 & H2). unfold samples_of in H2; cbn [fst snd] in H2.
    apply in_map_iff in H2. destruct H2 as (j & Hj & Hs). apply in_seq in Hs.
    injection Hj as -> ->. exists iv. split; [exact H1|lia].
  - intros (iv & H1 & H2). exists (c, iv). split; [exact H1|].
    unfold samples_of; cbn [fst snd]. apply in_map_iff. exists i. split; [reflexivity|]. apply in_seq; lia.
Qed.

Lemma in_combine_map_nth c iv p ivs :
  In (c, iv) (combine p (map (fun i => nth i ivs dIv) p)) -> In c p /\ iv = nth c ivs dIv.
Proof.
  rewrite combine_map_r. intros H. apply in_map_iff in H. destruct H as (x & Hx & Hin).
  injection Hx as -> ->. auto.
Qed.

Lemma flat_map_filter_nil {A B} (f : A -> list B) (p : A -> bool) l :
  (forall x, p x = false -> f x = []) -> flat_map f (filter p l) = flat_map f l.
Proof.
  intros H; induction l as [|x l IH]; [reflexivity|]. cbn [filter flat_map].
  destruct (p x) eqn:E; cbn [flat_map]; rewrite IH; [reflexivity|]. rewrite (H x E). reflexivity.
Qed.

Theorem multi_node_unshared rng env seed nw B epoch ivs first :
  rng_ok rng -> 1 <= nw -> 1 <= B -> 1 < num_nodes env -> 1 <= world_size env ->
  num_nodes env * (world_size env / num_nodes env) = world_size env ->
  full_shuffle_assign rng env seed false nw B 1 ivs = Ok first ->
  NoDup (concat (fst first)) ->
  exists a, full_shuffle_assign rng env seed false nw B epoch ivs = Ok a /\
    shape_ok (world_size env * nw) a /\
    Permutation (flat_map worker_samples (workers a)) (dataset_samples (seq 0 (length ivs)) ivs).
Proof.
  intros Hrng Hnw HB Hn HW Hdiv Hfirst Hnd.
  set (p := rng [seed; 1] (length ivs)).
  assert (Hp : Permutation p (seq 0 (length ivs))) by apply Hrng.
  assert (Hplt := Permutation_seq_lt _ _ Hp).
  destruct (gather_ok ivs p Hplt) as (r & Hr & _ & Hrn). rewrite (Hrn dIv) in Hr. clear Hrn r.
  assert (E1 : full_shuffle_assign rng env seed false nw B 1 ivs =
               assign (world_size env) nw B false p (map (fun i => nth i ivs dIv) p)).
  { unfold full_shuffle_assign. replace (1 <? num_nodes env) with true by lia.
    fold p. rewrite permute_seq by exact Hplt. rewrite Hr. cbn [bind].
    destruct (assign _ _ _ _ _ _) as [a|e]; reflexivity. }
  rewrite E1 in Hfirst.
  destruct (assign_main (world_size env) nw B false p (map (fun i => nth i ivs dIv) p) HW Hnw HB)
    as (a0 & Ha0 & Hshape & Hsam & _ & Hprov); [rewrite map_length; reflexivity|].
  rewrite Hfirst in Ha0. injection Ha0 as <-.
  rewrite firstn_all2 in Hsam
    by (rewrite dataset_samples_length by (rewrite map_length; reflexivity); lia).
  (* the chunks of the first assignment are exactly the non-empty ones *)
  assert (Hchunks : Permutation (concat (fst first))
                      (filter (fun c => 0 <? iv_size (nth c ivs dIv)) (seq 0 (length ivs)))).
  { apply NoDup_Permutation; [exact Hnd|apply NoDup_filter, seq_NoDup|].
    intros c. rewrite filter_In, (in_concat_fst first _ c Hshape), in_seq. split.
    - intros (w & iv & Hw & Hc). rewrite Forall_forall in Hprov. specialize (Hprov w Hw).
      rewrite Forall_forall in Hprov. specialize (Hprov (c, iv) Hc). cbn [fst snd] in Hprov.
      destruct Hprov as (iv0 & Hin & (S1 & S2 & S3 & S4 & S5)).
      destruct (in_combine_map_nth _ _ _ _ Hin) as (Hcp & ->).
      rewrite Forall_forall in Hplt. specialize (Hplt c Hcp). split; [lia|].
      unfold iv_size; lia.
    - intros (Hc & Hsz). unfold iv_size in Hsz.
      set (iv := nth c ivs dIv) in *.
      assert (Hin : In (c, iv_rs iv) (flat_map worker_samples (workers first))).
      { rewrite Hsam. apply in_dataset_samples. exists iv. split; [|lia].
        rewrite combine_map_r. apply in_map_iff. exists c. split; [reflexivity|].
        apply (Permutation_in _ (Permutation_sym Hp)), in_seq. lia. }
      apply in_flat_map in Hin. destruct Hin as (w & Hw & Hs).
      unfold worker_samples in Hs. apply in_dataset_samples in Hs. destruct Hs as (iv1 & Hs & _).
      exists w, iv1. auto. }
  destruct ((epoch =? 1) || (num_nodes env =? 1)) eqn:Eep.
  { exists first. replace (num_nodes env =? 1) with false in Eep by lia. rewrite orb_false_r in Eep.
    apply Nat.eqb_eq in Eep; subst epoch. rewrite E1. split; [exact Hfirst|]. split; [exact Hshape|].
    rewrite Hsam. apply dataset_samples_perm; exact Hp. }
  destruct Hshape as (Hs1 & Hs2 & Hs3).
  destruct (intra_node_shuffle_ok rng env nw (fst first) seed epoch) as (idx & Hidx & Hidxp); auto; try lia.
  assert (Hidxlt : Forall (fun i => i < length ivs) idx).
  { apply Forall_forall. intros c Hc. apply (Permutation_in _ Hidxp) in Hc.
    apply (Permutation_in _ Hchunks) in Hc. apply filter_In in Hc. destruct Hc as [Hc _].
    apply in_seq in Hc. lia. }
  destruct (gather_ok ivs idx Hidxlt) as (r & Hr2 & _ & Hrn). rewrite (Hrn dIv) in Hr2.
  destruct (assign_main (world_size env) nw B false idx (map (fun i => nth i ivs dIv) idx) HW Hnw HB)
    as (a & Ha & Hshape' & Hsam' & _ & _); [rewrite map_length; reflexivity|].
  exists a. split; [|split; [exact Hshape'|]].
  - unfold full_shuffle_assign. replace (1 <? num_nodes env) with true by lia.
    fold p. rewrite permute_seq by exact Hplt. rewrite Hr. cbn [bind]. rewrite Hfirst. cbn [bind].
    rewrite Eep, Hidx. cbn [bind]. rewrite Hr2. cbn [bind]. exact Ha.
  - rewrite Hsam'.
    rewrite firstn_all2 by (rewrite dataset_samples_length by (rewrite map_length; reflexivity); lia).
    rewrite dataset_samples_map.
    replace (dataset_samples (seq 0 (length ivs)) ivs)
      with (flat_map (fun i => samples_of (i, nth i ivs dIv)) (seq 0 (length ivs)))
      by (rewrite <- dataset_samples_map, ivs_as_map; reflexivity).
    rewrite <- (flat_map_filter_nil _ (fun c => 0 <? iv_size (nth c ivs dIv)) (seq 0 (length ivs))).
    2:{ intros c Hc. apply samples_of_empty. cbn [snd]. lia. }
    apply Permutation_flat_map. etransitivity; eassumption.
Qed.
