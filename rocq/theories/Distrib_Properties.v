(** Distribution of the inputs of map/optimize: the properties. *)
From Verif Require Import Base Assign_Model Shuffle_Proofs Distrib_Model Distrib_Spec Distrib_Proofs.

(** C26: greedy packing.  [placed] says which (item, weight) pairs went into which bin:
    every pair is in exactly one bin, the reported weight of a bin is the sum of the
    weights of its items, and no bin is heavier than another by more than any of the
    weights it holds, so (second theorem) not by more than the largest weight. *)
Theorem C26_pack_greedily {A} (items : list A) weights num_bins :
  length items = length weights -> 1 <= num_bins -> Forall (fun w => (0 < w)%Z) weights ->
  exists placed : list (list (A * Z)),
    pack_greedily items weights num_bins = Ok (map (fun p => (map fst p, zsum (map snd p))) placed) /\
    length placed = num_bins /\
    Permutation (concat placed) (combine items weights) /\
    (forall p q x, In p placed -> In q placed -> In x p -> (zsum (map snd p) <= zsum (map snd q) + snd x)%Z).
Proof. apply pack_ok. Qed.
Print Assumptions C26_pack_greedily.

Theorem C26_gap {A} (items : list A) weights num_bins W bins b c :
  length items = length weights -> 1 <= num_bins -> (0 <= W)%Z -> Forall (fun w => (0 < w <= W)%Z) weights ->
  pack_greedily items weights num_bins = Ok bins -> In b bins -> In c bins -> (snd b <= snd c + W)%Z.
Proof.
  intros Hl Hn HW Hw E Hb Hc.
  assert (Hpos : Forall (fun w => (0 < w)%Z) weights) by (eapply Forall_impl; [|exact Hw]; cbn beta; lia).
  destruct (pack_ok items weights num_bins Hl Hn Hpos) as (placed & E' & _ & P & B).
  rewrite E in E'. injection E' as ->.
  apply in_map_iff in Hb. destruct Hb as (p & <- & Hp). apply in_map_iff in Hc. destruct Hc as (q & <- & Hq). cbn [snd].
  assert (Hin : forall r x, In r placed -> In x r -> (0 < snd x <= W)%Z).
  { intros r [a w] Hr Hx. assert (In (a, w) (combine items weights)) by (apply (Permutation_in _ P), in_concat; eauto).
    apply in_combine_r in H. rewrite Forall_forall in Hw. apply Hw. exact H. }
  assert (0 <= zsum (map snd q))%Z.
  { specialize (Hin q). assert (forall x, In x q -> (0 < snd x)%Z) by (intros x Hx; apply Hin; assumption). clear -H.
    induction q as [|x q IH]; cbn [map zsum]; [lia|]. specialize (IH (fun y Hy => H y (or_intror Hy))).
    specialize (H x (or_introl eq_refl)). lia. }
  destruct p as [|x p]; [cbn [map zsum]; lia|].
  specialize (B (x :: p) q x Hp Hq (or_introl eq_refl)). specialize (Hin (x :: p) x Hp (or_introl eq_refl)). lia.
Qed.
Print Assumptions C26_gap.

Example C26_case :
  pack_greedily [10; 11; 12; 13; 14] [5; 3; 3; 2; 2]%Z 2 = Ok [([10; 13], 7%Z); ([11; 12; 14], 8%Z)].
Proof. reflexivity. Qed.

(** C26: a length mismatch or a non-positive weight raises ValueError. *)
Theorem C26_bad_input {A} (items : list A) weights num_bins :
  length items <> length weights \/ Exists (fun w => (w <= 0)%Z) weights ->
  pack_greedily items weights num_bins = Err ValueError.
Proof.
  intros H. unfold pack_greedily. destruct (Nat.eqb_spec (length items) (length weights)) as [E|E]; [|reflexivity].
  destruct H as [H|H]; [contradiction|]. cbn [negb].
  replace (existsb (fun w => (w <=? 0)%Z) weights) with true; [reflexivity|].
  symmetry. apply existsb_exists. apply Exists_exists in H. destruct H as (w & H1 & H2). exists w. split; [exact H1|lia].
Qed.
Print Assumptions C26_bad_input.

Example C26_bad_case :
  pack_greedily [1; 2] [1]%Z 2 = Err ValueError /\ pack_greedily [1; 2] [1; 0]%Z 2 = Err ValueError.
Proof. split; reflexivity. Qed.

(** C27: without weights (and without reordering by file size) the shares of the
    workers, node after node, are consecutive pieces of the inputs in order, and
    their sizes differ by at most one. *)
Theorem C27_sequential {A} perm nodes nw (items : list A) :
  1 <= nodes -> 1 <= nw ->
  exists out, (forall r, r < nodes -> distribute perm nodes r nw items None None = Ok (out r) /\ length (out r) = nw) /\
    concat (all_nodes nodes out) = items /\ even_sizes (all_nodes nodes out).
Proof. intros; apply sequential_ok; assumption. Qed.
Print Assumptions C27_sequential.

Example C27_sequential_case : forall perm,
  distribute perm 2 0 2 [1; 2; 3; 4; 5; 6; 7] None None = Ok [[1]; [2; 3]] /\
  distribute perm 2 1 2 [1; 2; 3; 4; 5; 6; 7] None None = Ok [[4; 5]; [6; 7]].
Proof. intros; split; reflexivity. Qed.

(** C27: with weights given by the user ([weights]) or by the file sizes ([sizes]), every
    input is in the share of exactly one worker of exactly one node, whatever
    permutations the nodes draw. *)
Theorem C27_weighted {A} perm nodes nw (items : list A) weights sizes ws :
  (forall r w n, Permutation (perm r w n) (seq 0 n)) -> 1 <= nodes -> 1 <= nw ->
  (weights = Some ws \/ weights = None /\ sizes = Some ws) ->
  length ws = length items -> Forall (fun w => (0 < w)%Z) ws ->
  exists out, (forall r, r < nodes -> distribute (perm r) nodes r nw items weights sizes = Ok (out r) /\ length (out r) = nw) /\
    Permutation (concat (all_nodes nodes out)) items.
Proof.
  intros Hp Hn Hw Hc Hl Hpos.
  destruct (weighted_ok perm nodes nw items (Some ws) Hp Hn Hw (conj (eq_sym Hl) Hpos)) as (out & H & P).
  exists out. split; [|exact P]. intros r Hr. specialize (H r Hr).
  destruct Hc as [->|[-> ->]]; cbn [distribute]; [rewrite Hl, Nat.eqb_refl; cbn [negb]|]; exact H.
Qed.
Print Assumptions C27_weighted.

Example C27_weighted_case :
  let perm := fun w n => rev (seq 0 n) in
  distribute perm 2 0 1 [1; 2; 3; 4; 5] (Some [5; 1; 1; 4; 2]%Z) None = Ok [[3; 2; 1]] /\
  distribute perm 2 1 1 [1; 2; 3; 4; 5] (Some [5; 1; 1; 4; 2]%Z) None = Ok [[5; 4]].
Proof. split; reflexivity. Qed.

(** C27: no worker of any node stays without input if there are at least as many inputs as workers, whatever the weights. *)
Theorem C27_no_idle_worker {A} perm nodes nw (items : list A) weights sizes r out :
  (forall w n, Permutation (perm w n) (seq 0 n)) -> 1 <= nodes -> 1 <= nw -> nodes * nw <= length items -> r < nodes ->
  distribute perm nodes r nw items weights sizes = Ok out -> Forall (fun share => share <> []) out.
Proof. apply distribute_busy. Qed.
Print Assumptions C27_no_idle_worker.

Example C27_no_idle_worker_case :
  let perm := fun w n => rev (seq 0 n) in
  distribute perm 2 0 2 [1; 2; 3; 4] None (Some [900; 1; 1; 1]%Z) = Ok [[1]; [2]] /\
  distribute perm 2 1 2 [1; 2; 3; 4] None (Some [900; 1; 1; 1]%Z) = Ok [[3]; [4]] /\
  distribute perm 1 0 3 [1; 2; 3; 4; 5] (Some [9; 8; 1; 1; 1]%Z) None = Ok [[1]; [2]; [5; 4; 3]].
Proof. repeat split; reflexivity. Qed.

(** C27: weights of a wrong length or with a non-positive entry (an empty file when files are
    reordered by size) raise ValueError on every node instead of dropping inputs. *)
Theorem C27_bad_weights {A} perm nodes r nw (items : list A) weights sizes ws :
  (weights = Some ws \/ weights = None /\ sizes = Some ws) ->
  length ws <> length items \/ Exists (fun w => (w <= 0)%Z) ws ->
  distribute perm nodes r nw items weights sizes = Err ValueError.
Proof.
  intros Hc Hbad.
  assert (E : map_weighted perm nodes r nw items (Some ws) = Err ValueError).
  { unfold map_weighted. rewrite C26_bad_input; [reflexivity|]. destruct Hbad; auto. }
  destruct Hc as [->|[-> ->]]; cbn [distribute]; [|exact E].
  destruct (negb (length ws =? length items)); [reflexivity|exact E].
Qed.
Print Assumptions C27_bad_weights.

Example C27_bad_weights_case : forall perm,
  distribute perm 1 0 2 [1; 2; 3] None (Some [7; 0; 7]%Z) = Err ValueError.
Proof. reflexivity. Qed.

(** C49: batching. *)
Theorem C49_batches {A} b (inputs : list A) : 2 <= b ->
  exists batches, batch_inputs b inputs = Some batches /\ concat batches = inputs /\
    Forall (fun x => 1 <= length x <= b) batches /\
    (forall x, In x (removelast batches) -> length x = b).
Proof.
  intros Hb. unfold batch_inputs. replace (1 <? b) with true by lia.
  rewrite batch_from_ok by lia. cbn [skipn].
  exists (pieces b inputs). split; [reflexivity|]. split; [apply concat_pieces; lia|].
  induction inputs as [l IH] using list_len_ind. destruct l as [|x l]; [split; [constructor|contradiction]|].
  rewrite pieces_cons by (try lia; congruence).
  assert (Hlt : length (skipn b (x :: l)) < length (x :: l)) by (rewrite skipn_length; cbn [length]; lia).
  destruct (IH _ Hlt) as (F & R). split.
  - constructor; [|exact F]. rewrite firstn_length. cbn [length]. lia.
  - intros y Hy. destruct (pieces b (skipn b (x :: l))) as [|p ps] eqn:E; [contradiction|].
    cbn [removelast] in Hy. destruct Hy as [<-|Hy]; [|apply R; exact Hy].
    rewrite firstn_length. assert (skipn b (x :: l) <> []) by (intros E'; rewrite E' in E; discriminate).
    destruct (le_lt_dec b (length (x :: l))); [lia|]. rewrite skipn_all2 in H by lia. congruence.
Qed.
Print Assumptions C49_batches.

(** C49: without batching (batch size 1 or less) the inputs are passed on unchanged. *)
Theorem C49_no_batches {A} b (inputs : list A) : b <= 1 -> batch_inputs b inputs = None.
Proof. intros Hb. unfold batch_inputs. replace (1 <? b) with false by lia. reflexivity. Qed.
Print Assumptions C49_no_batches.

Example C49_case : batch_inputs 3 [1; 2; 3; 4; 5; 6; 7] = Some [[1; 2; 3]; [4; 5; 6]; [7]].
Proof. reflexivity. Qed.

(** C63: an integer [fast_dev_run] keeps that many inputs of every worker. *)
Theorem C63_integer_fast_dev_run {A} n (shares : list (list A)) : 1 <= n ->
  Forall2 (fun share kept => exists rest, share = kept ++ rest /\ length kept = Nat.min n (length share))
    shares (limit_items (FdrInt n) shares).
Proof.
  intros Hn. destruct n as [|n]; [lia|]. cbn [limit_items].
  induction shares as [|s l IH]; cbn [map]; constructor; [|exact IH].
  exists (skipn (S n) s). split; [symmetry; apply firstn_skipn|apply firstn_length].
Qed.
Print Assumptions C63_integer_fast_dev_run.
Theorem C63_no_fast_dev_run {A} (shares : list (list A)) : limit_items (FdrBool false) shares = shares.
Proof. reflexivity. Qed.
Print Assumptions C63_no_fast_dev_run.

Example C63_case : limit_items (FdrInt 2) [[1; 2; 3]; [4]; []; [5; 6]] = [[1; 2]; [4]; []; [5; 6]] /\
  limit_items (FdrBool false) [[1; 2; 3]; [4]] = [[1; 2; 3]; [4]].
Proof. split; reflexivity. Qed.

(** C63: [fast_dev_run=True] is documented by the default of ten inputs per worker
    ([_DEFAULT_FAST_DEV_RUN_ITEMS], constants.py); it keeps one. *)
Theorem C63_fast_dev_run_true_refuted :
  exists shares : list (list nat),
    limit_items (FdrBool true) shares <> map (firstn 10) shares /\ limit_items (FdrBool true) shares = map (firstn 1) shares.
Proof. exists [[1; 2; 3]; [4; 5]]. split; [vm_compute; congruence|reflexivity]. Qed.
Print Assumptions C63_fast_dev_run_true_refuted.
