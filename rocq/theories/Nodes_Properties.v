(** Properties of the end of [optimize] on several nodes. *)
From Coq Require Import String NArith Lia.
From Verif Require Import Base Names_Model Merge_Model Merge_Spec Merge_Proofs Merge_Properties Nodes_Model Nodes_Spec Nodes_Proofs.
Local Open Scope list_scope.
Local Open Scope nat_scope.

(** C192: whatever the order of the nodes' steps, with a bucket or a directory without index files of nodes, the index of the
    dataset is either not yet there or lists the chunks of all nodes. *)
Theorem C192_partial {chunk config} (same : config -> config -> bool) cloud (nodes : list (list (nat * index chunk config))) dirs c st schedule :
  (forall a b, same a b = true <-> a = b) -> 2 <= length nodes <= 10 -> nodes_wrote nodes dirs c ->
  (forall k, st (node_index k) = None) -> st index_json = None ->
  fst (run same cloud dirs None st schedule) index_json = None \/
  fst (run same cloud dirs None st schedule) index_json = Some (whole_index nodes c).
Proof.
  intros Hs Hl Hw Hc Hn. pose proof (C43_nodes_partial same nodes dirs c Hs Hw Hl) as E.
  assert (Hd : length dirs = length nodes) by (clear - Hw; induction Hw; cbn; lia).
  destruct (safe_run same cloud dirs None st schedule ltac:(lia) Hc) as [H|(i & H1 & H2)]; [left; congruence|right].
  rewrite E in H1. injection H1 as <-. exact H2.
Qed.
Print Assumptions C192_partial.

(** ... and it is there, and the last node ends, once each of the other nodes did two steps and then the last one enough. In a
    local directory the last node must not begin before the others have ended; then files of earlier runs do no harm. *)
Theorem C192_ends_partial {chunk config} (same : config -> config -> bool) cloud (nodes : list (list (nat * index chunk config))) dirs c st first rest :
  (forall a b, same a b = true <-> a = b) -> 2 <= length nodes <= 10 -> nodes_wrote nodes dirs c ->
  cloud = true /\ (forall k, st (node_index k) = None) \/ ~ In (length nodes - 1) first ->
  enough_steps (length nodes) first rest ->
  let r := run same cloud dirs None st (first ++ rest) in
  fst r index_json = Some (whole_index nodes c) /\ snd r (length nodes - 1) = Done.
Proof.
  intros Hs Hl Hw Hc [H1 H2]. pose proof (C43_nodes_partial same nodes dirs c Hs Hw Hl) as E.
  assert (Hd : length dirs = length nodes) by (clear - Hw; induction Hw; cbn; lia). rewrite <- Hd in *.
  exact (live_run same cloud dirs None st first rest _ ltac:(lia) Hc E H1 H2).
Qed.
Print Assumptions C192_ends_partial.

Definition w (n : nat) : list (nat * index nat nat) := [(n, Index [10 * n; 10 * n + 1] (Some 7))].
Definition d (n : nat) : list (str * index nat nat) := [(worker_index n, Index [10 * n; 10 * n + 1] (Some 7))].
Definition nothing_stored : store nat nat := fun _ => None.
Lemma wrote3 : nodes_wrote [w 0; w 1; w 2] [d 0; d 1; d 2] 7.
Proof.
  repeat constructor; try discriminate; unfold same_width; cbn [map fst In]; intros r r' [<-|[]] [<-|[]]; reflexivity.
Qed.

(** Three nodes; the last one begins and waits for the others, in the end for node 0. *)
Example C192_case :
  nodes_wrote [w 0; w 1; w 2] [d 0; d 1; d 2] 7 /\ enough_steps 3 [2; 2; 1; 2; 1; 2; 0; 2; 0] [2; 2; 2; 2; 2] /\
  fst (run Nat.eqb true [d 0; d 1; d 2] None nothing_stored [2; 2; 1; 2; 1; 2; 0; 2; 0]) index_json = None /\
  fst (run Nat.eqb true [d 0; d 1; d 2] None nothing_stored ([2; 2; 1; 2; 1; 2; 0; 2; 0] ++ [2; 2; 2; 2; 2])) index_json = Some (whole_index [w 0; w 1; w 2] 7).
Proof.
  split; [exact wrote3|]. split; [|split; reflexivity]. split; [|vm_compute; lia].
  intros n Hn. destruct n as [|[|n]]; vm_compute; lia.
Qed.

(** False for local directories: the last node does not wait for the others and raises. *)
Theorem C192_local_refuted :
  exists (nodes : list (list (nat * index nat nat))) dirs c schedule, nodes_wrote nodes dirs c /\ length nodes = 3 /\
    forall rest, snd (run Nat.eqb false dirs None nothing_stored (schedule ++ rest)) 2 = Failed FileNotFoundError /\
                 fst (run Nat.eqb false dirs None nothing_stored (schedule ++ rest)) index_json = None.
Proof.
  exists [w 0; w 1; w 2], [d 0; d 1; d 2], 7, [2; 2; 2]. split; [exact wrote3|]. split; [reflexivity|]. intros rest.
  assert (Hc : forall k, nothing_stored (node_index k) = None) by reflexivity.
  assert (F : snd (run Nat.eqb false [d 0; d 1; d 2] None nothing_stored ([2; 2; 2] ++ rest)) 2 = Failed FileNotFoundError).
  { unfold run. rewrite fold_left_app.
    assert (G : forall sch s, snd s 2 = Failed FileNotFoundError -> snd (fold_left (step Nat.eqb false [d 0; d 1; d 2] None) sch s) 2 = Failed FileNotFoundError).
    { induction sch as [|m sch IH]; intros s Hs; [exact Hs|]. cbn [fold_left]. apply IH. destruct (Nat.eq_dec m 2) as [->|Hm].
      - destruct s as [st0 at_]. cbn [snd] in *. unfold step. cbn [nth_error]. rewrite Hs. exact Hs.
      - rewrite step_other by congruence. exact Hs. }
    apply G. vm_compute. reflexivity. }
  split; [exact F|].
  pose proof (run_inv Nat.eqb false [d 0; d 1; d 2] None None ([2; 2; 2] ++ rest) _ ltac:(cbn; lia) (clean_inv Nat.eqb false [d 0; d 1; d 2] None nothing_stored Hc)) as (_ & _ & HF).
  cbn [length Nat.sub] in HF. unfold run in F |- *. rewrite F in HF. exact HF.
Qed.
Print Assumptions C192_local_refuted.

(** False after an earlier run, whose files of the nodes are still there (only the index of the dataset and the chunks are
    removed from a directory, and nothing from a bucket to which one appends): the index lists chunks of the earlier run. *)
Theorem C192_second_run_refuted :
  exists cloud (dirs1 dirs2 : list (list (str * index nat nat))) schedule1 schedule2 st1 i,
    run Nat.eqb cloud dirs1 None nothing_stored schedule1 = st1 /\ fst st1 index_json <> None /\
    let st := fun x => if same_name x index_json then None else fst st1 x in
    let r := run Nat.eqb cloud dirs2 None st schedule2 in
    snd r 0 = Done /\ snd r 1 = Done /\ fst r index_json = Some i /\ i_chunks i = [0; 1; 40; 41] /\
    ~ In 0 (flat_map (fun f => i_chunks (snd f)) (concat dirs2)) /\ In 30 (flat_map (fun f => i_chunks (snd f)) (concat dirs2)).
Proof.
  exists true, [d 0; d 1], [d 3; d 4], [0; 0; 1; 1; 1; 1], [1; 1; 1; 1; 0; 0]. eexists _, _. split; [reflexivity|].
  split; [vm_compute; discriminate|]. cbn zeta. repeat (apply conj; [vm_compute; reflexivity|]).
  split; [vm_compute; intuition lia|vm_compute; auto].
Qed.
Print Assumptions C192_second_run_refuted.

(** False when a node fails: with a bucket the last node waits for ever. *)
Theorem C192_failed_node_refuted :
  exists dirs : list (list (str * index nat nat)), length dirs = 2 /\ forall schedule,
    let r := run Nat.eqb true dirs None nothing_stored schedule in
    fst r index_json = None /\ snd r 1 <> Done /\ forall e, snd r 1 <> Failed e.
Proof.
  exists [[(worker_index 0, Index [1] (Some 0)); (worker_index 1, Index [2] (Some 1))]; d 4]. split; [reflexivity|]. intros schedule.
  apply (waits_run Nat.eqb [[(worker_index 0, Index [1] (Some 0)); (worker_index 1, Index [2] (Some 1))]; d 4] None nothing_stored schedule 0 GenericException [(node_index 1, Index [40; 41] (Some 7))]);
    [cbn; lia|reflexivity|cbn; lia|vm_compute; reflexivity|vm_compute; reflexivity].
Qed.
Print Assumptions C192_failed_node_refuted.
