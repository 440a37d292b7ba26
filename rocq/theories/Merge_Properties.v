(** Properties C43, C46, C85-C87: merging the index files of workers and nodes,
    and merging datasets. *)
From Coq Require Import String.
From Verif Require Import Base Names_Model Merge_Model Merge_Spec Merge_Proofs.
From Coq Require Import NArith Sorted.
Local Open Scope list_scope.
Local Open Scope nat_scope.

(** C43: the merged index lists the chunks of each file exactly once, whatever the
    files are called and however many there are. *)
Theorem C43_every_chunk_once {chunk config} (same : config -> config -> bool) files (c : config) :
  (forall a b, same a b = true <-> a = b) ->
  Forall (fun f : str * index chunk config => i_config (snd f) = Some c) files -> files <> [] ->
  exists chunks, merge_no_wait same files None None = Ok [(index_json, Index chunks (Some c))] /\
    Permutation chunks (flat_map (fun f => i_chunks (snd f)) files).
Proof.
  intros Hs F Hn. destruct (merge_all_once same Hs files None None c I F Hn) as (name & chunks & E & -> & new & -> & P).
  exists new. split; [exact E|exact P].
Qed.
Print Assumptions C43_every_chunk_once.

(** Worker by worker, if there are at most ten workers; workers without chunks have
    written no index. *)
Theorem C43_worker_order_partial {chunk config} (same : config -> config -> bool) (workers : list (index chunk config)) files (c : config) :
  (forall a b, same a b = true <-> a = b) ->
  length workers <= 10 ->
  Permutation files (flat_map (fun w => index_file (fst w) (snd w)) (combine (seq 0 (length workers)) workers)) ->
  Forall (fun i => i_chunks i <> [] -> i_config i = Some c) workers -> flat_map i_chunks workers <> [] ->
  merge_no_wait same files None None = Ok [(index_json, Index (flat_map i_chunks workers) (Some c))].
Proof.
  intros Hs Hl P F Hn. set (ws := combine (seq 0 (length workers)) workers) in *.
  assert (Hf : map fst ws = seq 0 (length workers)) by apply combine_seq_fst.
  assert (Ho : in_order ws = flat_map i_chunks workers).
  { unfold in_order, ws. generalize 0. clear. induction workers as [|i l IH]; intros n; [reflexivity|]. cbn. rewrite IH. reflexivity. }
  rewrite <- Ho in *. apply (merge_workers same Hs ws files None c); [| |exact P|exact Hn| |exact I].
  - unfold by_rank. rewrite Hf. apply seq_sorted.
  - intros r r'. rewrite Hf. intros Hr Hr'. apply in_seq in Hr, Hr'. rewrite !dec_one_digit by lia. reflexivity.
  - apply Forall_forall. intros [r i] Hin. apply in_combine_r in Hin. rewrite Forall_forall in F. exact (F i Hin).
Qed.
Print Assumptions C43_worker_order_partial.

(** More generally if the ranks have the same number of digits. *)
Theorem C43_rank_order_partial {chunk config} (same : config -> config -> bool) (ws : list (nat * index chunk config)) files (c : config) :
  (forall a b, same a b = true <-> a = b) ->
  by_rank ws -> same_width ws -> listing ws files -> ws <> [] ->
  Forall (fun w => i_config (snd w) = Some c) ws ->
  merge_no_wait same files None None = Ok [(index_json, Index (in_order ws) (Some c))].
Proof. intros Hs B W L Hn F. exact (merge_by_rank same Hs ws files None c B W L Hn F I). Qed.
Print Assumptions C43_rank_order_partial.

Definition two (r : nat) : index (nat * nat) nat := Index [(r, 0); (r, 1)] (Some 5).
Example C43_case :
  merge_no_wait Nat.eqb [(worker_index 2, two 2); (worker_index 0, two 0)] None None =
    Ok [(codes "index.json", Index [(0, 0); (0, 1); (2, 0); (2, 1)] (Some 5))] /\
  length [two 0; Index [] None; two 2] <= 10 /\
  flat_map (fun w => index_file (fst w) (snd w)) (combine (seq 0 3) [two 0; Index [] None; two 2]) =
    [(worker_index 0, two 0); (worker_index 2, two 2)].
Proof. split; [vm_compute; reflexivity|]. split; [cbn; lia|]. vm_compute. reflexivity. Qed.

(** With eleven workers the chunks of worker 10 come before those of worker 2. *)
Theorem C43_worker_order_refuted :
  exists (workers : list (index nat nat)) c,
    Forall (fun i => i_config i = Some c) workers /\
    merge_no_wait Nat.eqb (flat_map (fun w => index_file (fst w) (snd w)) (combine (seq 0 (length workers)) workers)) None None <>
      Ok [(index_json, Index (flat_map i_chunks workers) (Some c))].
Proof.
  exists (map (fun r => Index [r] (Some 0)) (seq 0 11)), 0. split.
  - apply Forall_forall. intros i Hi. apply in_map_iff in Hi. destruct Hi as (r & <- & _). reflexivity.
  - vm_compute. discriminate.
Qed.
Print Assumptions C43_worker_order_refuted.

(** Different configurations raise. *)
Theorem C43_different_configs {chunk config} (same : config -> config -> bool) files node existing (f g : str * index chunk config) c c' :
  (forall a b, same a b = true <-> a = b) ->
  In f files -> In g files -> i_config (snd f) = Some c -> i_config (snd g) = Some c' -> c <> c' ->
  merge_no_wait same files node existing = Err GenericException.
Proof. intros Hs. exact (merge_differ same Hs files node existing f g c c'). Qed.
Print Assumptions C43_different_configs.

Example C43_different_case :
  merge_no_wait Nat.eqb [(worker_index 0, two 0); (worker_index 1, Index [(1, 0)] (Some 6))] None None = Err GenericException.
Proof. vm_compute. reflexivity. Qed.

(** Several nodes (at most ten), each with an output: node by node, worker by worker. *)
Theorem C43_nodes_partial {chunk config} (same : config -> config -> bool) (nodes : list (list (nat * index chunk config))) dirs (c : config) :
  (forall a b, same a b = true <-> a = b) ->
  Forall2 (fun ws files => by_rank ws /\ same_width ws /\ listing ws files /\ ws <> [] /\
                           Forall (fun w => i_config (snd w) = Some c) ws) nodes dirs ->
  2 <= length nodes <= 10 ->
  finish same dirs None = Ok [(index_json, Index (flat_map in_order nodes) (Some c))].
Proof. intros Hs F Hl. exact (finish_nodes same Hs nodes dirs None c F I Hl). Qed.
Print Assumptions C43_nodes_partial.

Example C43_nodes_case :
  finish Nat.eqb [[(worker_index 1, two 1); (worker_index 0, two 0)]; [(worker_index 2, two 2)]] None =
    Ok [(index_json, Index [(0, 0); (0, 1); (1, 0); (1, 1); (2, 0); (2, 1)] (Some 5))].
Proof. vm_compute. reflexivity. Qed.

(** C85: waiting for the workers of a data loader.  If every worker writes an index,
    the looks before are ignored, and the first look that has all of them makes the
    complete index. *)
Theorem C85_merge_when_complete_partial {chunk config} (same : config -> config -> bool) ws early files later (c : config) :
  (forall a b, same a b = true <-> a = b) ->
  by_rank ws -> same_width ws -> @listing chunk config ws files -> ws <> [] ->
  Forall (fun w => i_config (snd w) = Some c) ws ->
  Forall (fun look => length look < length ws /\ ~ In index_json (map fst look)) early ->
  merge_wait same (length ws) (early ++ files :: later) = Some (Ok [(index_json, Index (in_order ws) (Some c))]).
Proof. intros Hs. exact (merge_waited same Hs ws early files later c). Qed.
Print Assumptions C85_merge_when_complete_partial.

Example C85_case :
  merge_wait Nat.eqb 2 [[]; [(worker_index 1, two 1)]; [(worker_index 1, two 1); (worker_index 0, two 0)]] =
    Some (Ok [(index_json, Index [(0, 0); (0, 1); (1, 0); (1, 1)] (Some 5))]).
Proof. vm_compute. reflexivity. Qed.

(** A process that looks after the merge finds the index and leaves all as it is, whatever the number of files. *)
Theorem C85_merged_before {chunk config} (same : config -> config -> bool) expected early (files : list (str * index chunk config)) later :
  Forall (fun look => length look <> expected /\ ~ In index_json (map fst look)) early -> In index_json (map fst files) ->
  merge_wait same expected (early ++ files :: later) = Some (Ok files).
Proof.
  intros F H. rewrite merge_wait_app by (apply merge_waits; exact F). cbn [merge_wait].
  match goal with |- (if ?b then _ else _) = _ => replace b with true; [reflexivity|symmetry] end.
  apply existsb_exists. apply in_map_iff in H. destruct H as (f & E & Hf). exists f. split; [exact Hf|].
  match goal with |- (if ?b then _ else _) = _ => destruct b as [?|n] end; [reflexivity|destruct (n E)].
Qed.
Print Assumptions C85_merged_before.

Example C85_merged_case :
  merge_wait Nat.eqb 2 [[]; [(worker_index 1, two 1)]; [(index_json, two 3)]; [(worker_index 0, two 0); (worker_index 1, two 1)]] = Some (Ok [(index_json, two 3)]) /\
  merge_wait Nat.eqb 1 [[(index_json, two 3)]] = Some (Ok [(index_json, two 3)]) /\
  merge_wait Nat.eqb 2 [[(index_json, two 3); (worker_index 0, two 0)]] = Some (Ok [(index_json, two 3); (worker_index 0, two 0)]).
Proof. repeat split; vm_compute; reflexivity. Qed.

(** A worker that got no sample writes no index, and the wait never ends: [n] is the
    number of looks. *)
Theorem C85_wait_forever_refuted :
  exists (workers : list (index nat nat)),
    forall n, merge_wait Nat.eqb (length workers)
      (repeat (flat_map (fun w => index_file (fst w) (snd w)) (combine (seq 0 (length workers)) workers)) n) = None.
Proof.
  exists [Index [7] (Some 0); Index [] None]. intros n. apply merge_waits. apply Forall_forall. intros look H.
  apply repeat_spec in H. subst look. cbn. split; [lia|]. intros [H|[]]. discriminate H.
Qed.
Print Assumptions C85_wait_forever_refuted.

(** C86: appending on one node (at most ten workers): the existing chunks, then the new ones. *)
Theorem C86_append_partial {chunk config} (same : config -> config -> bool) (old : index chunk config) ws files (c : config) :
  (forall a b, same a b = true <-> a = b) ->
  i_config old = Some c ->
  by_rank ws -> same_width ws -> Permutation files (flat_map (fun w => index_file (fst w) (snd w)) ws) ->
  Forall (fun w => i_chunks (snd w) <> [] -> i_config (snd w) = Some c) ws ->
  finish same [files] (Some old) = Ok [(index_json, Index (i_chunks old ++ in_order ws) (Some c))].
Proof.
  intros Hs Ho B W P F. cbn [finish]. destruct (in_order ws) as [|x l] eqn:E.
  - assert (files = []).
    { apply Permutation_nil. rewrite index_files_busy in P. symmetry in P.
      assert (G : filter (@busy chunk config) ws = []).
      { rewrite <- in_order_busy in E. unfold in_order in E. pose proof (filter_In (@busy chunk config)) as FI.
        assert (A : forall w, In w (filter busy ws) -> busy w = true) by (intros w Hw; apply FI in Hw; tauto).
        revert A E. destruct (filter busy ws) as [|w l]; [reflexivity|]. intros A E. specialize (A w (or_introl eq_refl)). unfold busy in A.
        cbn in E. destruct (i_chunks (snd w)); [discriminate A|discriminate E]. }
      rewrite G in P. exact P. }
    subst files. rewrite merge_nothing, app_nil_r. destruct old; cbn in Ho; subst; reflexivity.
  - rewrite <- E in *. apply (merge_workers same Hs ws files (Some old) c); try assumption. rewrite E. discriminate.
Qed.
Print Assumptions C86_append_partial.

Example C86_case :
  finish Nat.eqb [[(worker_index 1, two 1); (worker_index 0, two 0)]] (Some (Index [(8, 8); (9, 9)] (Some 5))) =
    Ok [(index_json, Index [(8, 8); (9, 9); (0, 0); (0, 1); (1, 0); (1, 1)] (Some 5))].
Proof. vm_compute. reflexivity. Qed.

(** On two nodes each existing chunk is listed twice. *)
Theorem C86_append_nodes_refuted :
  exists dirs (old : index nat nat) chunks c x,
    finish Nat.eqb dirs (Some old) = Ok [(index_json, Index chunks c)] /\ NoDup (i_chunks old) /\ In x (i_chunks old) /\
    count_occ Nat.eq_dec chunks x = 2 /\ Forall (fun f => ~ In x (i_chunks (snd f))) (concat dirs).
Proof.
  exists [[(worker_index 0, Index [1] (Some 0))]; [(worker_index 1, Index [2] (Some 0))]], (Index [7] (Some 0)). do 3 eexists.
  split; [vm_compute; reflexivity|]. split; [repeat constructor; intros []|]. split; [left; reflexivity|].
  split; [reflexivity|]. repeat constructor; cbn; intuition discriminate.
Qed.
Print Assumptions C86_append_nodes_refuted.

(** With any number of nodes: the existing chunks once per node. *)
Theorem C86_append_nodes {chunk config} (same : config -> config -> bool) (nodes : list (list (nat * index chunk config))) dirs (old : index chunk config) c :
  (forall a b, same a b = true <-> a = b) ->
  i_config old = Some c ->
  Forall2 (fun ws files => by_rank ws /\ same_width ws /\ listing ws files /\ ws <> [] /\
                           Forall (fun w => i_config (snd w) = Some c) ws) nodes dirs ->
  2 <= length nodes <= 10 ->
  finish same dirs (Some old) = Ok [(index_json, Index (flat_map (fun ws => i_chunks old ++ in_order ws) nodes) (Some c))].
Proof. intros Hs Ho F Hl. exact (finish_nodes same Hs nodes dirs (Some old) c F Ho Hl). Qed.
Print Assumptions C86_append_nodes.

(** C87: a node without output after one with output makes the job fail. *)
Theorem C87_empty_node_refuted :
  exists dirs (c : nat), Forall (fun f : str * index nat nat => i_config (snd f) = Some c) (concat dirs) /\ concat dirs <> [] /\
    finish Nat.eqb dirs None = Err GenericException.
Proof.
  exists [[(worker_index 0, Index [1] (Some 0))]; []], 0. split; [repeat constructor|]. split; [discriminate|]. vm_compute. reflexivity.
Qed.
Print Assumptions C87_empty_node_refuted.

(** C46: merging datasets of one configuration gives the samples of the first, then
    those of the second, and so on, for every order in which the threads copy the files
    and every way of reading a chunk; each chunk gets a new name of its own. *)
Theorem C46_concatenates {format rest info sample} (same_format : format -> format -> bool)
    (read : format -> option str -> rest -> info * option (list N) -> list sample) d0 d1 dss out order :
  (forall a b, same_format a b = true <-> a = b) ->
  (forall cs, Permutation (order cs) cs) ->
  Forall (fun d : dataset format rest info => d_format d = d_format d0 /\ d_compression d = d_compression d0 /\ d_rest d = d_rest d0) (d1 :: dss) ->
  Forall complete (d0 :: d1 :: dss) ->
  exists m, merge_datasets same_format (d0 :: d1 :: dss) out order = Ok m /\
    samples read m = flat_map (samples read) (d0 :: d1 :: dss) /\
    contents m = flat_map contents (d0 :: d1 :: dss) /\ NoDup (map fst (d_chunks m)).
Proof.
  intros Hs Ho Fc Fx.
  destruct (merge_datasets_ok same_format d0 d1 dss out order Hs Ho) as (m & E & Hf & Hcm & Hr & Hc & Hn & _);
    [eapply Forall_impl; [|exact Fc]; cbn; tauto|exact Fx|].
  exists m. split; [exact E|]. split; [|split; [exact Hc|exact Hn]].
  unfold samples at 1. rewrite Hc, Hf, Hcm, Hr.
  assert (G : Forall (fun d => d_format d = d_format d0 /\ d_compression d = d_compression d0 /\ d_rest d = d_rest d0) (d0 :: d1 :: dss))
    by (constructor; [auto|exact Fc]).
  clear - G. induction G as [|d l (H1 & H2 & H3) _ IH]; [reflexivity|]. cbn [flat_map]. rewrite flat_map_app, IH. f_equal.
  unfold samples. rewrite H1, H2, H3. reflexivity.
Qed.
Print Assumptions C46_concatenates.

Definition ds (r : nat) (n : nat) (m : nat) : dataset nat nat nat :=
  Dataset 0 (Some (codes "zstd")) r [(chunk_name (Some (codes "zstd")) n 0, m)]
    (fun f => if same_name f (chunk_name (Some (codes "zstd")) n 0) then Some [N.of_nat (10 * n + m)] else None).
Definition nothing (n : str) : option (list N) := None.
Example C46_case :
  match merge_datasets Nat.eqb [ds 0 0 1; ds 0 0 2; ds 0 1 3] nothing (@rev _) with
  | Ok m => d_chunks m = [(codes "chunk-0-0.zstd.bin", 1); (codes "chunk-0-1.zstd.bin", 2); (codes "chunk-0-2.zstd.bin", 3)] /\
            contents m = [(1, Some [1%N]); (2, Some [2%N]); (3, Some [13%N])]
  | Err _ => False
  end.
Proof. vm_compute. split; reflexivity. Qed.
Example C46_complete_case : Forall complete [ds 0 0 1; ds 0 0 2; ds 0 1 3].
Proof. repeat constructor; discriminate. Qed.

(** Other data formats or compressions: ValueError. *)
Theorem C46_mismatch {format rest info} (same_format : format -> format -> bool) (d0 : dataset format rest info) dss out order d :
  (forall a b, same_format a b = true <-> a = b) ->
  In d dss -> d_format d <> d_format d0 \/ d_compression d <> d_compression d0 ->
  merge_datasets same_format (d0 :: dss) out order = Err ValueError.
Proof. exact (merge_datasets_differ same_format d0 dss out order d). Qed.
Print Assumptions C46_mismatch.

(** The rest of the configuration (the structure of the samples, the encryption, the
    item loader) is not compared: the second dataset is read with the settings of the first. *)
Theorem C46_other_settings_refuted :
  exists (read : nat -> option str -> nat -> nat * option (list N) -> list nat) d0 d1 m,
    complete d0 /\ complete d1 /\
    merge_datasets Nat.eqb [d0; d1] nothing (fun cs => cs) = Ok m /\ samples read m <> samples read d0 ++ samples read d1.
Proof.
  exists (fun _ _ r c => [r]), (ds 0 0 1), (ds 1 0 1). eexists. split; [repeat constructor; discriminate|].
  split; [repeat constructor; discriminate|]. split; [reflexivity|]. vm_compute. discriminate.
Qed.
Print Assumptions C46_other_settings_refuted.

(** A missing chunk file makes the merge fail rather than lose samples. *)
Theorem C46_missing_file {format rest info} (same_format : format -> format -> bool) d0 d1 (dss : list (dataset format rest info)) out order :
  (forall a b, same_format a b = true <-> a = b) ->
  (forall cs, Permutation (order cs) cs) ->
  Exists (fun d => ~ complete d) (d0 :: d1 :: dss) ->
  merge_datasets same_format (d0 :: d1 :: dss) out order = Err ValueError \/
  merge_datasets same_format (d0 :: d1 :: dss) out order = Err FileNotFoundError.
Proof. exact (merge_datasets_missing same_format d0 d1 dss out order). Qed.
Print Assumptions C46_missing_file.

Definition lost : dataset nat nat nat := Dataset 0 (Some (codes "zstd")) 0 [(chunk_name (Some (codes "zstd")) 0 0, 1)] nothing.
Example C46_missing_case :
  merge_datasets Nat.eqb [ds 0 0 1; lost] nothing (fun cs => cs) = Err FileNotFoundError /\ ~ complete lost.
Proof. split; [vm_compute; reflexivity|]. intros H. apply Forall_inv in H. apply H. reflexivity. Qed.

(** Appending samples of another configuration raises. *)
Theorem C86_append_other_config {chunk config} (same : config -> config -> bool) files (old : index chunk config) f c c' :
  (forall a b, same a b = true <-> a = b) ->
  i_config old = Some c -> In f files -> i_config (snd f) = Some c' -> c' <> c ->
  finish same [files] (Some old) = Err GenericException.
Proof. exact (merge_existing_differ same files None old f c c'). Qed.
Print Assumptions C86_append_other_config.

Example C86_other_case :
  finish Nat.eqb [[(worker_index 0, Index [(1, 0)] (Some 6))]] (Some (Index [(8, 8)] (Some 5))) = Err GenericException.
Proof. vm_compute. reflexivity. Qed.
