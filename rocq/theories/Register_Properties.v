(** C191: the dataset that the platform is told about. *)
From Verif Require Import Base Config_Model Dataset_Proofs Register_Model.
Local Ltac Zify.zify_post_hook ::= idtac.

(** C191 (partial): after an [optimize] on any number of nodes of the platform, which end in any order, the new
    dataset is registered exactly once, by its directory, with the number of samples a StreamingDataset finds in the index, the
    number of its chunks and the sum of their bytes.  Partial: datasets without tokens (see below), the platform does not know
    the dataset yet. *)
Theorem C191_registered_partial {dir} (says : list (registered dir) -> registered dir -> answer) num_nodes d t size index nodes known samples :
  1 <= num_nodes -> Permutation nodes (seq 0 num_nodes) ->
  (forall g, g_dir g = d -> says known g = Taken) ->
  (forall c, In c index -> k_dim (fst c) = None) -> Config_Model.sizes_of ByItem (map fst index) = Ok samples ->
  exists r, finish_nodes says num_nodes true true true (Some d) t (fun rank => optimize_done num_nodes rank size index) nodes known =
              known ++ [Registered d t r] /\
            r_size r = sum samples /\ r_chunks r = Some (length index) /\ r_bytes r = Some (sum (map snd index)).
Proof.
  intros Hn Hp Hs Hd Es. rewrite sizes_by_item in Es. injection Es as <-.
  exists (optimize_done num_nodes (num_nodes - 1) size index). split.
  2:{ unfold optimize_done. replace (num_nodes =? num_nodes - 1 + 1) with true by (symmetry; apply Nat.eqb_eq; lia).
      cbn [r_size r_chunks r_bytes]. split; [|split; reflexivity]. f_equal. rewrite map_map. apply map_ext_in.
      intros c Hc. rewrite (Hd c Hc). reflexivity. }
  assert (Hin : In (num_nodes - 1) nodes) by (apply (Permutation_in _ (Permutation_sym Hp)), in_seq; lia).
  assert (Hnd : NoDup nodes) by (apply (Permutation_NoDup (Permutation_sym Hp)), seq_NoDup).
  clear Hp Hd. set (f := fun rank => optimize_done num_nodes rank size index).
  assert (Skip : forall nodes, ~ In (num_nodes - 1) nodes -> forall k, finish_nodes says num_nodes true true true (Some d) t f nodes k = k).
  { induction nodes0 as [|n nodes0 IH]; intros H k; [reflexivity|]. cbn [finish_nodes finish_node].
    replace (num_nodes =? n + 1) with false by (symmetry; apply Nat.eqb_neq; intros E; apply H; left; lia).
    cbn [andb fst]. apply IH. intros X. apply H. right. exact X. }
  induction nodes as [|n nodes IH]; [destruct Hin|]. inversion Hnd as [|? ? H1 H2]; subst. cbn [finish_nodes finish_node].
  destruct (Nat.eq_dec n (num_nodes - 1)) as [->|E].
  - replace (num_nodes =? num_nodes - 1 + 1) with true by (symmetry; apply Nat.eqb_eq; lia). cbn [andb].
    unfold create_dataset. rewrite Hs by reflexivity. cbn [fst]. rewrite Skip by exact H1. reflexivity.
  - replace (num_nodes =? n + 1) with false by (symmetry; apply Nat.eqb_neq; lia). cbn [andb fst]. apply IH; [|exact H2].
    destruct Hin as [Hin|Hin]; [congruence|exact Hin].
Qed.
Print Assumptions C191_registered_partial.

(** C191: also what a [map] made is registered once, by the last node, with the number of the inputs of all nodes as its size. *)
Theorem C191_map_partial {dir} (says : list (registered dir) -> registered dir -> answer) num_nodes d inputs nodes known :
  1 <= num_nodes -> Permutation nodes (seq 0 num_nodes) ->
  (forall g, g_dir g = d -> says known g = Taken) ->
  exists r, finish_nodes says num_nodes true true true (Some d) Transformed (fun _ => map_done inputs) nodes known =
              known ++ [Registered d Transformed r] /\ r_size r = inputs /\ r_chunks r = None /\ r_bytes r = None /\ r_per_chunk r = None.
Proof.
  intros Hn Hp Hs. exists (map_done inputs). split; [|repeat split; reflexivity].
  assert (Hin : In (num_nodes - 1) nodes) by (apply (Permutation_in _ (Permutation_sym Hp)), in_seq; lia).
  assert (Hnd : NoDup nodes) by (apply (Permutation_NoDup (Permutation_sym Hp)), seq_NoDup).
  clear Hp.
  assert (Skip : forall nodes, ~ In (num_nodes - 1) nodes -> forall k, finish_nodes says num_nodes true true true (Some d) Transformed (fun _ => map_done inputs) nodes k = k).
  { induction nodes0 as [|n nodes0 IH]; intros H k; [reflexivity|]. cbn [finish_nodes finish_node].
    replace (num_nodes =? n + 1) with false by (symmetry; apply Nat.eqb_neq; intros E; apply H; left; lia).
    cbn [andb fst]. apply IH. intros X. apply H. right. exact X. }
  induction nodes as [|n nodes IH]; [destruct Hin|]. inversion Hnd as [|? ? H1 H2]; subst. cbn [finish_nodes finish_node].
  destruct (Nat.eq_dec n (num_nodes - 1)) as [->|E].
  - replace (num_nodes =? num_nodes - 1 + 1) with true by (symmetry; apply Nat.eqb_eq; lia). cbn [andb].
    unfold create_dataset. rewrite Hs by reflexivity. cbn [fst]. rewrite Skip by exact H1. reflexivity.
  - replace (num_nodes =? n + 1) with false by (symmetry; apply Nat.eqb_neq; lia). cbn [andb fst]. apply IH; [|exact H2].
    destruct Hin as [Hin|Hin]; [congruence|exact Hin].
Qed.
Print Assumptions C191_map_partial.
Example C191_map_case :
  finish_nodes (fun _ _ => Taken) 2 true true true (Some 5) Transformed (fun _ => map_done 9) [1; 0] [] = [Registered 5 Transformed (Result 9 None None None)].
Proof. vm_compute. reflexivity. Qed.

Definition by_dir (known : list (registered nat)) (g : registered nat) : answer :=
  if existsb (fun h => g_dir h =? g_dir g) known then Exists else Taken.
Definition two_chunks : list entry := [(Ci 0 3 None, 100); (Ci 1 2 None, 70)].
Example registered_example :
  finish_nodes by_dir 3 true true true (Some 5) Chunked (fun rank => optimize_done 3 rank 9 two_chunks) [2; 0; 1] [] =
    [Registered 5 Chunked (Result 5 (Some 170) (Some 2) (Some [3; 2]))] /\
  Config_Model.sizes_of ByItem (map fst two_chunks) = Ok [3; 2] /\ Permutation [2; 0; 1] (seq 0 3) /\
  (forall g, g_dir g = 5 -> by_dir [] g = Taken).
Proof.
  repeat (apply conj; [vm_compute; reflexivity|]). split; [|reflexivity].
  apply (perm_trans (l' := [0; 2; 1])); [apply perm_swap|]. apply perm_skip, perm_swap.
Qed.

(** C191: outside of the platform, without a project, without a url or a path nothing is told to it. *)
Theorem C191_elsewhere {dir} (says : list (registered dir) -> registered dir -> answer) num_nodes rank studio project url path t r known :
  studio = false \/ project = false \/ url = false \/ path = None \/ num_nodes <> rank + 1 ->
  finish_node says num_nodes rank studio project url path t r known = (known, Ok tt).
Proof.
  intros H. unfold finish_node, create_dataset. destruct path as [d|]; [|reflexivity].
  destruct (Nat.eqb_spec num_nodes (rank + 1)); [|reflexivity]. destruct url; [|reflexivity]. destruct studio; [|reflexivity].
  destruct project; [|reflexivity]. destruct H as [H|[H|[H|[H|H]]]]; congruence.
Qed.
Print Assumptions C191_elsewhere.

(** C191: what is registered is never lost, and a dataset that the platform knows does not make the run fail. *)
Theorem C191_known {dir} (says : list (registered dir) -> registered dir -> answer) num_nodes rank studio project url path t r known :
  let '(known', result) := finish_node says num_nodes rank studio project url path t r known in
  (exists new, known' = known ++ new) /\
  ((forall g, says known g = Exists) -> known' = known /\ result = Ok tt) /\
  (result <> Ok tt -> known' = known).
Proof.
  unfold finish_node, create_dataset.
  assert (N : exists new, known = known ++ new) by (exists []; symmetry; apply app_nil_r).
  destruct path as [d|]; [|auto]. destruct (_ && studio); [|auto]. destruct project; [|auto].
  destruct (says known (Registered d t r)) eqn:E.
  - split; [eexists; reflexivity|]. split; [intros H; rewrite H in E; discriminate|intros H; congruence].
  - auto.
  - split; [exact N|]. split; [intros H; rewrite H in E; discriminate|auto].
Qed.
Print Assumptions C191_known.

(** The list called the bytes of the chunks holds their numbers of samples. *)
Theorem C191_bytes_refuted : exists index, r_per_chunk (optimize_done 1 0 5 index) <> Some (map snd index).
Proof. exists two_chunks. vm_compute. discriminate. Qed.
Print Assumptions C191_bytes_refuted.

(** The size of a dataset of tokens is the number of its tokens, not of its samples; the rest of the chunks that is not read is
    counted as well. *)
Theorem C191_tokens_refuted :
  exists index block samples, Config_Model.sizes_of (ByBlock block) (map fst index) = Ok samples /\
    r_size (optimize_done 1 0 5 index) <> sum samples /\ r_size (optimize_done 1 0 5 index) <> block * sum samples.
Proof. exists [(Ci 0 2 (Some 7), 60); (Ci 1 1 (Some 5), 50)], 4, [1; 1]. vm_compute. repeat split; discriminate. Qed.
Print Assumptions C191_tokens_refuted.

(** A second run that appends to the dataset: the platform keeps the numbers of the first one, and nobody is told. *)
Theorem C191_append_refuted :
  exists index more known,
    known = finish_nodes by_dir 1 true true true (Some 5) Chunked (fun rank => optimize_done 1 rank 3 index) [0] [] /\
    finish_node by_dir 1 0 true true true (Some 5) Chunked (optimize_done 1 0 3 (index ++ more)) known =
      ([Registered 5 Chunked (Result 5 (Some 170) (Some 2) (Some [3; 2]))], Ok tt) /\
    r_size (optimize_done 1 0 3 (index ++ more)) = 8.
Proof. exists two_chunks, [(Ci 2 3 None, 90)]. eexists. repeat (apply conj; [vm_compute; reflexivity|]). vm_compute; reflexivity. Qed.
Print Assumptions C191_append_refuted.

(** C191: from 1024 chunks on the list is left out; the rest stays. *)
Theorem C191_many_chunks num_nodes size index :
  1 <= num_nodes -> let r := optimize_done num_nodes (num_nodes - 1) size index in
  (length index < 1024 -> r_per_chunk r = Some (map (fun c => k_size (fst c)) index)) /\
  (1024 <= length index -> r_per_chunk r = Some []) /\ r_chunks r = Some (length index).
Proof.
  intros Hn r. unfold r, optimize_done. replace (num_nodes =? num_nodes - 1 + 1) with true by (symmetry; apply Nat.eqb_eq; lia).
  cbn [r_per_chunk r_chunks]. split; [|split; [|reflexivity]]; intros H.
  - apply Nat.ltb_lt in H. rewrite H. reflexivity.
  - apply Nat.ltb_ge in H. rewrite H. reflexivity.
Qed.
Print Assumptions C191_many_chunks.
Example many_chunks_example : r_per_chunk (optimize_done 2 1 9 two_chunks) = Some [3; 2].
Proof. reflexivity. Qed.
