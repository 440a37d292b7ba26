(** Property theorems on using a StreamingDataset directly. *)
From Verif Require Import Base Assign_Model Assign_Spec Iter_Model Iter_Spec Config_Model Object_Model Object_Spec.
From Verif Require Import Object_Proofs Object_Proofs2.

Definition par_rng : rng_t := fun key n => if Nat.even (sum key) then seq 0 n else rev (seq 0 n).
Lemma par_rng_ok : rng_ok par_rng.
Proof.
  intros key n. unfold par_rng. destruct (Nat.even (sum key)); [apply Permutation_refl|].
  apply Permutation_sym, Permutation_rev.
Qed.
Definition ex_k : ocfg := OC par_rng (Env 1 0 1) 42 [Iv 0 0 3 3; Iv 3 4 6 6].
Lemma ex_k_ok : ocfg_ok ex_k.
Proof. split; [exact par_rng_ok|]. cbn. lia. Qed.

(** C145 (violated): five samples, batch size 2.  After [len] was called,
    [set_drop_last(True)] does not change [len], but the loop delivers four. *)
Theorem C145_len_is_the_loop_refuted :
  exists k h o v n s, ocfg_ok k /\ Forall batch_ok h /\ history k false false h o v /\ v_held v = None /\
    fst (o_run k (Len :: Iter :: repeat Next (S (length s))) o) = Length n :: Done :: map item s ++ [Stopped] /\
    n <> length s.
Proof.
  exists ex_k, [SetBatch 2; Len; SetDrop true]. eexists; eexists; exists 5, [(0, 0); (0, 1); (0, 2); (1, 4)].
  split; [exact ex_k_ok|]. split; [repeat constructor|].
  split; [eexists; split; [vm_compute; reflexivity|reflexivity]|].
  split; [vm_compute; reflexivity|]. split; [vm_compute; reflexivity|]. cbn; lia.
Qed.
Print Assumptions C145_len_is_the_loop_refuted.

(** C145 where it holds: whatever was called before on the dataset (no state
    loaded), if [drop_last] was not changed since the dataset was made, reset or
    last iterated, [len] is the number of samples of the loop that follows. *)
Theorem C145_len_is_the_loop_partial k sh dr h o v :
  ocfg_ok k -> one_node k -> Forall batch_ok h -> Forall no_load h -> history k sh dr h o v -> settled h true = true ->
  exists s, epoch_samples k (v_shuffle v) (v_drop v) (v_batch v) (v_epoch v) s /\
    fst (o_run k (Len :: Iter :: repeat Next (S (length s))) o) = Length (length s) :: Done :: map item s ++ [Stopped].
Proof. intros Hk. exact (len_then_loop k Hk sh dr h o v). Qed.
Print Assumptions C145_len_is_the_loop_partial.

Definition ex_h : list op :=
  [Len; Iter; Next; Next; SetShuffle true; SetDrop true; SetBatch 2; Get 1%Z; Iter; Next; Next; Next; Next; Next; SetWorkers 3; Len].
Example C145_case : Forall batch_ok ex_h /\ Forall no_load ex_h /\ settled ex_h true = true /\
  exists o v, history ex_k false false ex_h o v /\ v = V true true 2 3 2 None /\
    fst (o_run ex_k [Len; Iter; Next; Next; Next; Next; Next] o) =
    [Length 4; Done; Item 0 0; Item 0 1; Item 0 2; Item 1 4; Stopped].
Proof.
  split; [repeat constructor|]. split; [repeat constructor|]. split; [reflexivity|].
  eexists; eexists; split; [eexists; split; [vm_compute; reflexivity|reflexivity]|]. split; vm_compute; reflexivity.
Qed.

(** C146: a loop depends on the settings and the epoch only, not on what
    happened before; it delivers the samples of the epoch, and on a single rank
    without [drop_last] every sample of the dataset once. *)
Theorem C146_loop_depends_on_settings_only k sh dr h o v :
  ocfg_ok k -> Forall batch_ok h -> history k sh dr h o v -> v_held v = None ->
  exists s, epoch_samples k (v_shuffle v) (v_drop v) (v_batch v) (v_epoch v) s /\
    fst (o_run k (Iter :: repeat Next (S (length s))) o) = Done :: map item s ++ [Stopped] /\
    (world_size (oc_env k) = 1 -> v_drop v = false ->
     Permutation s (dataset_samples (seq 0 (length (oc_ivs k))) (oc_ivs k))).
Proof. intros Hk. exact (loop_of_settings k Hk sh dr h o v). Qed.
Print Assumptions C146_loop_depends_on_settings_only.

Definition ex_h2 : list op :=
  [Iter; Next; Next; Load (OSV (SD 4 1 1 5) 42 false false); Iter; Next; Next; Len; SetShuffle true; Get 2%Z; Iter; Next; SetEpoch 3].
Example C146_case : Forall batch_ok ex_h2 /\
  exists o v, history ex_k false false ex_h2 o v /\ v = V true false 3 1 1 None /\
    fst (o_run ex_k (Iter :: repeat Next 6) o) =
    [Done; Item 1 5; Item 1 4; Item 0 0; Item 0 1; Item 0 2; Stopped].
Proof.
  split; [repeat constructor|].
  eexists; eexists; split; [eexists; split; [vm_compute; reflexivity|reflexivity]|]. split; vm_compute; reflexivity.
Qed.

(** C147: whatever else is called in the body of a loop - [len], indexing,
    saving or loading a state, the setters - the loop delivers what it would
    have delivered; if the epoch is changed in the body the order may change,
    but every sample is still delivered once. *)
Theorem C147_calls_in_the_loop k sh dr h o v cs :
  ocfg_ok k -> Forall batch_ok h -> history k sh dr h o v -> v_held v = None ->
  exists s, epoch_samples k (v_shuffle v) (v_drop v) (v_batch v) (v_epoch v) s /\
    (Forall (fun c => c = Next \/ quiet c) cs -> asked cs <= S (length s) ->
     answers cs (tl (fst (o_run k (Iter :: cs) o))) = firstn (asked cs) (map item s ++ [Stopped])) /\
    (Forall (fun c => c = Next \/ calm c) cs -> asked cs = S (length s) ->
     exists s', answers cs (tl (fst (o_run k (Iter :: cs) o))) = map item s' ++ [Stopped] /\ Permutation s' s).
Proof. intros Hk. exact (calls_during_loop k Hk sh dr h o v cs). Qed.
Print Assumptions C147_calls_in_the_loop.

Definition ex_body : list op :=
  [Next; Len; SetShuffle false; Next; Get 0%Z; SetDrop true; SetBatch 3; Next; Save 3 1 1; GetLen 2 2; SetWorkers 2; Next; DropState; Next; Next].
Definition ex_body2 : list op := [Next; SetEpoch 2; Next; Next; Next; SetEpoch 4; Next; Next].
Example C147_case : Forall (fun c => c = Next \/ quiet c) ex_body /\ asked ex_body = 6 /\
  Forall (fun c => c = Next \/ calm c) ex_body2 /\ asked ex_body2 = 6 /\
  exists o v, history ex_k true false [Len] o v /\ v_held v = None /\
    answers ex_body (tl (fst (o_run ex_k (Iter :: ex_body) o))) =
      [Item 1 5; Item 1 4; Item 0 0; Item 0 1; Item 0 2; Stopped] /\
    answers ex_body2 (tl (fst (o_run ex_k (Iter :: ex_body2) o))) =
      [Item 1 5; Item 1 4; Item 0 2; Item 0 1; Item 0 0; Stopped].
Proof.
  split; [repeat (constructor; [cbn; tauto|]); constructor|]. split; [reflexivity|].
  split; [repeat (constructor; [cbn; tauto|]); constructor|]. split; [reflexivity|].
  eexists; eexists; split; [eexists; split; [vm_compute; reflexivity|reflexivity]|].
  repeat (apply conj; [vm_compute; reflexivity|]). vm_compute; reflexivity.
Qed.

(** C148 (violated): in [for a in ds: for b in ds: ...] the outer loop ends
    after its first sample, because both loops share one position. *)
Theorem C148_nested_loops_refuted :
  exists k o v s, ocfg_ok k /\ history k false false [] o v /\
    epoch_samples k false false 1 1 s /\ 2 <= length s /\
    fst (o_run k (Iter :: repeat Next (S (length s))) o) = Done :: map item s ++ [Stopped] /\
    exists first inner, fst (o_run k ([Iter; Next] ++ (Iter :: repeat Next (S (length s))) ++ [Next]) o) =
      [Done; first] ++ (Done :: inner ++ [Stopped]) ++ [Stopped] /\ length inner = length s.
Proof.
  exists ex_k. eexists; eexists; exists [(0, 0); (0, 1); (0, 2); (1, 4); (1, 5)].
  split; [exact ex_k_ok|]. split; [eexists; split; [vm_compute; reflexivity|reflexivity]|].
  split; [eexists; eexists; split; [vm_compute; reflexivity|]; split; vm_compute; reflexivity|].
  split; [cbn; lia|]. split; [vm_compute; reflexivity|].
  exists (Item 0 0), [Item 0 0; Item 0 1; Item 0 2; Item 1 4; Item 1 5]. split; vm_compute; reflexivity.
Qed.
Print Assumptions C148_nested_loops_refuted.

(** C149: with a loaded state that fits, every loop delivers what the state has
    left of its epoch, whatever is called in its body, until a loop ends (then
    [view_step] drops the state and C146 applies).
    Part: one node or no shuffling; states of which something is left (C11). *)
Theorem C149_loaded_state_is_used_partial k sh dr h o v st s :
  ocfg_ok k -> one_node k \/ v_shuffle v = false -> Forall batch_ok h -> history k sh dr h o v -> v_held v = Some st -> fits k v st ->
  epoch_samples k (v_shuffle v) (v_drop v) (v_batch v) (sd_epoch (os_main st)) s ->
  sd_samples (os_main st) < length s ->
  forall cs, Forall (fun c => c = Next \/ quiet c) cs -> asked cs <= S (length s - sd_samples (os_main st)) ->
    answers cs (tl (fst (o_run k (Iter :: cs) o))) =
    firstn (asked cs) (map item (skipn (sd_samples (os_main st)) s) ++ [Stopped]).
Proof. intros Hk. exact (loop_of_state k Hk sh dr h o v st s). Qed.
Print Assumptions C149_loaded_state_is_used_partial.

(** C149: a loop left after [n] samples is continued by any other dataset with
    the same settings that loads the state saved then. *)
Theorem C149_stop_and_continue_partial k sh dr h o v sh' dr' h' o' v' s n :
  ocfg_ok k -> one_node k \/ v_shuffle v = false -> Forall batch_ok h -> history k sh dr h o v -> v_held v = None ->
  Forall batch_ok h' -> history k sh' dr' h' o' v' ->
  v_shuffle v' = v_shuffle v -> v_drop v' = v_drop v -> v_batch v' = v_batch v ->
  epoch_samples k (v_shuffle v) (v_drop v) (v_batch v) (v_epoch v) s -> n < length s ->
  exists st,
    fst (o_run k (Iter :: repeat Next n ++ [Save n 1 (v_batch v)]) o) = Done :: map item (firstn n s) ++ [State st] /\
    fst (o_run k (Load st :: Iter :: repeat Next (S (length s - n))) o') =
    Done :: Done :: map item (skipn n s) ++ [Stopped].
Proof. exact (stop_and_continue k sh dr h o v sh' dr' h' o' v' s n). Qed.
Print Assumptions C149_stop_and_continue_partial.

Definition ex_st : osaved := OSV (SD 3 1 2 4) 42 false true.
Example C149_case : exists o v s, history ex_k true false [SetBatch 2; Len; Load ex_st; Iter; Next; SetEpoch 9] o v /\
  v_held v = Some ex_st /\ fits ex_k v ex_st /\ epoch_samples ex_k true false 2 4 s /\ sd_samples (os_main ex_st) < length s /\
  s = [(0, 0); (0, 1); (0, 2); (1, 5); (1, 4)] /\
  fst (o_run ex_k [Iter; Next; Next; Next; Iter; Next] o) = [Done; Item 1 5; Item 1 4; Stopped; Done; Item 1 5].
Proof.
  eexists; eexists; eexists; split; [eexists; split; [vm_compute; reflexivity|reflexivity]|].
  split; [vm_compute; reflexivity|].
  split; [unfold fits; repeat (apply conj; [vm_compute; reflexivity|]); vm_compute; lia|].
  split; [eexists; eexists; split; [vm_compute; reflexivity|]; split; vm_compute; reflexivity|].
  split; [vm_compute; lia|]. split; vm_compute; reflexivity.
Qed.

(** On two nodes with shuffling the second epoch may be longer than the first: a new dataset, being in its first
    epoch, refuses the state that was saved in the second. *)
Definition ex_k2 : ocfg := OC par_rng (Env 2 1 2) 42 [Iv 0 0 3 3; Iv 3 3 4 4].
Theorem C149_nodes_refuted :
  exists k o v s n st, ocfg_ok k /\ history k true false [SetEpoch 2] o v /\ v_held v = None /\
    epoch_samples k true false 1 2 s /\ n < length s /\
    fst (o_run k (Iter :: repeat Next n ++ [Save n 1 1]) o) = Done :: map item (firstn n s) ++ [State st] /\
    fst (o_run k [Load st; Iter] (new_obj true false)) = [Done; Raised ValueError].
Proof.
  exists ex_k2. eexists; eexists; eexists; exists 3; eexists.
  split; [split; [exact par_rng_ok|]; cbn; lia|]. split; [eexists; split; [vm_compute; reflexivity|reflexivity]|].
  split; [vm_compute; reflexivity|].
  split; [eexists; eexists; split; [vm_compute; reflexivity|]; split; vm_compute; reflexivity|].
  split; [vm_compute; lia|]. split; vm_compute; reflexivity.
Qed.
Print Assumptions C149_nodes_refuted.

(** C150: after [reset] the dataset behaves like a new one with the same
    [shuffle] and [drop_last], for all calls that follow, except for [next]
    before the first loop (a new dataset raises AttributeError, here
    [GenericException]; one that was reset raises IndexError). *)
Theorem C150_reset_like_new_partial k sh dr h o v cs :
  ocfg_ok k -> Forall batch_ok h -> history k sh dr h o v ->
  ~ In (Raised GenericException) (fst (o_run k cs (new_obj (v_shuffle v) (v_drop v)))) ->
  fst (o_run k (Reset :: cs) o) = Done :: fst (o_run k cs (new_obj (v_shuffle v) (v_drop v))).
Proof.
  intros Hk Hb Hh. destruct (history_agree k Hk sh dr h o v Hb Hh) as (-> & _). exact (reset_like_new k o cs).
Qed.
Print Assumptions C150_reset_like_new_partial.

Example C150_case :
  exists o v, history ex_k false false ex_h2 o v /\ v_shuffle v = true /\
    fst (o_run ex_k (Reset :: [Len; Get 4%Z; Iter; Next; Next]) o) =
    [Done; Length 5; Item 1 5; Done; Item 1 5; Item 1 4] /\
    ~ In (Raised GenericException) (fst (o_run ex_k [Len; Get 4%Z; Iter; Next; Next] (new_obj true false))).
Proof.
  eexists; eexists; split; [eexists; split; [vm_compute; reflexivity|reflexivity]|].
  split; [vm_compute; reflexivity|]. split; [vm_compute; reflexivity|]. vm_compute. intuition discriminate.
Qed.

(** [next] before the first loop: a new dataset and one that was reset raise different exceptions. *)
Theorem C150_next_refuted :
  exists k h o v, ocfg_ok k /\ Forall batch_ok h /\ history k false false h o v /\
    fst (o_run k (Reset :: [Next]) o) <> Done :: fst (o_run k [Next] (new_obj (v_shuffle v) (v_drop v))).
Proof.
  exists ex_k, [Iter]. eexists; eexists. split; [exact ex_k_ok|]. split; [repeat constructor|].
  split; [eexists; split; [vm_compute; reflexivity|reflexivity]|]. vm_compute. discriminate.
Qed.
Print Assumptions C150_next_refuted.

(** C151 (violated): asking an exhausted dataset once more advances the epoch
    again: the loop that follows is not the one of the next epoch. *)
Theorem C151_exhausted_stays_exhausted_refuted :
  exists k o v s1 s2 s3, ocfg_ok k /\ history k true false [] o v /\
    epoch_samples k true false 1 1 s1 /\ epoch_samples k true false 1 2 s2 /\ epoch_samples k true false 1 3 s3 /\ s2 <> s3 /\
    fst (o_run k (Iter :: repeat Next (S (length s1)) ++ Iter :: repeat Next (S (length s2))) o) =
      (Done :: map item s1 ++ [Stopped]) ++ (Done :: map item s2 ++ [Stopped]) /\
    fst (o_run k (Iter :: repeat Next (S (length s1)) ++ Next :: Iter :: repeat Next (S (length s3))) o) =
      (Done :: map item s1 ++ [Stopped]) ++ Stopped :: (Done :: map item s3 ++ [Stopped]).
Proof.
  exists ex_k. eexists; eexists.
  exists [(1, 5); (1, 4); (0, 0); (0, 1); (0, 2)], [(0, 0); (0, 1); (0, 2); (1, 5); (1, 4)],
         [(1, 5); (1, 4); (0, 0); (0, 1); (0, 2)].
  split; [exact ex_k_ok|]. split; [eexists; split; [vm_compute; reflexivity|reflexivity]|].
  split; [eexists; eexists; split; [vm_compute; reflexivity|]; split; vm_compute; reflexivity|].
  split; [eexists; eexists; split; [vm_compute; reflexivity|]; split; vm_compute; reflexivity|].
  split; [eexists; eexists; split; [vm_compute; reflexivity|]; split; vm_compute; reflexivity|].
  split; [discriminate|]. split; vm_compute; reflexivity.
Qed.
Print Assumptions C151_exhausted_stays_exhausted_refuted.

(** C151 where it holds: it never delivers a sample again before the next loop
    is begun, however often it is asked. *)
Theorem C151_exhausted_stays_exhausted_partial k sh dr h o v n :
  ocfg_ok k -> Forall batch_ok h -> history k sh dr h o v -> v_held v = None ->
  exists s, epoch_samples k (v_shuffle v) (v_drop v) (v_batch v) (v_epoch v) s /\
    fst (o_run k (Iter :: repeat Next (length s + n)) o) = Done :: map item s ++ repeat Stopped n.
Proof. intros Hk. exact (exhausted k sh dr h o v n Hk). Qed.
Print Assumptions C151_exhausted_stays_exhausted_partial.
Example C151_case : exists o v s, ocfg_ok ex_k /\ history ex_k true false [] o v /\ v_held v = None /\ epoch_samples ex_k true false 1 1 s /\
  length s = 5 /\ fst (o_run ex_k (Iter :: repeat Next (length s + 3)) o) = Done :: map item s ++ [Stopped; Stopped; Stopped].
Proof.
  eexists; eexists; exists [(1, 5); (1, 4); (0, 0); (0, 1); (0, 2)]. split; [exact ex_k_ok|].
  split; [eexists; split; [vm_compute; reflexivity|reflexivity]|]. split; [reflexivity|].
  split; [eexists; eexists; split; [vm_compute; reflexivity|]; split; vm_compute; reflexivity|]. split; vm_compute; reflexivity.
Qed.
