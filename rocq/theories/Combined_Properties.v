(** Combined datasets: the properties. *)
From Verif Require Import Base Iter_Model Iter_Spec Resume_Proofs Combined_Model Combined_Spec Combined_Proofs Combined_Proofs2.
From Coq Require Import QArith.
Local Open Scope nat_scope.

(** C30: with [iterate_over_all], datasets of positive length and any random choices among the
    datasets not yet known to be exhausted, iteration yields as many samples as the datasets
    deliver to this worker ([members]; some may deliver none), each the next one of some
    dataset, nothing is left over, and only then it stops.  Missing for the full property:
    datasets of length 0. *)
Theorem C30_every_sample_once_partial {A} rng (m : batching) (B : nat) (lens : list nat) (members : list (list A)) :
  (forall n l ws, l <> [] -> In (rng n l ws) l) ->
  members <> [] -> length lens = length members -> Forall (fun n => 1 <= n) lens ->
  exists ws, init_weights true None lens = Ok ws /\
  exists out s' s'' rest,
    after rng true m B ws (length (concat members)) (c_init members ws None) = Some (out, s') /\
    takes members out rest /\ Forall (fun l => l = []) rest /\ Permutation out (concat members) /\
    c_next rng true m B ws s' = Stop s''.
Proof.
  intros Hrng Hne HL F.
  destruct (init_weights_pos lens) as (ws & E & L & P); [|exact F|].
  { destruct members, lens; try discriminate; congruence. }
  exists ws. split; [exact E|]. rewrite HL in L.
  destruct (drain_ok rng Hrng m B ws (length (concat members)) (c_init members ws None)
              (init_inv rng Hrng members ws Hne L P) eq_refl) as (out & s' & s'' & rest & E1 & T & R & N).
  exists out, s', s'', rest. split; [exact E1|]. split; [exact T|]. split; [exact R|]. split; [|exact N].
  pose proof (takes_permutation _ _ _ T) as G. cbn [c_init c_iters] in G. rewrite <- G.
  assert (C : concat rest = []). { clear -R. induction R as [|l rest -> _ IH]; [reflexivity|exact IH]. }
  rewrite C, app_nil_r. reflexivity.
Qed.
Print Assumptions C30_every_sample_once_partial.

(** The choices of [rng_cycle] walk through the members of positive weight. *)
Definition rng_cycle (n : nat) (l : list nat) (ws : list Q) : nat :=
  match map fst (filter (fun p => negb (Qle_bool (snd p) 0)) (combine l ws)) with
  | [] => hd 0 l
  | c => nth (n mod length c) c 0
  end.
Lemma rng_cycle_ok n l ws : l <> [] -> In (rng_cycle n l ws) l.
Proof.
  intros H. unfold rng_cycle. set (c := map fst _).
  assert (I : incl c l).
  { intros x Hx. apply in_map_iff in Hx. destruct Hx as ([y w] & <- & Hx). apply filter_In in Hx. destruct Hx as [Hx _].
    apply in_combine_l in Hx. exact Hx. }
  destruct c as [|x c'] eqn:E.
  - destruct l; [congruence|left; reflexivity].
  - apply I. apply nth_In. apply Nat.mod_upper_bound. discriminate.
Qed.

Example C30_case :
  option_map fst (after rng_cycle true PerStream 2 [(1#6)%Q; (5#6)%Q] 6 (c_init [[1]; [2; 3; 4; 5; 6]] [(1#6)%Q; (5#6)%Q] None))
    = Some [1; 2; 3; 4; 5; 6] /\
  option_map fst (after rng_cycle true Stratified 2 [(1#3)%Q; (2#3)%Q] 6 (c_init [[1; 2]; [3; 4; 5; 6]] [(1#3)%Q; (2#3)%Q] None))
    = Some [1; 3; 2; 4; 5; 6].
Proof. vm_compute. auto. Qed.

(** C30 is false in general: a member without samples gets weight 0, and the division by the
    total of the remaining weights raises once the members with samples are exhausted. *)
Theorem C30_every_sample_once_refuted :
  (forall n l ws, l <> [] -> In (rng_cycle n l ws) l) /\
  exists (members : list (list nat)) ws,
    init_weights true None (map (@length nat) members) = Ok ws /\
    match after rng_cycle true Stratified 1 ws 2 (c_init members ws None) with
    | Some (out, s') => out = [7; 8] /\ concat (c_iters s') = [] /\
        c_next rng_cycle true Stratified 1 ws s' = Raise ZeroDivisionError
    | None => False
    end.
Proof. split; [exact rng_cycle_ok|]. exists [[7; 8]; []]. eexists. split; [reflexivity|]. vm_compute. repeat split. Qed.
Print Assumptions C30_every_sample_once_refuted.

(** C31: without [iterate_over_all] (weights positive), every sample yielded is the next one of a
    member, the counts are the numbers of samples taken from each member, nothing but
    StopIteration ends the iteration, and it does so only if the chosen member is exhausted. *)
Theorem C31_stops_at_the_first_exhausted {A} rng (m : batching) (B : nat) ws0 (ws : list Q) (members : list (list A)) n out s' :
  (forall n l ws, l <> [] -> In (rng n l ws) l) ->
  members <> [] -> length ws = length members -> Forall (fun w => (0 < w)%Q) ws ->
  after rng false m B ws0 n (c_init members ws None) = Some (out, s') ->
  takes members out (c_iters s') /\ length out = n /\
  had (c_counts s') (c_iters s') = map (@length A) members /\
  (exists k, option_map fst (match get_index rng m B s' with Ok r => Some r | Err _ => None end) = Some k /\
    match nth_error (c_iters s') k with
    | Some [] => exists s'', c_next rng false m B ws0 s' = Stop s''
    | Some (x :: _) => exists s'', c_next rng false m B ws0 s' = Yield x s''
    | None => False
    end).
Proof.
  intros Hrng Hne HL P E. pose proof (init_inv rng Hrng members ws Hne HL P) as I0.
  destruct (after_ok rng Hrng false m B ws0 n _ out s' I0 E) as (I' & T & H & Hl).
  split; [exact T|]. split; [exact Hl|]. split.
  { rewrite H. cbn [c_init c_counts c_iters]. apply had_zero. }
  destruct (get_index_ok rng Hrng m B s' I') as (k & s1 & Eq & (S1 & _ & _ & S4) & _ & Hk & _). exists k. rewrite Eq. split; [reflexivity|].
  unfold c_next. rewrite Eq. unfold get_sample. rewrite S1, S4. destruct I' as (_ & _ & _ & _ & _ & K).
  replace (length (c_counts s') <=? k) with false by lia.
  destruct (nth_error (c_iters s') k) as [[|x l]|] eqn:Ei; [eexists; reflexivity|eexists; reflexivity|apply nth_error_None in Ei; lia].
Qed.
Print Assumptions C31_stops_at_the_first_exhausted.

Definition half := [(1#2)%Q; (1#2)%Q].
Example C31_case :
  match after rng_cycle false Stratified 1 half 4 (c_init [[1; 2]; [3; 4; 5]] half None) with
  | Some (out, s) => out = [1; 3; 2; 4] /\ c_counts s = [2; 2] /\ c_iters s = [[]; [5]] /\
      match c_next rng_cycle false Stratified 1 half s with Stop _ => True | _ => False end
  | None => False
  end.
Proof. vm_compute. repeat split. Qed.

(** C32: stratified batching; as long as every member still has samples (and there are two
    members or more when iterating over all) the iterator rebuilt from the counts is the
    iterator that was stopped, so all it does from then on is the same. *)
Theorem C32_resume_continues_the_choices {A} rng over_all (B : nat) ws0 (ws : list Q) (members : list (list A)) n out s' :
  (forall n l ws, l <> [] -> In (rng n l ws) l) ->
  members <> [] -> length ws = length members -> Forall (fun w => (0 < w)%Q) ws ->
  (over_all = true -> 2 <= length members) ->
  after rng over_all Stratified B ws0 n (c_init members ws None) = Some (out, s') ->
  Forall (fun l => l <> []) (c_iters s') ->
  (forall k, after rng over_all Stratified B ws0 k (c_init (c_iters s') ws (Some (c_counts s'))) = after rng over_all Stratified B ws0 k s') /\
  c_next rng over_all Stratified B ws0 (c_init (c_iters s') ws (Some (c_counts s'))) = c_next rng over_all Stratified B ws0 s'.
Proof.
  intros Hrng Hne HL P H2 E F. pose proof (init_inv rng Hrng members ws Hne HL P) as I0.
  assert (C0 : canonical ws (c_init members ws None)).
  { unfold canonical, c_init. cbn [c_iters c_counts]. f_equal. clear. induction (length members) as [|q IH]; [reflexivity|exact IH]. }
  assert (C : canonical ws s').
  { eapply (after_canonical rng Hrng over_all B ws0 ws n _ out s' I0 C0); [|exact H2|exact E|exact F]. apply repeat_length. }
  unfold canonical in C. rewrite <- C. auto.
Qed.
Print Assumptions C32_resume_continues_the_choices.

Example C32_case :
  match after rng_cycle true Stratified 1 half 3 (c_init [[1; 2; 6]; [3; 4; 5]] half None) with
  | Some (out, s) => out = [1; 3; 2] /\ c_iters s = [[6]; [4; 5]] /\
      option_map fst (after rng_cycle true Stratified 1 half 3 (c_init (c_iters s) half (Some (c_counts s)))) = Some [4; 6; 5]
  | None => False
  end.
Proof. vm_compute. repeat split. Qed.

(** C32 is false with per-stream batches: the choices drawn on resume are one per sample, those
    made before one per batch; and it is false once a member is exhausted. *)
Theorem C32_resume_refuted :
  (exists (members : list (list nat)),
     match after rng_cycle true PerStream 2 half 2 (c_init members half None) with
     | Some (_, s) => Forall (fun l => l <> []) (c_iters s) /\
         option_map fst (after rng_cycle true PerStream 2 half 1 s) <>
         option_map fst (after rng_cycle true PerStream 2 half 1 (c_init (c_iters s) half (Some (c_counts s))))
     | None => False
     end) /\
  (exists (members : list (list nat)) ws, length members = 3 /\
     match after rng_cycle true Stratified 1 ws 4 (c_init members ws None) with
     | Some (_, s) =>
         option_map fst (after rng_cycle true Stratified 1 ws 1 s) <>
         option_map fst (after rng_cycle true Stratified 1 ws 1 (c_init (c_iters s) ws (Some (c_counts s))))
     | None => False
     end).
Proof.
  split.
  - exists [[1; 2; 3; 4]; [11; 12; 13; 14]]. vm_compute. split; [repeat constructor; discriminate|discriminate].
  - exists [[1]; [10; 11; 12; 13]; [20; 21; 22; 23]], [(1#3)%Q; (1#3)%Q; (1#3)%Q]. vm_compute. split; [reflexivity|discriminate].
Qed.
Print Assumptions C32_resume_refuted.

(** C67: with one worker, every member resumes exactly after the samples taken from it. *)
Theorem C67_combined_resume_one_worker_partial (members : nat) (counts : list nat) k B c : 1 <= B ->
  length counts = members -> nth_error counts k = Some c ->
  exists total, nth_error (saved_counts members [counts]) k = Some total /\ replay_sampling total B 1 = Ok [c].
Proof.
  intros HB HL E. exists c. split.
  - unfold saved_counts. cbn [fold_left]. rewrite <- E. f_equal. clear -HL. revert counts HL.
    induction members as [|m IH]; intros [|x counts] HL; try discriminate; [reflexivity|]. cbn. f_equal. apply IH. injection HL as ->. reflexivity.
  - rewrite replay_sampling_ok by lia. cbn [seq map]. f_equal. f_equal. unfold turns.
    assert (Hf : forall l, filter (fun j => (j / B) mod 1 =? 0) l = l).
    { induction l as [|x l IH]; [reflexivity|]. cbn [filter]. rewrite Nat.mod_1_r, IH. reflexivity. }
    rewrite Hf. apply seq_length.
Qed.
Print Assumptions C67_combined_resume_one_worker_partial.

Example C67_case : saved_counts 3 [[4; 0; 5]] = [4; 0; 5] /\ replay_sampling 5 4 1 = Ok [5].
Proof. split; reflexivity. Qed.

(** C67 is false with several workers: the counts are added up over the workers and each member
    splits its total as if its samples had come in whole batches from the workers in turn.
    Two workers, batches of two, each with one sample of either member: worker 0 would resume
    both members at 2 and lose the second sample of each, worker 1 at 0 and deliver the first again. *)
Theorem C67_combined_resume_refuted :
  exists (per_worker : list (list nat)),
    Forall (fun c => sum c = 2) per_worker /\ length per_worker = 2 /\
    forall k, k < 2 -> exists total offsets,
      nth_error (saved_counts 2 per_worker) k = Some total /\ replay_sampling total 2 2 = Ok offsets /\
      offsets <> map (fun c => nth k c 0) per_worker.
Proof.
  exists [[1; 1]; [1; 1]]. split; [repeat constructor|]. split; [reflexivity|]. intros [|[|k]] Hk; [| |lia];
    (eexists; exists [2; 0]; split; [reflexivity|]; split; [reflexivity|discriminate]).
Qed.
Print Assumptions C67_combined_resume_refuted.

(** C68: per-stream batching without [iterate_over_all]: whatever number of batches was read, the
    next batch is a run of consecutive samples of one member. *)
Theorem C68_batches_from_one_dataset_partial {A} rng (B : nat) ws0 (ws : list Q) (members : list (list A)) j out s' batch s'' :
  (forall n l ws, l <> [] -> In (rng n l ws) l) -> 1 <= B ->
  members <> [] -> length ws = length members -> Forall (fun w => (0 < w)%Q) ws ->
  after rng false PerStream B ws0 (j * B) (c_init members ws None) = Some (out, s') ->
  after rng false PerStream B ws0 B s' = Some (batch, s'') ->
  exists k l, nth_error (c_iters s') k = Some (batch ++ l) /\ c_iters s'' = upd k (fun _ => l) (c_iters s').
Proof.
  intros Hrng HB Hne HL P E E2. pose proof (init_inv rng Hrng members ws Hne HL P) as I0.
  destruct (per_stream_boundary rng Hrng B ws0 HB j _ out s' I0 (or_introl eq_refl) E) as (Hb & I').
  destruct (per_stream_batch rng Hrng B ws0 s' batch s'' HB I' Hb E2) as (_ & _ & G). exact G.
Qed.
Print Assumptions C68_batches_from_one_dataset_partial.

Example C68_case : option_map fst (after rng_cycle false PerStream 2 half 6 (c_init [[1; 2; 3; 4; 5]; [11; 12; 13]] half None))
  = Some [1; 2; 11; 12; 3; 4].
Proof. reflexivity. Qed.

(** C68 is false with [iterate_over_all]: when a member ends inside a batch the batch is completed
    from another one. *)
Theorem C68_batches_from_one_dataset_refuted :
  exists (members : list (list nat)) ws, init_weights true None (map (@length nat) members) = Ok ws /\
    option_map fst (after rng_cycle true PerStream 2 ws 2 (c_init members ws None)) = Some [1; 12].
Proof. exists [[1]; [12; 13; 14; 15]]. eexists. split; [reflexivity|]. vm_compute. reflexivity. Qed.
Print Assumptions C68_batches_from_one_dataset_refuted.

(** C69: a dataloader asking the combined dataset for its length with its own number of workers and
    batch size leaves the batch size it has set, and the members' settings, as they are. *)
Theorem C69_length_query_of_the_loader_partial over_all len_of nw b s :
  let s1 := c_set nw b s in
  let s2 := snd (c_get_len over_all len_of nw b s1) in
  cs_members s2 = cs_members s1 /\ snd (cs_own s2) = snd (cs_own s1).
Proof.
  unfold c_get_len, c_set. destruct over_all; cbn [snd cs_own cs_members]; split; try reflexivity.
  rewrite map_map. reflexivity.
Qed.
Print Assumptions C69_length_query_of_the_loader_partial.
Example C69_case : let s1 := c_set 4 8 {| cs_own := (1, 1); cs_members := [(1, 1); (2, 3)] |} in
  cs_own s1 = (1, 8) /\ cs_members s1 = [(4, 8); (4, 8)] /\
  c_get_len true (fun i st => 10 * (i + 1) + fst st * snd st) 4 8 s1 = (Some 94, {| cs_own := (4, 8); cs_members := [(4, 8); (4, 8)] |}).
Proof. vm_compute. auto. Qed.

(** C69 is false of [len(combined)]: it resets the batch size (also of per-stream batches) and the
    number of workers to 1, for the combined dataset and for all members. *)
Theorem C69_length_query_refuted :
  exists s, s = c_set 4 8 {| cs_own := (1, 1); cs_members := [(1, 1); (1, 1)] |} /\
    forall len_of, let s' := snd (c_len true len_of s) in
      snd (cs_own s) = 8 /\ snd (cs_own s') = 1 /\ cs_members s = [(4, 8); (4, 8)] /\ cs_members s' = [(1, 1); (1, 1)].
Proof. eexists. split; [reflexivity|]. intros. cbn. auto. Qed.
Print Assumptions C69_length_query_refuted.

(** C74: the sampling weights are the given ones divided by their sum, or the lengths of the datasets
    divided by theirs; giving weights together with [iterate_over_all] raises. *)
Theorem C74_weights_normalised (ws : list Q) (lens : list nat) :
  (~ (qsum ws == 0)%Q -> exists out, init_weights false (Some ws) lens = Ok out /\
     Forall2 (fun w o => o * qsum ws == w)%Q ws out /\ (qsum out == 1)%Q) /\
  (forall all, sum lens <> 0 -> exists out, init_weights all None lens = Ok out /\
     Forall2 (fun n o => o * inject_Z (Z.of_nat (sum lens)) == inject_Z (Z.of_nat n))%Q lens out /\ (qsum out == 1)%Q) /\
  (ws <> [] -> init_weights true (Some ws) lens = Err ValueError).
Proof.
  split; [apply weights_given|]. split; [intros all; apply weights_from_lengths|].
  destruct ws; [congruence|reflexivity].
Qed.
Print Assumptions C74_weights_normalised.

(** C74: weights that add up to zero, and without weights datasets without any sample, raise when the combined dataset is made. *)
Theorem C74_refused (ws : list Q) (lens : list nat) all :
  (ws <> [] -> (qsum ws == 0)%Q -> init_weights false (Some ws) lens = Err ZeroDivisionError) /\
  (Forall (fun n => n = 0) lens -> init_weights all None lens = Err AssertionError).
Proof.
  split.
  - intros Hn H0. destruct ws as [|w ws]; [congruence|]. cbn [init_weights]. apply Qeq_bool_iff in H0. rewrite H0. reflexivity.
  - intros H. cbn [init_weights]. replace (sum lens) with 0; [reflexivity|]. induction H as [|n l -> _ IH]; [reflexivity|]. cbn [sum]. lia.
Qed.
Print Assumptions C74_refused.

Example C74_refused_case : init_weights false (Some [1; -1]%Q) [5; 9] = Err ZeroDivisionError /\ init_weights true None [0; 0] = Err AssertionError.
Proof. split; reflexivity. Qed.

Example C74_case : init_weights false (Some [1; 3]%Q) [5; 9] = Ok [(1 # 4); (3 # 4)]%Q.
Proof. reflexivity. Qed.

(** C186: with [iterate_over_all], when the iterator of a combined dataset has ended it raises
    StopIteration however often it is asked again, whatever is drawn. *)
Theorem C186_exhausted_combined_partial {A} rng (m : batching) (B : nat) (ws : list Q) (members : list (list A)) n out s' s'' :
  (forall n l ws, l <> [] -> In (rng n l ws) l) ->
  members <> [] -> length ws = length members -> Forall (fun w => (0 < w)%Q) ws ->
  after rng true m B ws n (c_init members ws None) = Some (out, s') -> c_next rng true m B ws s' = Stop s'' ->
  Permutation out (concat members) /\ forall k, only_stops (fun s t => c_next rng true m B ws s = Stop t) k s''.
Proof.
  intros Hrng Hne HL P E St. pose proof (init_inv rng Hrng members ws Hne HL P) as I0.
  destruct (after_ok rng Hrng true m B ws n _ out s' I0 E) as (I' & T & _ & _).
  pose proof (c_next_all_ok rng Hrng m B ws s' I') as F. rewrite St in F. cbn [step_ok] in F.
  assert (Hl : length ws = length (c_iters s')) by (rewrite HL; symmetry; exact (takes_members _ _ _ T)).
  destruct (next_all_stop rng Hrng m B ws P _ s' s'' I' Hl St) as (I'' & E'').
  split.
  - rewrite <- (takes_permutation _ _ _ T). replace (concat (c_iters s')) with (@nil A); [rewrite app_nil_r; reflexivity|].
    clear -F. induction F as [|l q -> _ IH]; [reflexivity|exact IH].
  - intros k. apply (stopped_forever rng Hrng m B ws P); [exact I''| |]; rewrite E''; assumption.
Qed.
Print Assumptions C186_exhausted_combined_partial.

Example C186_case :
  match after rng_cycle true PerStream 2 [(1#3)%Q; (2#3)%Q] 6 (c_init [[1; 2]; [3; 4; 5; 6]] [(1#3)%Q; (2#3)%Q] None) with
  | Some (out, s) => out = [1; 2; 3; 4; 5; 6] /\
      match c_next rng_cycle true PerStream 2 [(1#3)%Q; (2#3)%Q] s with
      | Stop t => match c_next rng_cycle true PerStream 2 [(1#3)%Q; (2#3)%Q] t with Stop _ => True | _ => False end
      | _ => False
      end
  | None => False
  end.
Proof. vm_compute. auto. Qed.

(** C186 is false without [iterate_over_all]: after StopIteration the iterator draws again, and a
    member with samples left gives further ones. *)
Theorem C186_exhausted_combined_refuted : exists (members : list (list nat)) ws out s' s'' s3,
  init_weights false (Some [1; 1]%Q) (map (@length nat) members) = Ok ws /\
  after rng_cycle false Stratified 1 ws 4 (c_init members ws None) = Some (out, s') /\ out = [1; 3; 2; 4] /\
  c_next rng_cycle false Stratified 1 ws s' = Stop s'' /\ c_next rng_cycle false Stratified 1 ws s'' = Yield 5 s3.
Proof.
  exists [[1; 2]; [3; 4; 5]]. do 5 eexists. split; [reflexivity|]. split; [vm_compute; reflexivity|]. split; [reflexivity|].
  split; vm_compute; reflexivity.
Qed.
Print Assumptions C186_exhausted_combined_refuted.
