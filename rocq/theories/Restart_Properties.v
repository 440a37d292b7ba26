(** Property C44: resuming an interrupted optimize. *)
From Coq Require Import Permutation.
From Verif Require Import Base Dict Format_Model Writer_Model Writer_Spec Restart_Model Restart_Spec Restart_Proofs.
From Verif Require Names_Model Merge_Model.

(** C44: one worker's part with one uploader, one sample per input, inputs processed in
    the order of the list.  [st] is any directory left by any number of interrupted runs.
    Missing: several uploaders or downloaders and functions that skip inputs (refuted
    below); a checkpoint that was being copied (the resumed run stops, below). *)
Theorem C44_resume_partial c first xs st :
  Forall (fun x => 1 <= it_bytes x) xs -> history 1 c first (map Some xs) st -> s_saved st <> Torn ->
  exists r, run c first (map Some xs) st = Ok r /\ dataset_of c (s_files (completed st r)) (r_index r) xs /\
    (forall k, k < first -> s_files (completed st r) k = s_files st k) /\
    (forall infos i, s_saved st = Saved infos -> In i infos -> In i (r_index r) /\ s_files (completed st r) (f_index i) = s_files st (f_index i)) /\
    (forall infos, load st = Ok infos -> done_till infos < length xs -> r_format r = true).
Proof. intros Hx. exact (resume_ok c first xs Hx st). Qed.
Print Assumptions C44_resume_partial.

Definition cfg (k : nat) : wcfg := WCfg None (Some k) (fun _ d => d) (fun d => d).
Definition smp (n : N) : item := Item [n] None.
Definition samples := map smp [1; 2; 3; 4; 5]%N.
Definition empty := Store (fun _ => None) Nothing.
Definition events_of (r : res outcome) : list (nat * event) := match r with Ok r => r_events r | Err _ => [] end.
Definition index_of (r : res outcome) : list info := match r with Ok r => r_index r | Err _ => [] end.

(** Two interruptions: the first while the file of the second chunk is being copied, the second between uploads. *)
Definition stopped1 := torn (crash 1 (fun _ => 3) empty (events_of (run (cfg 2) 7 (map Some samples) empty)))
  (Put 8 (chunk_data [[3]; [4]]%N)) [9]%N.
Definition stopped2 := crash 1 (fun _ => 4) stopped1 (events_of (run (cfg 2) 7 (map Some samples) stopped1)).
Definition is_ok {A} (r : res A) : bool := match r with Ok _ => true | Err _ => false end.
Definition get (r : res outcome) : outcome := match r with Ok r => r | Err _ => Outcome [] [] false end.
Definition is_torn (s : saved) : bool := match s with Torn => true | _ => false end.
Lemma not_torn s : is_torn s = false -> s <> Torn.
Proof. intros H ->. discriminate H. Qed.
Lemma history_run m c first outs st st' :
  history m c first outs st -> is_ok (run c first outs st) = true ->
  interrupted m st (events_of (run c first outs st)) st' -> history m c first outs st'.
Proof.
  intros H O I. destruct (run c first outs st) as [r|] eqn:E; [|discriminate O]. exact (crashed _ _ _ _ st r st' H E I).
Qed.
Lemma stopped2_reachable : history 1 (cfg 2) 7 (map Some samples) stopped2.
Proof.
  apply (history_run _ _ _ _ stopped1); [|vm_compute; reflexivity|apply between].
  apply (history_run _ _ _ _ empty); [apply fresh|vm_compute; reflexivity|].
  apply (within_upload _ _ _ (fun _ => 3) 0); [lia|vm_compute; reflexivity].
Qed.
Example C44_case :
  Forall (fun x => 1 <= it_bytes x) samples /\ history 1 (cfg 2) 7 (map Some samples) stopped2 /\
  s_saved stopped1 = Saved [Info 7 18 2 None] /\ s_saved stopped2 = Saved [Info 7 18 2 None; Info 9 18 2 None] /\
  map (fun k => match s_files stopped2 k with Some f => length f | None => 0 end) [6; 7; 8; 9; 10; 11] = [0; 18; 1; 18; 0; 0] /\
  index_of (run (cfg 2) 7 (map Some samples) stopped2) = [Info 7 18 2 None; Info 9 18 2 None; Info 11 13 1 None].
Proof. split; [repeat constructor|]. split; [exact stopped2_reachable|]. vm_compute. repeat split. Qed.

(** A checkpoint that was being copied stops every later run, which changes nothing. *)
Theorem C44_torn_checkpoint c first outs st : s_saved st = Torn -> run c first outs st = Err GenericException.
Proof. intros H. unfold run, load. rewrite H. reflexivity. Qed.
Print Assumptions C44_torn_checkpoint.

(** Such a directory is reachable, even though only a local copy was interrupted. *)
Theorem C44_torn_refuted : exists c xs st,
  Forall (fun x => 1 <= it_bytes x) xs /\ history 1 c 0 (map Some xs) st /\ run c 0 (map Some xs) st = Err GenericException.
Proof.
  exists (cfg 2), samples, (torn (crash 1 (fun _ => 1) empty (events_of (run (cfg 2) 0 (map Some samples) empty))) (Save [Info 0 18 2 None]) []).
  split; [repeat constructor|]. split; [|reflexivity].
  apply (history_run _ _ _ _ empty); [apply fresh|vm_compute; reflexivity|].
  apply (within_upload _ _ _ (fun _ => 1) 0); [lia|vm_compute; reflexivity].
Qed.
Print Assumptions C44_torn_refuted.

(** The samples of the function, without the inputs it skips. *)
Definition kept (outs : list (option item)) : list item := flat_map (fun o => match o with Some x => [x] | None => [] end) outs.

Lemma dataset_size c files index xs : dataset_of c files index xs -> sum (map f_size index) = length xs.
Proof.
  intros (groups & <- & H & _). clear - H. induction H as [|g i groups infos H _ IH]; [reflexivity|].
  cbn [map sum concat]. rewrite app_length, IH. f_equal. exact (proj1 (holds_size c 0 _ _ _ H)).
Qed.

(** A function that skips an input: the first sample is stored twice. *)
Theorem C44_skip_refuted : exists c outs st r,
  Forall (fun x => 1 <= it_bytes x) (kept outs) /\ history 1 c 0 outs st /\ s_saved st <> Torn /\ run c 0 outs st = Ok r /\
  ~ dataset_of c (s_files (completed st r)) (r_index r) (kept outs).
Proof.
  set (outs := None :: map Some (firstn 3 samples)).
  set (st := crash 1 (fun _ => 2) empty (events_of (run (cfg 1) 0 outs empty))).
  exists (cfg 1), outs, st, (get (run (cfg 1) 0 outs st)).
  split; [repeat constructor|]. split; [|split; [apply not_torn; vm_compute; reflexivity|split; [vm_compute; reflexivity|]]].
  - apply (history_run _ _ _ _ empty); [apply fresh|vm_compute; reflexivity|apply between].
  - intros H. apply dataset_size in H. vm_compute in H. discriminate H.
Qed.
Print Assumptions C44_skip_refuted.

(** Two uploaders: the checkpoint may list a chunk whose file was never copied. *)
Theorem C44_uploaders_refuted : exists c xs st r,
  Forall (fun x => 1 <= it_bytes x) xs /\ history 2 c 0 (map Some xs) st /\ s_saved st <> Torn /\ run c 0 (map Some xs) st = Ok r /\
  ~ dataset_of c (s_files (completed st r)) (r_index r) xs.
Proof.
  set (xs := firstn 3 samples).
  set (st := crash 2 (fun q => if q =? 0 then 2 else 0) empty (events_of (run (cfg 1) 0 (map Some xs) empty))).
  exists (cfg 1), xs, st, (get (run (cfg 1) 0 (map Some xs) st)).
  split; [repeat constructor|]. split; [|split; [apply not_torn; vm_compute; reflexivity|split; [vm_compute; reflexivity|]]].
  - apply (history_run _ _ _ _ empty); [apply fresh|vm_compute; reflexivity|apply between].
  - intros (groups & _ & H & _).
    assert (X : r_index (get (run (cfg 1) 0 (map Some xs) st)) = [Info 0 13 1 None; Info 1 13 1 None; Info 2 13 1 None]) by (vm_compute; reflexivity).
    rewrite X in H.
    assert (N : s_files (completed st (get (run (cfg 1) 0 (map Some xs) st))) 0 = None) by (vm_compute; reflexivity).
    revert H N. generalize (s_files (completed st (get (run (cfg 1) 0 (map Some xs) st)))). intros files H N.
    inversion H as [|? ? ? ? H1 H2]. destruct H1 as (_ & file & E & _). cbn [f_index] in E. congruence.
Qed.
Print Assumptions C44_uploaders_refuted.

(** Two downloaders: the interrupted run may have processed the inputs in another order
    (see C45), but the resumed run skips a prefix of the list: a sample is stored twice and another is lost. *)
Theorem C44_downloaders_refuted : exists c xs xs' st r,
  Forall (fun x => 1 <= it_bytes x) xs /\ Permutation xs xs' /\ history 1 c 0 (map Some xs') st /\ s_saved st <> Torn /\
  run c 0 (map Some xs) st = Ok r /\
  forall ys, Permutation xs ys -> ~ dataset_of c (s_files (completed st r)) (r_index r) ys.
Proof.
  set (st := crash 1 (fun _ => 2) empty (events_of (run (cfg 1) 0 (map Some [smp 2; smp 1]) empty))).
  exists (cfg 1), [smp 1; smp 2], [smp 2; smp 1], st, (get (run (cfg 1) 0 (map Some [smp 1; smp 2]) st)).
  split; [repeat constructor|]. split; [apply perm_swap|]. split; [|split; [apply not_torn; vm_compute; reflexivity|split; [vm_compute; reflexivity|]]].
  - apply (history_run _ _ _ _ empty); [apply fresh|vm_compute; reflexivity|apply between].
  - intros ys P (groups & E & H & _). apply Permutation_length_2_inv in P.
    assert (X : r_index (get (run (cfg 1) 0 (map Some [smp 1; smp 2]) st)) = [Info 0 13 1 None; Info 1 13 1 None]) by (vm_compute; reflexivity).
    rewrite X in H. clear X.
    assert (N0 : s_files (completed st (get (run (cfg 1) 0 (map Some [smp 1; smp 2]) st))) 0 = Some (chunk_data [[2]]%N)) by (vm_compute; reflexivity).
    assert (N1 : s_files (completed st (get (run (cfg 1) 0 (map Some [smp 1; smp 2]) st))) 1 = Some (chunk_data [[2]]%N)) by (vm_compute; reflexivity).
    revert H N0 N1. generalize (s_files (completed st (get (run (cfg 1) 0 (map Some [smp 1; smp 2]) st)))). intros files H N0 N1. clear st.
    inversion H as [|g1 i1 gs is H1 H2]; subst. inversion H2 as [|g2 i2 gs2 is2 H3 H4]; subst. inversion H4; subst.
    pose proof (holds_size _ 0 _ _ _ H1) as [S1 _]. pose proof (holds_size _ 0 _ _ _ H3) as [S2 _]. cbn in S1, S2.
    destruct g1 as [|a [|? ?]]; try discriminate S1. destruct g2 as [|b [|? ?]]; try discriminate S2. cbn in P.
    destruct H1 as (_ & f1 & F1 & _ & G1 & _), H3 as (_ & f2 & F2 & _ & G2 & _).
    cbn [f_index] in F1, F2. rewrite N0 in F1. rewrite N1 in F2. injection F1 as <-. injection F2 as <-.
    destruct P as [P|P]; injection P as -> ->; vm_compute in G1, G2; congruence.
Qed.
Print Assumptions C44_downloaders_refuted.

(** The index of a resumed worker has a data format exactly if one of the inputs that were left gave a sample. *)
Theorem C44_format_known c first outs st infos r : load st = Ok infos -> run c first outs st = Ok r ->
  (r_format r = true <-> exists x, In (Some x) (skipn (done_till infos) outs)).
Proof.
  intros L E. unfold run in E. rewrite L in E. cbn [bind] in E.
  destruct (work _ _ _ _ _) as [w|]; [|discriminate]. cbn [bind] in E. destruct (finish_worker _ _ _) as [e|]; [|discriminate].
  cbn [bind] in E. injection E as <-. cbn [r_format]. unfold has_format. rewrite existsb_exists. split.
  - intros ([x|] & Hi & H); [exists x; exact Hi|discriminate].
  - intros (x & Hi). exists (Some x). auto.
Qed.
Print Assumptions C44_format_known.

(** All inputs that were left are skipped: chunks, but no data format. *)
Example C44_format_case :
  let st := Store (fun _ => None) (Saved [Info 0 13 1 None]) in
  match run (cfg 1) 0 [Some (smp 1); None; None] st with
  | Ok r => r_format r = false /\ r_index r = [Info 0 13 1 None]
  | Err _ => False
  end.
Proof. vm_compute. auto. Qed.

(** A worker that had finished knows no data format when resumed: its index differs
    from that of a worker with inputs left, and merging them raises. *)
Theorem C44_finished_worker_refuted : exists c xs st0 st1 r0 r1,
  Forall (fun x => 1 <= it_bytes x) xs /\ history 1 c 0 (map Some xs) st0 /\ history 1 c 0 (map Some xs) st1 /\
  run c 0 (map Some xs) st0 = Ok r0 /\ run c 0 (map Some xs) st1 = Ok r1 /\
  r_format r0 = false /\
  Merge_Model.finish Bool.eqb
    [Merge_Model.index_file 0 (Merge_Model.Index (r_index r0) (Some (r_format r0))) ++
     Merge_Model.index_file 1 (Merge_Model.Index (r_index r1) (Some (r_format r1)))] None = Err GenericException.
Proof.
  set (xs := firstn 3 samples).
  set (st0 := crash 1 (fun _ => 6) empty (events_of (run (cfg 1) 0 (map Some xs) empty))).
  set (st1 := crash 1 (fun _ => 4) empty (events_of (run (cfg 1) 0 (map Some xs) empty))).
  exists (cfg 1), xs, st0, st1, (get (run (cfg 1) 0 (map Some xs) st0)), (get (run (cfg 1) 0 (map Some xs) st1)).
  split; [repeat constructor|]. split; [|split; [|split; [vm_compute; reflexivity|split; [vm_compute; reflexivity|split; vm_compute; reflexivity]]]].
  - apply (history_run _ _ _ _ empty); [apply fresh|vm_compute; reflexivity|apply between].
  - apply (history_run _ _ _ _ empty); [apply fresh|vm_compute; reflexivity|apply between].
Qed.
Print Assumptions C44_finished_worker_refuted.
