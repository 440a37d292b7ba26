(** Property C196: shared chunks stay on the disk of a node. *)
From Coq Require Import Lia.
From Verif Require Import Base Assign_Model Skip_Model Skip_Spec Keep_Model Keep_Spec Keep_Proofs Keep_Proofs2.

(** C196, the part that holds: in every order of the steps of the workers, and whatever they are told, a chunk is on the disk as
    long as one of them is using it. *)
Theorem C196_there_while_used_partial tell es pre post w c :
  proper es -> es = pre ++ post -> in_use w c pre -> n_file (run tell pre n_init) c = true.
Proof.
  intros Hp -> Hu. assert (P : proper pre) by (intros q r v x ->; apply (Hp q (r ++ post)); rewrite app_assoc; reflexivity).
  destruct (counted_run tell pre P c) as (hs & _ & _ & H & F). apply F. intros ->. destruct (proj2 (H w) Hu).
Qed.
Print Assumptions C196_there_while_used_partial.

(** What the workers do is such a sequence, in every order of their steps. *)
Theorem C196_workers_are_proper p css es :
  1 <= p -> Forall (@NoDup nat) css -> schedule (map (program p) css) es -> proper es.
Proof. exact (schedule_proper p css es). Qed.
Print Assumptions C196_workers_are_proper.

(** It is downloaded at most as often as there are workers of the node that read it, and a chunk of one worker exactly once; also
    a shared chunk is downloaded once if all fetch it before it is removed. *)
Theorem C196_downloads_partial tell p css es c :
  Forall (@NoDup nat) css -> schedule (map (program p) css) es ->
  (forall ws, NoDup ws -> (forall w, w < length css -> In c (nth w css []) -> In w ws) -> times c (n_downloads (run tell es n_init)) <= length ws) /\
  (forall e, In e es -> snd e = Get c -> 1 <= times c (n_downloads (run tell es n_init))) /\
  (forall first rest, es = first ++ rest -> (forall e, In e first -> snd e <> Remove c) -> (forall e, In e rest -> snd e <> Get c) ->
     times c (n_downloads (run tell es n_init)) <= 1).
Proof.
  intros Hd Hs. split; [|split].
  - intros ws Hn Hw. etransitivity; [exact (downloads_workers tell p css es c Hd Hs)|]. apply NoDup_incl_length.
    + apply NoDup_filter, seq_NoDup.
    + intros w H. apply filter_In in H. destruct H as [H1 H2]. apply in_seq in H1. destruct (in_dec Nat.eq_dec c (nth w css [])) as [Hi|]; [|discriminate H2]. apply Hw; [lia|exact Hi].
  - intros e Hin He. apply downloads_some; [discriminate|]. right. intros Z. unfold count in Z. apply length_zero_iff_nil in Z.
    assert (X : In e (filter (fun e => is_get c (snd e)) es)) by (apply filter_In; split; [exact Hin|rewrite He; apply Nat.eqb_refl]). rewrite Z in X. destruct X.
  - intros first rest -> H1 H2.
    assert (Z : forall (P : nat * act -> bool) l, (forall e, In e l -> P e = false) -> count P l = 0).
    { intros P l H. unfold count. induction l as [|e l IH]; [reflexivity|]. cbn [filter]. rewrite H by (left; reflexivity). apply IH. intros x Hx. apply H. right. exact Hx. }
    apply downloads_once; apply Z; intros e He.
    + pose proof (H1 e He). destruct (snd e) as [x|x|x]; try reflexivity. cbn. apply Nat.eqb_neq. congruence.
    + pose proof (H2 e He). destruct (snd e) as [x|x|x]; try reflexivity. cbn. apply Nat.eqb_neq. congruence.
Qed.
Print Assumptions C196_downloads_partial.

(** Two workers with four chunks each, in turns. *)
Definition turns (css : list (list nat)) : list (nat * act) :=
  flat_map (fun i => flat_map (fun w => match nth_error (program 2 (nth w css [])) i with Some a => [(w, a)] | None => [] end) (seq 0 (length css))) (seq 0 20).
Example C196_case :
  let css := [[0; 1; 2; 3]; [3; 4; 5; 6]] in
  Forall (@NoDup nat) css /\ schedule (map (program 2) css) (turns css) /\
  n_downloads (run (fun _ => None) (turns css) n_init) = [0; 3; 1; 4; 2; 5; 3; 6] /\
  map (n_file (run (fun _ => None) (firstn 16 (turns css)) n_init)) (seq 0 7) = [false; false; true; true; false; true; true] /\
  in_use 0 3 (firstn 16 (turns css)) /\ ~ in_use 1 3 (firstn 16 (turns css)).
Proof.
  cbv zeta. split; [repeat constructor; cbn; intuition discriminate|]. split; [|split; [vm_compute; reflexivity|split; [vm_compute; reflexivity|split; vm_compute; lia]]].
  split; [vm_compute; repeat (constructor; [lia|]); constructor|]. intros w Hw. cbn in Hw. destruct w as [|[|w]]; [vm_compute; reflexivity|vm_compute; reflexivity|lia].
Qed.

(** What the workers are told makes no difference: in every order of the steps the files, the counters and the downloads are the
    same, and a chunk that nobody is using at the moment is removed also by a worker that is told to keep it. *)
Theorem C196_told_in_vain tell tell' es s t c :
  run tell es s = run tell' es s /\ (n_count s c = 0 -> n_file (step t (Remove c) s) c = false).
Proof.
  split; [apply run_unused|]. intros H. cbn [step]. unfold apply_delete. rewrite H. cbn. apply put_same.
Qed.
Print Assumptions C196_told_in_vain.

(** C196 is false: the second worker, which is told to keep the chunk that it shares with the first one, removes it before the
    first one has fetched it, and it is downloaded twice. *)
Theorem C196_told_refuted : exists ivs a es pre c post,
  no_shuffle_assign (Env 1 0 1) false 2 1 ivs = Ok a /\
  told false (Env 1 0 1) 2 1 1 a = Ok (Some [c]) /\ reads (fst a) 0 c /\ reads (fst a) 1 c /\
  schedule (map (program 2) (fst a)) es /\ es = pre ++ (1, Remove c) :: post /\ gets 0 c pre = 0 /\
  forall tell, n_file (run tell pre n_init) c = true /\ n_file (run tell (pre ++ [(1, Remove c)]) n_init) c = false /\
    times c (n_downloads (run tell es n_init)) = 2.
Proof.
  exists (map (fun i => Iv (2 * i) (2 * i) (2 * i + 2) (2 * i + 2)) (seq 0 7)). eexists.
  exists (turns [[0; 1; 2; 3]; [3; 4; 5; 6]]), (firstn 7 (turns [[0; 1; 2; 3]; [3; 4; 5; 6]])), 3, (skipn 8 (turns [[0; 1; 2; 3]; [3; 4; 5; 6]])).
  split; [vm_compute; reflexivity|]. split; [vm_compute; reflexivity|].
  split; [eexists; split; [vm_compute; reflexivity|cbn; tauto]|]. split; [eexists; split; [vm_compute; reflexivity|cbn; tauto]|].
  split; [exact (proj1 (proj2 C196_case))|]. split; [vm_compute; reflexivity|]. split; [vm_compute; reflexivity|].
  intros tell. rewrite !(run_unused tell (fun _ => None)). split; [vm_compute; reflexivity|]. split; vm_compute; reflexivity.
Qed.
Print Assumptions C196_told_refuted.

(** In an epoch that continues from a loaded state no worker is told to keep the chunk that two of them share. *)
Theorem C196_resumed_refuted : exists ivs a c,
  no_shuffle_assign (Env 1 0 1) false 2 1 ivs = Ok a /\ reads (fst a) 0 c /\ reads (fst a) 1 c /\
  told false (Env 1 0 1) 2 1 1 a = Ok (Some [c]) /\
  forall w, w < 2 -> told true (Env 1 0 1) 2 w 1 a = Ok None.
Proof.
  exists (map (fun i => Iv (2 * i) (2 * i) (2 * i + 2) (2 * i + 2)) (seq 0 7)). eexists. exists 3.
  split; [vm_compute; reflexivity|]. split; [eexists; split; [vm_compute; reflexivity|cbn; tauto]|]. split; [eexists; split; [vm_compute; reflexivity|cbn; tauto]|].
  split; [vm_compute; reflexivity|]. reflexivity.
Qed.
Print Assumptions C196_resumed_refuted.
