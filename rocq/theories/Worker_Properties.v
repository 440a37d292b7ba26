(** Properties C45 and C88 - C91: workers, downloaders and the parent process. *)
From Coq Require Import Permutation Arith.
From Verif Require Import Base Worker_Model Worker_Proofs.

(** C45: in every execution no input is passed twice; when the worker ends, every input
    has been passed exactly once, without an exception, all downloaders have finished
    and nothing is left in a queue. *)
Theorem C45_each_once m paths broken bad remove n k s :
  0 < m -> steps m paths broken bad remove (setup m n) k s ->
  NoDup (k_done s) /\ (forall i, In i (k_done s) -> i < n) /\
  (k_status s = Ended -> Permutation (k_done s) (seq 0 n) /\ Forall (fun i => bad i = false) (k_done s) /\
     k_ready s = [] /\ k_dead s = 0 /\ forall d, d < m -> k_todo s d = [] /\ k_busy s d = None).
Proof.
  intros Hm H. pose proof (steps_inv _ _ _ _ _ _ Hm _ _ H) as Hi. destruct (done_once m paths broken bad n Hm s Hi) as [H1 H2].
  split; [exact H1|]. split; [exact H2|]. intros E. destruct (ended_all m paths broken bad n Hm s Hi E) as (Z & R & T & O).
  split; [apply (classes_perm m _ _ Hm O)|]. split; [apply (v_good _ _ _ _ Hi); congruence|]. auto.
Qed.
Print Assumptions C45_each_once.

(** C45: executions end, and as long as no downloader died they end only when the worker has ended or the
    user's function has raised. *)
Theorem C45_no_deadlock m paths broken bad remove n :
  0 < m ->
  (exists bound, forall k s, steps m paths broken bad remove (setup m n) k s -> k <= bound) /\
  (forall k s, steps m paths broken bad remove (setup m n) k s -> k_dead s = 0 ->
     (forall s', ~ step m paths broken bad remove s s') -> k_status s <> Running).
Proof.
  intros Hm. split.
  - exists (measure m paths (setup m n)). intros k s H. apply steps_bound in H; [lia|exact Hm].
  - intros k s H Z Hn E. destruct (progress m paths broken bad remove n Hm s (steps_inv _ _ _ _ _ _ Hm _ _ H) E Z) as [s' H']. exact (Hn s' H').
Qed.
Print Assumptions C45_no_deadlock.

(** C45: with one downloader the inputs are passed in order. *)
Theorem C45_one_downloader paths broken bad remove n k s :
  steps 1 paths broken bad remove (setup 1 n) k s -> exists rest, k_done s ++ rest = seq 0 n.
Proof.
  intros H. destruct (sub_order 1 bad n s 0 (steps_inv _ _ _ _ _ _ Nat.lt_0_1 _ _ H) Nat.lt_0_1) as (rest & E).
  assert (F : forall l, filter (cls 1 0) l = l) by (induction l as [|a l IH]; [reflexivity|]; cbn [filter]; unfold cls at 1; rewrite Nat.mod_1_r, Nat.eqb_refl, IH; reflexivity).
  rewrite !F in E. eauto.
Qed.
Print Assumptions C45_one_downloader.

(** C45: without downloaders the inputs are passed in order, and the worker ends. *)
Theorem C45_no_downloader m n fuel :
  0 < m -> n + m <= fuel -> fake_loop fuel m (seq 0 n) 0 [] = Ok (seq 0 n).
Proof. intros Hm H. rewrite fake_ok; [reflexivity|exact Hm|rewrite seq_length; exact H]. Qed.
Print Assumptions C45_no_downloader.

Example C45_fake_case : fake_loop 7 2 (seq 0 4) 0 [] = Ok [0; 1; 2; 3] /\ fake_loop 5 2 (seq 0 4) 0 [] = Err OutOfFuel.
Proof. split; reflexivity. Qed.

(** Executions from the front. *)
Lemma steps_front m paths broken bad remove s s' k s'' :
  step m paths broken bad remove s s' -> steps m paths broken bad remove s' k s'' -> steps m paths broken bad remove s (S k) s''.
Proof.
  intros H. induction 1 as [|k t t' _ IH Ht]; [eapply steps_S; [apply steps_0|exact H]|]. eapply steps_S; [exact IH|exact Ht].
Qed.

(** Executions given by a list of labels. *)
Inductive label := Take (d : nat) | Copy (d : nat) | Put (d : nat) | Leave (d : nat) | Work | Count | Unlink.
Section Exec.
Context (m : nat) (paths : nat -> list nat) (broken bad : nat -> bool) (remove : bool).
Definition exec (l : label) (s : wk) : option wk :=
  match l with
  | Take d =>
      if d <? m then
        match k_busy s d, k_todo s d with
        | None, Some i :: q =>
            if forallb (k_cache s) (paths i)
            then Some (Wk (set (k_todo s) d q) (k_busy s) (k_dead s) (k_ready s ++ [Some i]) (k_finished s) (k_done s) (k_remove s) (k_cache s) (k_status s))
            else Some (Wk (set (k_todo s) d q) (set (k_busy s) d (Some (i, paths i))) (k_dead s) (k_ready s) (k_finished s) (k_done s) (k_remove s) (k_cache s) (k_status s))
        | _, _ => None
        end
      else None
  | Copy d =>
      if d <? m then
        match k_busy s d with
        | Some (i, p :: ps) =>
            if broken p
            then Some (Wk (set (k_todo s) d []) (set (k_busy s) d None) (S (k_dead s)) (k_ready s) (k_finished s) (k_done s) (k_remove s) (k_cache s) (k_status s))
            else Some (Wk (k_todo s) (set (k_busy s) d (Some (i, ps))) (k_dead s) (k_ready s) (k_finished s) (k_done s) (k_remove s) (set (k_cache s) p true) (k_status s))
        | _ => None
        end
      else None
  | Put d =>
      if d <? m then
        match k_busy s d with
        | Some (i, []) => Some (Wk (k_todo s) (set (k_busy s) d None) (k_dead s) (k_ready s ++ [Some i]) (k_finished s) (k_done s) (k_remove s) (k_cache s) (k_status s))
        | _ => None
        end
      else None
  | Leave d =>
      if d <? m then
        match k_busy s d, k_todo s d with
        | None, None :: _ => Some (Wk (set (k_todo s) d []) (k_busy s) (k_dead s) (k_ready s ++ [None]) (k_finished s) (k_done s) (k_remove s) (k_cache s) (k_status s))
        | _, _ => None
        end
      else None
  | Work =>
      match k_status s, k_ready s with
      | Running, Some i :: r =>
          if succeeds paths bad s i
          then Some (Wk (k_todo s) (k_busy s) (k_dead s) r (k_finished s) (k_done s ++ [i]) (if remove then k_remove s ++ [paths i] else k_remove s) (k_cache s) Running)
          else Some (Wk (k_todo s) (k_busy s) (k_dead s) r (k_finished s) (k_done s ++ [i]) (k_remove s) (k_cache s) Failed)
      | _, _ => None
      end
  | Count =>
      match k_status s, k_ready s with
      | Running, None :: r => Some (Wk (k_todo s) (k_busy s) (k_dead s) r (S (k_finished s)) (k_done s) (k_remove s) (k_cache s) (if S (k_finished s) =? m then Ended else Running))
      | _, _ => None
      end
  | Unlink =>
      match k_remove s with
      | (p :: ps) :: r => Some (Wk (k_todo s) (k_busy s) (k_dead s) (k_ready s) (k_finished s) (k_done s) (ps :: r) (set (k_cache s) p false) (k_status s))
      | [] :: r => Some (Wk (k_todo s) (k_busy s) (k_dead s) (k_ready s) (k_finished s) (k_done s) r (k_cache s) (k_status s))
      | [] => None
      end
  end.
Fixpoint execs (ls : list label) (s : wk) : option wk :=
  match ls with [] => Some s | l :: ls' => match exec l s with Some s' => execs ls' s' | None => None end end.
Lemma exec_step l s s' : exec l s = Some s' -> step m paths broken bad remove s s'.
Proof.
  destruct l as [d|d|d|d| | |]; cbn [exec].
  1-4: destruct (Nat.ltb_spec d m) as [Hd|]; [|discriminate].
  - destruct (k_busy s d) eqn:Eb; [discriminate|]. destruct (k_todo s d) as [|[i|] q] eqn:Et; try discriminate.
    destruct (forallb (k_cache s) (paths i)) eqn:Ec; intros H; injection H as <-; [eapply take_cached|eapply take]; eassumption.
  - destruct (k_busy s d) as [[i [|p ps]]|] eqn:Eb; try discriminate. destruct (broken p) eqn:Ep; intros H; injection H as <-; [eapply copy_raises|eapply copy]; eassumption.
  - destruct (k_busy s d) as [[i [|p ps]]|] eqn:Eb; try discriminate. intros H; injection H as <-. eapply put; eassumption.
  - destruct (k_busy s d) eqn:Eb; [discriminate|]. destruct (k_todo s d) as [|[i|] q] eqn:Et; try discriminate. intros H; injection H as <-. eapply leave; eassumption.
  - destruct (k_status s) eqn:Es; try discriminate. destruct (k_ready s) as [|[i|] r] eqn:Er; try discriminate.
    destruct (succeeds paths bad s i) eqn:Ec; intros H; injection H as <-; [eapply work|eapply work_raises]; eassumption.
  - destruct (k_status s) eqn:Es; try discriminate. destruct (k_ready s) as [|[i|] r] eqn:Er; try discriminate. intros H; injection H as <-. eapply count; eassumption.
  - destruct (k_remove s) as [|[|p ps] r] eqn:Er; try discriminate; intros H; injection H as <-; [eapply unlinked|eapply unlink]; eassumption.
Qed.
Lemma execs_steps ls : forall s s', execs ls s = Some s' -> steps m paths broken bad remove s (length ls) s'.
Proof.
  induction ls as [|l ls IH]; intros s s'; cbn [execs]; [intros H; injection H as <-; apply steps_0|].
  destruct (exec l s) as [t|] eqn:E; [|discriminate]. intros H. eapply steps_front; [eapply exec_step; exact E|apply IH; exact H].
Qed.
Definition reach (ls : list label) (n : nat) : wk := match execs ls (setup m n) with Some s => s | None => setup m n end.
Lemma reached ls n : (match execs ls (setup m n) with Some _ => true | None => false end) = true -> steps m paths broken bad remove (setup m n) (length ls) (reach ls n).
Proof. unfold reach. destruct (execs ls (setup m n)) as [s|] eqn:E; [|discriminate]. intros _. apply execs_steps. exact E. Qed.
End Exec.

(** Two downloaders, two inputs with a file each; the second input is ready first. *)
Example C45_case : exists k s, steps 2 (fun i => [i]) (fun _ => false) (fun _ => false) true (setup 2 2) k s /\
  k_status s = Ended /\ k_done s = [1; 0].
Proof.
  set (ls := [Take 0; Take 1; Copy 1; Put 1; Work; Copy 0; Leave 1; Put 0; Unlink; Count; Work; Leave 0; Count]).
  exists (length ls), (reach 2 (fun i => [i]) (fun _ => false) (fun _ => false) true ls 2).
  split; [apply reached; vm_compute; reflexivity|split; vm_compute; reflexivity].
Qed.

(** C88: when optimize/map return normally, every worker that has inputs had sent its end
    and no error had been read. *)
Theorem C88_returns_after_all workers n ms :
  (forall w, w < workers -> sends (n w) 0 (counts w ms)) ->
  parent workers (sum (map n (seq 0 workers))) (fun _ => 0) ms = Returned ->
  exists ms1 ms2, ms = ms1 ++ ms2 /\ ~ In Error ms1 /\ forall w, w < workers -> 0 < n w -> In (n w) (counts w ms1).
Proof. intros Hs H. apply (parent_returned workers n ms (fun _ => 0)); [intros; lia|exact Hs|exact H]. Qed.
Print Assumptions C88_returns_after_all.

(** C88: it returns once all workers have ended without an error, and it raises if a
    worker with inputs did not end and an error was reported. *)
Theorem C88_returns_or_raises workers n ms :
  0 < workers -> (forall w, w < workers -> sends (n w) 0 (counts w ms)) ->
  (~ In Error ms -> (forall w, w < workers -> In (n w) (counts w ms)) ->
     parent workers (sum (map n (seq 0 workers))) (fun _ => 0) ms = Returned) /\
  (In Error ms -> (exists w, w < workers /\ 0 < n w /\ ~ In (n w) (counts w ms)) ->
     parent workers (sum (map n (seq 0 workers))) (fun _ => 0) ms = Raised).
Proof.
  intros Hw Hs. split.
  - intros He Hi. apply parent_complete; auto.
  - intros He (w & H1 & H2 & H3). apply parent_error; [|exact He]. apply (parent_not_returned workers n ms w); assumption.
Qed.
Print Assumptions C88_returns_or_raises.

(** Two workers with five inputs and one input, and an idle one. *)
Definition inputs (w : nat) : nat := nth w [5; 1; 0] 0.
Definition heard := [Progress 0 2; Progress 1 1; Progress 2 0; Progress 0 5].
Example C88_case :
  (forall w, w < 3 -> sends (inputs w) 0 (counts w heard) /\ In (inputs w) (counts w heard)) /\
  parent 3 6 (fun _ => 0) heard = Returned /\ parent 3 6 (fun _ => 0) (firstn 3 heard) = Waiting /\
  parent 3 6 (fun _ => 0) (firstn 3 heard ++ [Error]) = Raised.
Proof.
  split; [|repeat split]. intros w Hw. destruct w as [|[|[|w]]]; [..|lia]; cbn; (split; [|auto]).
  - apply sends_progress; [lia|lia|apply sends_end].
  - apply sends_end.
  - apply sends_end.
Qed.

(** C89: a worker that is killed sends neither its end nor an error: the parent waits for ever. *)
Theorem C89_killed_refuted : exists workers n ms,
  (forall w, w < workers -> sends (n w) 0 (counts w ms)) /\
  (exists w, w < workers /\ 0 < n w /\ ~ In (n w) (counts w ms)) /\
  parent workers (sum (map n (seq 0 workers))) (fun _ => 0) ms = Waiting.
Proof.
  exists 2, (fun _ => 4), [Progress 0 1; Progress 1 4]. split; [|split; [|reflexivity]].
  - intros [|[|w]] Hw; [..|lia]; cbn; [apply sends_progress; [lia|lia|apply sends_nothing]|apply sends_end].
  - exists 0. cbn. split; [lia|]. split; [lia|]. intros [H|[]]. discriminate H.
Qed.
Print Assumptions C89_killed_refuted.

(** C89: it never takes the job for finished. *)
Theorem C89_not_taken_for_finished workers n ms w :
  (forall w, w < workers -> sends (n w) 0 (counts w ms)) ->
  w < workers -> 0 < n w -> ~ In (n w) (counts w ms) ->
  parent workers (sum (map n (seq 0 workers))) (fun _ => 0) ms <> Returned.
Proof. intros Hs Hw Hp Hn. apply (parent_not_returned workers n ms w); assumption. Qed.
Print Assumptions C89_not_taken_for_finished.
Example C89_case : parent 2 8 (fun _ => 0) [Progress 0 1; Progress 1 4] <> Returned.
Proof. discriminate. Qed.

(** C90: if a file of an input cannot be copied, the worker never ends as if all were well. *)
Theorem C90_never_succeeds m paths broken bad remove n k s i p :
  0 < m -> i < n -> In p (paths i) -> broken p = true ->
  steps m paths broken bad remove (setup m n) k s -> k_status s <> Ended.
Proof.
  intros Hm Hi Hp Hb H E. destruct (C45_each_once _ _ _ _ _ _ _ _ Hm H) as (_ & _ & HE). destruct (HE E) as (P & _).
  destruct (steps_files _ _ _ _ _ _ _ _ H) as [_ Fo _].
  assert (In i (k_done s)) by (eapply Permutation_in; [apply Permutation_sym; exact P|apply in_seq; lia]).
  pose proof (Fo i (or_introl H0)) as F. rewrite Forall_forall in F. rewrite (F p Hp) in Hb. discriminate Hb.
Qed.
Print Assumptions C90_never_succeeds.

(** Two downloaders, the file of the first input cannot be copied: the second input is worked on, the worker goes on waiting. *)
Example C90_case : exists k s, steps 2 (fun i => [i]) (fun p => p =? 0) (fun _ => false) true (setup 2 2) k s /\
  k_done s = [1] /\ k_status s = Running.
Proof.
  set (ls := [Take 0; Take 1; Copy 1; Put 1; Copy 0; Work]).
  exists (length ls), (reach 2 (fun i => [i]) (fun p => p =? 0) (fun _ => false) true ls 2).
  split; [apply reached; vm_compute; reflexivity|split; vm_compute; reflexivity].
Qed.

(** C90: but no error is reported either: the downloader is gone and the worker waits for ever. *)
Theorem C90_waits_refuted : exists m paths broken bad remove n k s,
  0 < m /\ (exists i p, i < n /\ In p (paths i) /\ broken p = true) /\
  steps m paths broken bad remove (setup m n) k s /\ k_status s = Running /\
  forall s', ~ step m paths broken bad remove s s'.
Proof.
  set (s := reach 1 (fun i => [i]) (fun p => p =? 0) (fun _ => false) true [Take 0; Copy 0] 2).
  exists 1, (fun i => [i]), (fun p => p =? 0), (fun _ => false), true, 2, 2, s. split; [lia|]. split; [exists 0, 0; cbn; auto|].
  split; [apply (reached 1 (fun i => [i]) (fun p => p =? 0) (fun _ => false) true [Take 0; Copy 0] 2); vm_compute; reflexivity|]. split; [vm_compute; reflexivity|].
  assert (T : k_todo s 0 = []) by (vm_compute; reflexivity). assert (B : k_busy s 0 = None) by (vm_compute; reflexivity).
  assert (R : k_ready s = []) by (vm_compute; reflexivity). assert (U : k_remove s = []) by (vm_compute; reflexivity).
  clearbody s. intros s' H. inversion H as
    [d i q Hd Et Eb Ec|d i q Hd Et Eb Ec|d i p ps Hd Eb Er|d i p ps Hd Eb Er|d i Hd Eb|d q Hd Et Eb|i r Est Er Ec|i r Est Er Ec|r Est Er|p ps r Er|r Er]; subst s';
    try (assert (d = 0) by lia; subst d); congruence.
Qed.
Print Assumptions C90_waits_refuted.

(** C91: if no two inputs share a file (or cached files are kept), then the user's
    function always finds its files: the worker fails only if the function itself raises. *)
Theorem C91_files_available_partial m paths broken bad remove n k s :
  0 < m -> (remove = true -> forall i j p, i < n -> j < n -> In p (paths i) -> In p (paths j) -> i = j) ->
  steps m paths broken bad remove (setup m n) k s ->
  (forall i r p, k_ready s = Some i :: r -> In p (paths i) -> k_cache s p = true) /\
  (k_status s = Failed -> exists i, In i (k_done s) /\ bad i = true).
Proof.
  intros Hm Ha H. destruct (steps_avail _ _ _ _ _ _ Hm Ha _ _ H) as [Ar _ _ As]. split.
  - intros i r p E Hp. apply (Ar i p); [rewrite E; left; reflexivity|exact Hp].
  - intros E. destruct As as [As|As]; [contradiction|exact As].
Qed.
Print Assumptions C91_files_available_partial.

(** Three inputs with two files each. *)
Example C91_case : (forall i j p, i < 3 -> j < 3 -> In p [2 * i; 2 * i + 1] -> In p [2 * j; 2 * j + 1] -> i = j) /\
  exists k s, steps 1 (fun i => [2 * i; 2 * i + 1]) (fun _ => false) (fun i => i =? 1) true (setup 1 3) k s /\
  k_status s = Failed /\ k_done s = [0; 1] /\ k_cache s 0 = false /\ k_cache s 1 = true.
Proof.
  split; [intros i j p Hi Hj H1 H2; cbn in H1, H2; lia|]. 
  set (ls := [Take 0; Copy 0; Copy 0; Put 0; Take 0; Work; Copy 0; Unlink; Copy 0; Put 0; Work]).
  exists (length ls), (reach 1 (fun i => [2 * i; 2 * i + 1]) (fun _ => false) (fun i => i =? 1) true ls 3).
  split; [apply reached; vm_compute; reflexivity|vm_compute; repeat split].
Qed.

(** C91: two inputs with the same file: it is deleted after the first one, although the
    downloader has already announced the second. *)
Theorem C91_shared_refuted : exists m paths broken n k s,
  0 < m /\ (forall p, broken p = false) /\ steps m paths broken (fun _ => false) true (setup m n) k s /\ k_status s = Failed.
Proof.
  set (ls := [Take 0; Copy 0; Put 0; Take 0; Work; Unlink; Work]).
  exists 1, (fun _ => [0]), (fun _ => false), 2, (length ls), (reach 1 (fun _ => [0]) (fun _ => false) (fun _ => false) true ls 2).
  split; [lia|]. split; [reflexivity|]. split; [apply reached; vm_compute; reflexivity|vm_compute; reflexivity].
Qed.
Print Assumptions C91_shared_refuted.
