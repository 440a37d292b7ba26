(** C189, C190: jobs on the platform. *)
From Coq Require Import String NArith.
From Verif Require Import Base Names_Model Job_Model Job_Spec.
Local Ltac Zify.zify_post_hook ::= idtac.
Local Open Scope list_scope.
Local Open Scope nat_scope.

Lemma harmless_not_blank c : harmless c = true -> blank c = false.
Proof.
  intros H. unfold blank. destruct (N.eqb_spec c 32) as [->|]; [discriminate H|]. destruct (N.eqb_spec c 9) as [->|]; [discriminate H|]. reflexivity.
Qed.
Lemma fields_word w : forall acc text, (forall c, In c w -> blank c = false) -> fields acc (w ++ text) = fields (acc ++ w) text.
Proof.
  induction w as [|c w IH]; intros acc text H; cbn [app fields]; [rewrite app_nil_r; reflexivity|].
  rewrite (H c) by (left; reflexivity). rewrite IH by (intros; apply H; right; assumption). rewrite <- app_assoc. reflexivity.
Qed.
Lemma simple_blank w : simple w -> forall c, In c w -> blank c = false.
Proof. intros [_ H] c Hc. apply harmless_not_blank. rewrite forallb_forall in H. apply H. exact Hc. Qed.
Definition unblank (w : str) : Prop := w <> [] /\ forall c, In c w -> blank c = false.
Lemma fields_then w text : unblank w -> fields [] (w ++ codes " " ++ text) = w :: fields [] text.
Proof.
  intros [H1 H2]. rewrite fields_word by exact H2. cbn [app codes fields]. change (blank _) with true. cbv iota.
  destruct w; [congruence|reflexivity].
Qed.
Lemma fields_end w : unblank w -> fields [] w = [w].
Proof. intros [H1 H2]. rewrite <- (app_nil_r w) at 1. rewrite fields_word by exact H2. cbn [app fields]. destruct w; [congruence|reflexivity]. Qed.
Lemma fields_blank text : fields [] (codes " " ++ text) = fields [] text.
Proof. reflexivity. Qed.
Lemma simple_unblank w : simple w -> unblank w.
Proof. intros H. split; [apply H|apply simple_blank; exact H]. Qed.
Lemma unblank_app a b : unblank a -> (forall c, In c b -> blank c = false) -> unblank (a ++ b).
Proof.
  intros [H1 H2] H. split; [destruct a; [congruence|discriminate]|].
  intros c Hc. apply in_app_or in Hc as [Hc|Hc]; [apply H2|apply H]; exact Hc.
Qed.
Lemma fields_argv argv : Forall simple argv -> fields [] (join_blank argv) = argv.
Proof.
  induction argv as [|a argv IH]; intros H; [reflexivity|]. inversion H as [|? ? Ha Hr]; subst.
  destruct argv as [|b argv]; [apply fields_end, simple_unblank; exact Ha|].
  change (join_blank (a :: b :: argv)) with (a ++ codes " " ++ join_blank (b :: argv)).
  rewrite fields_then by (apply simple_unblank; exact Ha). rewrite IH by exact Hr. reflexivity.
Qed.
Lemma fields_assignment name value text : simple name -> value = [] \/ simple value ->
  fields [] (assignment name value ++ codes " " ++ text) = passed_on name value ++ fields [] text.
Proof.
  intros Hn Hv. destruct value as [|v0 v]; [reflexivity|]. destruct Hv as [Hv|Hv]; [discriminate|].
  cbn [assignment passed_on].
  assert (U : unblank (name ++ codes "=" ++ v0 :: v)).
  { apply unblank_app; [apply simple_unblank; exact Hn|]. intros c Hc. apply in_app_or in Hc as [[<-|[]]|Hc]; [reflexivity|].
    apply (simple_blank _ Hv). exact Hc. }
  replace ((codes " " ++ name ++ codes "=" ++ (v0 :: v) ++ codes " ") ++ codes " " ++ text)
    with (codes " " ++ (name ++ codes "=" ++ v0 :: v) ++ codes " " ++ codes " " ++ text).
  2:{ rewrite <- !app_assoc. reflexivity. }
  rewrite fields_blank, fields_then by exact U. reflexivity.
Qed.
Lemma commands_simple c l : commands (c :: l) = match commands l with d :: ds => if and_then c then [] :: d :: ds else (c :: d) :: ds | [] => [] end.
Proof. reflexivity. Qed.
Lemma simple_word w : simple w -> and_then w = false.
Proof. intros [_ H]. unfold and_then. destruct (list_eq_dec _ _ _) as [->|]; [discriminate H|reflexivity]. Qed.
Lemma commands_words l : Forall simple l -> commands l = [l].
Proof.
  induction l as [|w l IH]; intros H; [reflexivity|]. inversion H; subst. cbn [commands]. rewrite IH by assumption.
  rewrite simple_word by assumption. reflexivity.
Qed.
Lemma passed_simple name value : simple name -> value = [] \/ simple value -> Forall simple (passed_on name value).
Proof.
  intros [Hn1 Hn2] Hv. destruct value as [|v0 v]; [constructor|]. destruct Hv as [Hv|[_ Hv]]; [discriminate|].
  constructor; [|constructor]. split; [destruct name; [congruence|discriminate]|].
  rewrite !forallb_app, Hn2, Hv. reflexivity.
Qed.

(** C189 (partial): if neither the working directory nor the arguments nor the variables hold blanks or characters with a meaning, the
    machines of the job run the command of the user: in the same directory, [python] with the very same
    arguments, with LIGHTNING_SKIP_INSTALL and LIGHTNING_BRANCH as they are set here.
    Missing: other variables and the interpreter, which the code does not pass on; arguments with blanks, see below. *)
Theorem C189_command_partial cwd skip_install branch argv :
  simple cwd -> (skip_install = [] \/ simple skip_install) -> (branch = [] \/ simple branch) -> Forall simple argv ->
  shell (job_command cwd skip_install branch argv) =
  Some [[codes "cd"; cwd];
        passed_on (codes "LIGHTNING_SKIP_INSTALL") skip_install ++ passed_on (codes "LIGHTNING_BRANCH") branch ++ codes "python" :: argv].
Proof.
  intros Hc Hs Hb Ha.
  assert (S1 : simple (codes "LIGHTNING_SKIP_INSTALL")) by (split; [discriminate|reflexivity]).
  assert (S2 : simple (codes "LIGHTNING_BRANCH")) by (split; [discriminate|reflexivity]).
  assert (S3 : simple (codes "python")) by (split; [discriminate|reflexivity]).
  assert (S4 : simple (codes "cd")) by (split; [discriminate|reflexivity]).
  assert (W : fields [] (job_command cwd skip_install branch argv) =
              codes "cd" :: cwd :: codes "&&" :: passed_on (codes "LIGHTNING_SKIP_INSTALL") skip_install
                ++ passed_on (codes "LIGHTNING_BRANCH") branch ++ codes "python" :: argv).
  { unfold job_command.
    change (codes "cd ") with (codes "cd" ++ codes " "). rewrite <- app_assoc.
    rewrite fields_then by (apply simple_unblank; exact S4).
    change (codes " &&") with (codes " " ++ codes "&&"). rewrite <- app_assoc.
    rewrite fields_then by (apply simple_unblank; exact Hc). f_equal. f_equal.
    assert (J : forall a, codes " python " ++ a = codes " " ++ codes "python" ++ codes " " ++ a) by reflexivity. rewrite J.
    assert (P : fields [] (codes "python" ++ codes " " ++ join_blank argv) = codes "python" :: argv).
    { rewrite fields_then by (apply simple_unblank; exact S3). rewrite fields_argv by exact Ha. reflexivity. }
    assert (A : forall name value, exists t, forall text, assignment name value ++ codes " " ++ text = codes " " ++ t ++ text).
    { intros name value. destruct value as [|v0 v]; [exists []; reflexivity|].
      exists (name ++ codes "=" ++ (v0 :: v) ++ codes " " ++ codes " "). intros text. cbn [assignment].
      rewrite <- !app_assoc. reflexivity. }
    assert (Q : forall text, fields [] (codes "&&" ++ codes " " ++ text) = codes "&&" :: fields [] text) by reflexivity.
    pose proof (fields_assignment (codes "LIGHTNING_BRANCH") branch (codes "python" ++ codes " " ++ join_blank argv) S2 Hb) as E2.
    rewrite P in E2. destruct (A (codes "LIGHTNING_BRANCH") branch) as [t Et]. rewrite Et in E2. rewrite Et.
    rewrite fields_blank in E2.
    pose proof (fields_assignment (codes "LIGHTNING_SKIP_INSTALL") skip_install (t ++ codes "python" ++ codes " " ++ join_blank argv) S1 Hs) as E1.
    rewrite E2 in E1. destruct (A (codes "LIGHTNING_SKIP_INSTALL") skip_install) as [t' Et']. rewrite Et' in E1. rewrite Et'.
    rewrite fields_blank in E1. rewrite Q, E1. reflexivity. }
  unfold shell. rewrite W.
  assert (T : Forall simple (passed_on (codes "LIGHTNING_SKIP_INSTALL") skip_install ++ passed_on (codes "LIGHTNING_BRANCH") branch ++ codes "python" :: argv)).
  { apply Forall_app. split; [apply passed_simple; assumption|]. apply Forall_app. split; [apply passed_simple; assumption|]. constructor; assumption. }
  set (rest := passed_on (codes "LIGHTNING_SKIP_INSTALL") skip_install ++ _) in *.
  assert (G : forallb (fun w => and_then w || forallb harmless w) rest = true).
  { apply forallb_forall. intros w Hw. rewrite Forall_forall in T. rewrite (proj2 (T w Hw)). apply orb_true_r. }
  cbn [forallb]. rewrite G, (proj2 S4), (proj2 Hc), !orb_true_r. change (and_then (codes "&&")) with true. cbn [andb orb].
  rewrite !commands_simple, (simple_word _ S4), (simple_word _ Hc), commands_words by exact T. reflexivity.
Qed.
Print Assumptions C189_command_partial.
Example command_example :
  let c := job_command (codes "/teamspace/studios/this_studio") (codes "1") [] [codes "prepare.py"; codes "--lr=0.1"] in
  c = codes "cd /teamspace/studios/this_studio && LIGHTNING_SKIP_INSTALL=1  python prepare.py --lr=0.1" /\
  shell c = Some [[codes "cd"; codes "/teamspace/studios/this_studio"];
                  [codes "LIGHTNING_SKIP_INSTALL=1"; codes "python"; codes "prepare.py"; codes "--lr=0.1"]].
Proof. repeat (apply conj; [vm_compute; reflexivity|]). vm_compute; reflexivity. Qed.

(** An argument with a blank arrives as two, an empty one not at all, and a directory with a blank is not changed to. *)
Theorem C189_command_refuted :
  exists argv cwd, argv = [codes "prepare.py"; codes "--name"; codes "my data"; []] /\ cwd = codes "/home/me/my project" /\
    shell (job_command (codes "/home/me") [] [] argv) =
      Some [[codes "cd"; codes "/home/me"]; [codes "python"; codes "prepare.py"; codes "--name"; codes "my"; codes "data"]] /\
    shell (job_command cwd [] [] [codes "prepare.py"]) =
      Some [[codes "cd"; codes "/home/me/my"; codes "project"]; [codes "python"; codes "prepare.py"]].
Proof. eexists. eexists. repeat (apply conj; [vm_compute; reflexivity|]). vm_compute; reflexivity. Qed.
Print Assumptions C189_command_refuted.

(** ** Starting and waiting *)
Section Start.
Context {machine : Type}.
Implicit Types (wanted : option machine) (own : machine).

(** C190 (partial): with [num_nodes] in a studio, outside of a job, exactly one job is started: with that many
    machines, of the kind asked for or else like the studio's. *)
Theorem C190_one_job_partial wanted n variable own cwd skip_install branch argv here answers fuel :
  (variable = None \/ exists v, variable = Some (Some v) /\ (v <= 0)%Z) ->
  fst (start true true wanted (Some n) variable own cwd skip_install branch argv here answers fuel) =
  [Job (job_command cwd skip_install branch argv) n (match wanted with Some m => m | None => own end)].
Proof.
  unfold start. cbn [negb andb]. intros [->|(v & -> & Hv)]; cbn [nodes_variable]; [reflexivity|].
  destruct (Z.ltb_spec 0 v); [lia|reflexivity].
Qed.

(** C190: the machines of a job, which know the number of nodes, start no further job: they do the work. *)
Theorem C190_no_recursion sdk wanted n v own cwd skip_install branch argv here answers fuel :
  (0 < v)%Z ->
  start true sdk wanted (Some n) (Some (Some v)) own cwd skip_install branch argv here answers fuel =
  ([], bind here (fun _ => Ok Ran_here)).
Proof. intros H. unfold start. cbn [negb andb nodes_variable]. apply Z.ltb_lt in H. rewrite H. reflexivity. Qed.

(** C190: outside of the platform [num_nodes] and [machine] are refused and nothing is done. *)
Theorem C190_elsewhere sdk wanted num_nodes variable own cwd skip_install branch argv here answers fuel :
  wanted <> None \/ num_nodes <> None ->
  start false sdk wanted num_nodes variable own cwd skip_install branch argv here answers fuel = ([], Err ValueError).
Proof.
  intros H. unfold start. destruct wanted; [reflexivity|]. destruct num_nodes; [reflexivity|]. destruct H; congruence.
Qed.

(** C190: without [num_nodes] nothing is started. *)
Theorem C190_here studio sdk wanted variable own cwd skip_install branch argv here answers fuel :
  studio = true \/ wanted = None ->
  start studio sdk wanted None variable own cwd skip_install branch argv here answers fuel = ([], bind here (fun _ => Ok Ran_here)).
Proof. intros [->| ->]; unfold start; [reflexivity|]. rewrite andb_false_r. reflexivity. Qed.
End Start.
Print Assumptions C190_one_job_partial.
Print Assumptions C190_no_recursion.
Print Assumptions C190_elsewhere.
Print Assumptions C190_here.
Example start_example :
  fst (start true true (Some 7) (Some 4%Z) None 1 (codes "/a") [] [] [codes "p.py"] (Ok tt) (fun _ => Ok Completed) 9)
    = [Job (codes "cd /a && python p.py") 4 7] /\
  start true true (Some 7) (Some 4%Z) (Some (Some 4%Z)) 1 (codes "/a") [] [] [codes "p.py"] (Ok tt) (fun _ => Ok Completed) 9
    = ([], Ok Ran_here) /\
  start false true (Some 7) None None 1 (codes "/a") [] [] [codes "p.py"] (Ok tt) (fun _ => Ok Completed) 9 = ([], Err ValueError) /\
  start true true None None None 1 (codes "/a") [] [] [codes "p.py"] (Err KeyError) (fun _ => Ok Completed) 9 = ([], Err KeyError).
Proof. repeat (apply conj; [vm_compute; reflexivity|]). vm_compute; reflexivity. Qed.

(** [machine] without [num_nodes]: the work is done on this machine, whatever its kind; and no machines at all can be asked for. *)
Theorem C190_machine_refuted :
  exists wanted own : nat, wanted <> own /\
    (forall answers fuel, start true true (Some wanted) None None own (codes "/a") [] [] [codes "p.py"] (Ok tt) answers fuel = ([], Ok Ran_here)) /\
    start true true None (Some 0%Z) None own (codes "/a") [] [] [codes "p.py"] (Ok tt) (fun _ => Ok Completed) 9 =
      ([Job (codes "cd /a && python p.py") 0 own], Ok Job_ended).
Proof. exists 7, 1. repeat split; [discriminate]. Qed.
Print Assumptions C190_machine_refuted.

(** C190: the call waits as long as the job is neither stopped, completed nor failed, and then returns, or raises if it failed;
    a request that fails ends the waiting with its exception. *)
Theorem C190_waits answers t :
  (forall m, m < t -> answers m = Ok Other) -> answers t <> Ok Other ->
  forall fuel, t < fuel ->
  watch fuel 0 answers = match answers t with Err e => Err e | Ok Failed => Err RuntimeError | Ok _ => Ok tt end.
Proof.
  intros Hb Ht. assert (G : forall fuel n, n <= t -> t - n < fuel ->
    watch fuel n answers = match answers t with Err e => Err e | Ok Failed => Err RuntimeError | Ok _ => Ok tt end).
  { induction fuel as [|fuel IH]; intros n H1 H2; [lia|]. cbn [watch].
    destruct (Nat.eq_dec n t) as [->|E].
    - destruct (answers t) as [[| | |]|e]; try reflexivity. congruence.
    - rewrite (Hb n) by lia. apply IH; lia. }
  intros fuel H. apply G; lia.
Qed.
Print Assumptions C190_waits.
(** C190: so the call with [num_nodes] raises if the job failed, and returns otherwise once the platform reports an end. *)
Theorem C190_result {machine} wanted n (own : machine) cwd skip_install branch argv here answers t fuel :
  (forall m, m < t -> answers m = Ok Other) -> answers t <> Ok Other -> t < fuel ->
  snd (start true true wanted (Some n) None own cwd skip_install branch argv here answers fuel) =
  match answers t with Err e => Err e | Ok Failed => Err RuntimeError | Ok _ => Ok Job_ended end.
Proof.
  intros H1 H2 H3. unfold start. cbn [negb andb nodes_variable snd Z.ltb Z.compare]. rewrite (C190_waits answers t H1 H2 fuel H3).
  destruct (answers t) as [[| | |]|e]; reflexivity.
Qed.
Print Assumptions C190_result.
(** C190: for ever, if the job does not end. *)
Theorem C190_waits_for_ever answers : (forall m, answers m = Ok Other) -> forall fuel, watch fuel 0 answers = Err OutOfFuel.
Proof.
  intros H. assert (G : forall fuel n, watch fuel n answers = Err OutOfFuel); [|intros; apply G].
  induction fuel as [|fuel IH]; intros n; [reflexivity|]. cbn [watch]. rewrite H. apply IH.
Qed.
Print Assumptions C190_waits_for_ever.
(** C190: it never returns normally when the job failed and was seen failed first. *)
Theorem C190_returns answers fuel : watch fuel 0 answers = Ok tt ->
  exists t, (forall m, m < t -> answers m = Ok Other) /\ (answers t = Ok Stopped \/ answers t = Ok Completed).
Proof.
  assert (G : forall fuel n, watch fuel n answers = Ok tt ->
    exists t, n <= t /\ (forall m, n <= m < t -> answers m = Ok Other) /\ (answers t = Ok Stopped \/ answers t = Ok Completed)).
  { induction fuel0 as [|f IH]; intros n H; [discriminate|]. cbn [watch] in H.
    destruct (answers n) as [[| | |]|e] eqn:E; try discriminate.
    - exists n. split; [lia|]. split; [intros; lia|]. left. exact E.
    - exists n. split; [lia|]. split; [intros; lia|]. right. exact E.
    - destruct (IH (S n) H) as (t & H1 & H2 & H3). exists t. split; [lia|]. split; [|exact H3].
      intros m Hm. destruct (Nat.eq_dec m n) as [->|]; [exact E|]. apply H2. lia. }
  intros H. destruct (G fuel 0 H) as (t & _ & H2 & H3). exists t. split; [|exact H3]. intros m Hm. apply H2. lia.
Qed.
Print Assumptions C190_returns.
Example waits_example :
  watch 9 0 (fun n => if n <? 3 then Ok Other else Ok Failed) = Err RuntimeError /\
  watch 9 0 (fun n => if n <? 3 then Ok Other else Ok Completed) = Ok tt /\
  watch 9 0 (fun n => if n <? 3 then Ok Other else Err GenericException) = Err GenericException /\
  snd (start true true (Some 7) (Some 4%Z) None 1 (codes "/a") [] [] [codes "p.py"] (Ok tt) (fun n => if n <? 3 then Ok Other else Ok Failed) 9)
    = Err RuntimeError.
Proof. repeat (apply conj; [vm_compute; reflexivity|]). vm_compute; reflexivity. Qed.

(** A job that was stopped before its end: the call returns as if all was done. *)
Theorem C190_stopped_refuted :
  exists answers, (forall n, answers n <> Ok Completed) /\
    snd (start true true (Some 7) (Some 4%Z) None 1 (codes "/a") [] [] [codes "p.py"] (Ok tt) answers 9) = Ok Job_ended.
Proof. exists (fun n => if n =? 0 then Ok Other else Ok Stopped). split; [|reflexivity]. intros [|n]; discriminate. Qed.
Print Assumptions C190_stopped_refuted.
