(** Properties C119 and C120: [walk]. *)
From Coq Require Import String NArith Permutation.
From Verif Require Import Base Names_Model Size_Model Paths_Model Walk_Model Walk_Spec Walk_Proofs.
Local Open Scope list_scope.
Local Open Scope nat_scope.

(** C119: whatever the number of threads and the order in which they finish, [walk(root)] yields every folder below [root] exactly
    once, with the folders and files in it, every folder after the one that contains it, and then ends.  Partial: the tree is finite
    and everything in it is a file or a folder that can be listed.  [n] results have been taken from the loop: *)
Theorem C119_partial fs max_workers root out n o :
  below fs root out -> run fs max_workers (started (created root)) n o ->
  exists s, o = Running s /\ length (w_seen s) = n /\ parents_first root (w_seen s) /\
    (exists rest, Permutation (w_seen s ++ rest) out) /\
    (w_futures (resume max_workers s) = [] -> Permutation (w_seen s) out) /\
    (w_futures (resume max_workers s) <> [] -> exists s', next fs (resume max_workers s) (Running s')).
Proof.
  intros H R. destruct (run_ok fs max_workers root out _ _ _ R (inv_started _ _ _ _ (inv_created _ _ _ H))) as (s & -> & I).
  exists s. split; [reflexivity|]. split; [rewrite (run_seen _ _ _ _ _ R s eq_refl); apply Nat.add_0_r|].
  split; [apply I|]. split; [destruct (inv_rest _ _ _ _ I) as (rest & P & _); exists rest; exact P|].
  pose proof (inv_resume _ max_workers _ _ _ I) as I'. split.
  - intros E. destruct (inv_rest _ _ _ _ I') as (rest & P & F). rewrite (proj2 F) in P by (split; [apply resume_end, E|exact E]).
    rewrite app_nil_r, resume_seen in P. exact P.
  - apply (run_progress _ root out). exact I'.
Qed.
Print Assumptions C119_partial.

(** It holds also when the loop is left early, and taken up again by further loops over the same object: no folder is lost and none
    is repeated. *)
Theorem C119_loops_partial fs max_workers root out ns o :
  below fs root out -> loops fs max_workers (created root) ns o ->
  exists s, o = Running s /\ parents_first root (w_seen s) /\
    (exists rest, Permutation (w_seen s ++ rest) out /\ (rest = [] <-> finished s)) /\
    (~ finished s -> exists s', next fs (started s) (Running s')).
Proof.
  intros H R. destruct (loops_ok fs max_workers root out _ _ _ R (inv_created _ _ _ H)) as (s & -> & I).
  exists s. split; [reflexivity|]. split; [apply I|]. split; [apply (inv_rest _ _ _ _ I)|]. intros Hn. exact (inv_progress _ _ _ _ I Hn).
Qed.
Print Assumptions C119_loops_partial.

(** A folder with a file "f" and a folder "d", in which there is a file "g". *)
Definition is (p : str) (s : string) : bool := if list_eq_dec N.eq_dec p (codes s) then true else false.
Definition demo_fs : files :=
  Files (fun p => if is p "r" then Ok [codes "f"; codes "d"] else if is p "r/d" then Ok [codes "g"] else Err FileNotFoundError)
        (fun p => is p "r/f" || is p "r/d/g").
Definition demo_out : list visit := [(codes "r", [codes "d"], [codes "f"]); (codes "r/d", [], [codes "g"])].

Example C119_example : below demo_fs (codes "r") demo_out /\
  exists s, run demo_fs 4 (started (created (codes "r"))) 2 (Running s) /\ w_seen s = demo_out /\ w_futures (resume 4 s) = [].
Proof.
  split.
  - apply (Below demo_fs (codes "r") [codes "f"; codes "d"] [codes "d"] [codes "f"] [[(codes "r/d", [], [codes "g"])]]).
    + reflexivity.
    + intros n [<-|[<-|[]]]; vm_compute; intuition discriminate.
    + exists (fun n => is n "d"), (fun n => is n "f"). split; reflexivity.
    + constructor; [|constructor]. apply (Below demo_fs (codes "r/d") [codes "g"] [] [codes "g"] []).
      * reflexivity.
      * intros n [<-|[]]; vm_compute; intuition discriminate.
      * exists (fun _ => false), (fun _ => true). split; reflexivity.
      * constructor.
  - eexists. split; [|split].
    + eapply Run_some; [|eapply Run_last].
      * apply Next_batch; [reflexivity|discriminate|]. eapply Next_some; [left; reflexivity|]. vm_compute. reflexivity.
      * apply Next_batch; [reflexivity|discriminate|]. eapply Next_some; [left; reflexivity|]. vm_compute. reflexivity.
    + reflexivity.
    + reflexivity.
Qed.

(** With a link that leads nowhere (neither a file nor a folder) the walk raises instead of going on with the rest. *)
Definition dangling_fs : files :=
  Files (fun p => if is p "r" then Ok [codes "f"; codes "l"] else Err FileNotFoundError) (fun p => is p "r/f").
Theorem C119_refuted : exists fs root names, listdir fs root = Ok names /\
  (exists n, In n names /\ isfile fs (join root n) = true) /\
  forall max_workers, (exists s, run fs max_workers (started (created root)) 1 (Running s)) /\
    run fs max_workers (started (created root)) 2 (Raised FileNotFoundError) /\
    forall n o, run fs max_workers (started (created root)) (S (S n)) o -> o = Raised FileNotFoundError.
Proof.
  exists dangling_fs, (codes "r"), [codes "f"; codes "l"]. split; [reflexivity|]. split; [exists (codes "f"); split; [left; reflexivity|reflexivity]|]. intros mw.
  set (s1 := WState [codes "r/l"] [] [] [(codes "r", [codes "l"], [codes "f"])]).
  assert (N1 : next dangling_fs (started (created (codes "r"))) (Running s1)).
  { apply Next_batch; [reflexivity|discriminate|]. apply Next_some with (f := codes "r"); [left; reflexivity|vm_compute; reflexivity]. }
  assert (U1 : forall o, next dangling_fs (started (created (codes "r"))) o -> o = Running s1).
  { intros o H. inversion H as [s o' A B C|s f s' A B|s f e A B]; subst; try (destruct A; fail).
    inversion C as [s o' D E F|s f s' D E|s f e D E]; subst; [discriminate D| |]; (destruct D as [<-|[]]); vm_compute in E; [injection E as <-; reflexivity|discriminate]. }
  set (s2 := WState [] [codes "r/l"] [] [(codes "r", [codes "l"], [codes "f"])]).
  assert (R1 : resume mw s1 = s2) by reflexivity.
  assert (N2 : next dangling_fs s2 (Raised FileNotFoundError)).
  { apply Next_batch; [reflexivity|discriminate|]. apply Next_raise with (f := codes "r/l"); [left; reflexivity|vm_compute; reflexivity]. }
  assert (U2 : forall o, next dangling_fs s2 o -> o = Raised FileNotFoundError).
  { intros o H. inversion H as [s o' A B C|s f s' A B|s f e A B]; subst; try (destruct A; fail).
    inversion C as [s o' D E F|s f s' D E|s f e D E]; subst; [discriminate D| |]; (destruct D as [<-|[]]); vm_compute in E; [discriminate|injection E as <-; reflexivity]. }
  split; [exists s1; apply Run_last, N1|]. split; [eapply Run_some; [exact N1|]; rewrite R1; apply Run_raise, N2|].
  intros n o H. inversion H as [|s s' n' o' A B| |]; subst. apply U1 in A. injection A as ->. rewrite R1 in B.
  inversion B as [|s s' n' o' A B'|s s' A|s e A]; subst; apply U2 in A; congruence.
Qed.
Print Assumptions C119_refuted.

(** C120: a second loop over a walk that has ended yields nothing, although the folder is not empty. *)
Theorem C120_refuted : exists fs root out s n, below fs root out /\ out <> [] /\
  run fs 4 (started (created root)) n (Running s) /\ w_futures (resume 4 s) = [] /\
  forall o, ~ next fs (started (resume 4 s)) o.
Proof.
  destruct C119_example as (H & s & R & E & F). exists demo_fs, (codes "r"), demo_out, s, 2.
  split; [exact H|]. split; [discriminate|]. split; [exact R|]. split; [exact F|]. intros o Hn.
  assert (E' : w_futures (started (resume 4 s)) = []). { unfold started. cbn [w_futures]. rewrite F, (resume_end 4 s F). reflexivity. }
  inversion Hn as [s0 o' A B C|s0 f s' A B|s0 f e A B]; subst; [congruence|destruct A|destruct A].
Qed.
Print Assumptions C120_refuted.
