(** The remover of a worker that failed or was interrupted; failing workers without uploaders and remover. *)
From Verif Require Import Base Stops_Model Stops_Spec Stops_Proofs.
Local Ltac Zify.zify_post_hook ::= idtac.

Section W.
Context (work : nat -> res (list nat)) (last : res (list nat)).

(** In the loop, and after leaving it early, nobody told the remover to end. *)
Definition Inv2 (s : wst) : Prop := s_phase s = Loop \/ stuck_phase (s_phase s) -> Forall open (s_rem s).

Lemma step_rem s a s' : Inv2 s -> step work last a s = Some s' -> Inv2 s' /\
  (s_rem s <> [] -> stuck_phase (s_phase s) -> stuck_phase (s_phase s')).
Proof.
  intros HI E. unfold Inv2, stuck_phase in *. destruct a as [|i|i|i| |]; cbn [step] in E.
  - unfold main_step in E. destruct (s_phase s) as [| | |early| | |] eqn:Ep; try discriminate.
    + specialize (HI (or_introl eq_refl)). destruct (s_ready s) as [|[x|] r]; try discriminate.
      * destruct (work x) as [files|]; injection E as <-; cbn [s_phase s_rem].
        -- split; [intros _; apply map_open; exact HI|]. intros _ [H|[H|H]]; discriminate.
        -- split; [intros _; exact HI|]. intros _ [H|[H|H]]; discriminate.
      * destruct (S (s_nones s) =? length (s_down s)); [destruct last as [files|]|]; injection E as <-; cbn [s_phase s_rem];
          (split; [intros _; exact HI|]); intros _ [H|[H|H]]; discriminate.
    + destruct (forallb ended (s_up s)); [|discriminate]. injection E as <-. cbn [s_phase s_rem].
      split; [intros [H|[H|[H|H]]]; discriminate|]. intros _ [H|[H|H]]; discriminate.
    + destruct (forallb ended (s_rem s)); [|discriminate]. injection E as <-. cbn [s_phase s_rem].
      split; [intros [H|[H|[H|H]]]; discriminate|]. intros _ [H|[H|H]]; discriminate.
    + destruct (_ && forallb ended (s_rem s)) eqn:Eu; [|discriminate]. apply andb_true_iff in Eu. destruct Eu as [_ Eu].
      injection E as <-. cbn [s_phase s_rem]. split; [intros [H|[H|[H|H]]]; discriminate|].
      intros Hne [H|[H|H]]; try discriminate. injection H as ->. exfalso. apply all_ended in Eu.
      specialize (HI (or_intror (or_introl eq_refl))). destruct (s_rem s) as [|h l]; [congruence|].
      inversion Eu; subst. inversion HI as [|? ? (q & Hq & _) _]; subst. unfold over in *. congruence.
  - destruct (nth_error (s_down s) i) as [[[|x l]|]|]; try discriminate; injection E as <-; cbn [s_phase s_rem]; auto.
  - destruct (nth_error (s_up s) i) as [[[|[] q]|]|] eqn:En; try discriminate; injection E as <-; cbn [s_phase s_rem]; [|auto].
    split; [|auto]. intros H. apply map_open. exact (HI H).
  - destruct (nth_error (s_rem s) i) as [[[|[] q]|]|] eqn:En; try discriminate; injection E as <-; cbn [s_phase s_rem].
    + split; [|auto]. intros H. apply (open_next _ _ _ _ (HI H) En).
    + split; [|auto]. intros H. destruct (open_next _ _ _ _ (HI H) En). discriminate.
  - injection E as <-. cbn [s_phase s_rem]. auto.
  - destruct (s_phase s) eqn:Ep; try discriminate; injection E as <-; cbn [s_phase s_rem];
      (split; [intros _; apply HI; auto|auto]).
Qed.

Lemma step_sizes s a s' : step work last a s = Some s' -> length (s_up s') = length (s_up s) /\ length (s_rem s') = length (s_rem s).
Proof.
  intros E. destruct a as [|i|i|i| |]; cbn [step] in E.
  - unfold main_step in E. destruct (s_phase s); try discriminate.
    + destruct (s_ready s) as [|[x|] r]; try discriminate.
      * destruct (work x); injection E as <-; cbn [s_up s_rem]; rewrite ?hand_over_length, ?map_length; auto.
      * destruct (_ =? _); [destruct last|]; injection E as <-; cbn [s_up s_rem]; rewrite ?map_length, ?hand_over_length; auto.
    + destruct (forallb ended (s_up s)); [|discriminate]. injection E as <-. cbn [s_up s_rem]. rewrite map_length. auto.
    + destruct (forallb ended (s_rem s)); [|discriminate]. injection E as <-. auto.
    + destruct (_ && _); [|discriminate]. injection E as <-. auto.
  - destruct (nth_error (s_down s) i) as [[[|x l]|]|]; try discriminate; injection E as <-; auto.
  - destruct (nth_error (s_up s) i) as [[[|[] q]|]|]; try discriminate; injection E as <-; cbn [s_up s_rem]; rewrite ?upd_length, ?map_length; auto.
  - destruct (nth_error (s_rem s) i) as [[[|[] q]|]|]; try discriminate; injection E as <-; cbn [s_up s_rem]; rewrite ?upd_length; auto.
  - injection E as <-. auto.
  - destruct (s_phase s); try discriminate; injection E as <-; auto.
Qed.
Lemma run_lengths : forall l s, length (s_up (run work last l s)) = length (s_up s) /\ length (s_rem (run work last l s)) = length (s_rem s).
Proof.
  unfold run. induction l as [|a l IH]; intros s; cbn [fold_left]; [auto|].
  destruct (step work last a s) as [s1|] eqn:E; [|apply IH].
  destruct (step_sizes s a s1 E) as [L1 L2]. destruct (IH s1) as [L3 L4]. split; congruence.
Qed.
Lemma run_rem : forall l s, Inv2 s -> Inv2 (run work last l s) /\
  (s_rem s <> [] -> stuck_phase (s_phase s) -> stuck_phase (s_phase (run work last l s))).
Proof.
  unfold run. induction l as [|a l IH]; intros s HI; cbn [fold_left]; [auto|].
  destruct (step work last a s) as [s1|] eqn:E; [|apply IH; exact HI].
  destruct (step_rem s a s1 HI E) as (I1 & S1). destruct (IH s1 I1) as (I2 & S2).
  split; [exact I2|]. intros Hne Hs. apply S2; [|apply S1; assumption].
  intros C. destruct (step_sizes s a s1 E) as [_ L]. rewrite C in L. destruct (s_rem s); [congruence|discriminate].
Qed.
Lemma started_rem inputs u r : Inv2 (started inputs u r).
Proof. intros _. cbn [started s_rem]. destruct r; repeat constructor. exists []. split; [reflexivity|constructor]. Qed.

(** A worker that failed, without uploaders and remover. *)
Lemma failed_goes_on s : s_up s = [] -> s_rem s = [] -> s_phase s = Failed \/ s_phase s = Killed ->
  nothing_left s \/ exists a s', a <> Interrupt /\ (a = Kill -> s_phase s = Failed) /\ step work last a s = Some s'.
Proof.
  intros U R [P|P].
  - right. exists Kill. eexists. split; [discriminate|]. split; [intros _; exact P|]. cbn [step]. rewrite P. reflexivity.
  - destruct (Nat.eq_dec (nolive (s_down s)) 0) as [D|D].
    + left. split; [right; exact P|]. rewrite U, R. split; [|split; constructor].
      apply none_live in D. rewrite forallb_forall in D. apply Forall_forall. intros d Hd. specialize (D d Hd). destruct d; [discriminate|reflexivity].
    + right. destruct (live_exists _ D) as (i & x & E). exists (Downloader i). cbn [step]. rewrite E.
      destruct x; eexists; (split; [discriminate|split; [discriminate|reflexivity]]).
Qed.

(** The same worker with exceptions left out. *)
Definition work' (i : nat) : res (list nat) := match work i with Ok f => Ok f | Err _ => Ok [] end.
Definition last' : res (list nat) := match last with Ok f => Ok f | Err _ => Ok [] end.
Lemma work_fine : forall i, exists files, work' i = Ok files.
Proof. intros i. unfold work'. destruct (work i); eauto. Qed.
Lemma last_fine : exists files, last' = Ok files.
Proof. unfold last'. destruct last; eauto. Qed.
Lemma step_fine a s s' : step work last a s = Some s' -> step work' last' a s = Some s' \/ s_phase s' = Failed \/ s_phase s' = Killed.
Proof.
  intros E. destruct a as [|i|i|i| |]; cbn [step] in *; try (left; exact E). unfold main_step, work', last' in *.
  destruct (s_phase s); try (left; exact E). destruct (s_ready s) as [|[x|] r]; try (left; exact E).
  - destruct (work x); [left; exact E|]. injection E as <-. right. left. reflexivity.
  - destruct (S (s_nones s) =? length (s_down s)); [|left; exact E]. destruct last; [left; exact E|]. injection E as <-. right. left. reflexivity.
Qed.
Lemma fine_step a s s' : step work' last' a s = Some s' -> exists s'', step work last a s = Some s''.
Proof.
  intros E. destruct a as [|i|i|i| |]; cbn [step] in *; try (eexists; exact E). unfold main_step, work', last' in *.
  destruct (s_phase s); try (eexists; exact E). destruct (s_ready s) as [|[x|] r]; try (eexists; exact E).
  - destruct (work x); eexists; reflexivity.
  - destruct (S (s_nones s) =? length (s_down s)); [|eexists; reflexivity]. destruct last; eexists; reflexivity.
Qed.
Lemma failed_stays a s s' : s_phase s = Failed \/ s_phase s = Killed -> step work last a s = Some s' -> s_phase s' = Failed \/ s_phase s' = Killed.
Proof.
  intros P E. destruct a as [|i|i|i| |]; cbn [step] in E.
  - unfold main_step in E. destruct P as [P|P]; rewrite P in E; discriminate.
  - destruct (nth_error (s_down s) i) as [[[|x l]|]|]; try discriminate; injection E as <-; exact P.
  - destruct (nth_error (s_up s) i) as [[[|[] q]|]|]; try discriminate; injection E as <-; exact P.
  - destruct (nth_error (s_rem s) i) as [[[|[] q]|]|]; try discriminate; injection E as <-; exact P.
  - injection E as <-. exact P.
  - destruct (s_phase s); try discriminate; injection E as <-; right; reflexivity.
Qed.
Lemma run_alone : forall l s, s_up s = [] -> s_rem s = [] -> Inv1 s \/ s_phase s = Failed \/ s_phase s = Killed ->
  let s' := run work last l s in s_up s' = [] /\ s_rem s' = [] /\ (Inv1 s' \/ s_phase s' = Failed \/ s_phase s' = Killed).
Proof.
  unfold run. induction l as [|a l IH]; intros s U R H; cbn [fold_left]; [auto|].
  destruct (step work last a s) as [s1|] eqn:E; [|apply IH; assumption].
  destruct (step_sizes s a s1 E) as [L1 L2]. rewrite U in L1. rewrite R in L2.
  apply IH; [apply length_zero_iff_nil; exact L1|apply length_zero_iff_nil; exact L2|].
  destruct H as [H|H]; [|right; eapply failed_stays; eassumption].
  assert (K : a = Kill \/ a <> Kill) by (destruct a; (left; reflexivity) || (right; discriminate)). destruct K as [->|K].
  { right. right. clear - E. cbn [step] in E. destruct (s_phase s); try discriminate; injection E as <-; reflexivity. }
  destruct (step_fine a s s1 E) as [F|F]; [|right; exact F]. left.
  eapply (step_inv1 work' last' work_fine last_fine); [exact K|right; split; [exact U|exact R]|exact H|exact F].
Qed.
Lemma alone_goes_on s : s_up s = [] -> s_rem s = [] -> Inv1 s \/ s_phase s = Failed \/ s_phase s = Killed ->
  nothing_left s \/ exists a s', a <> Interrupt /\ (a = Kill -> s_phase s = Failed) /\ step work last a s = Some s'.
Proof.
  intros U R [I1|P]; [|apply failed_goes_on; assumption].
  destruct (s_phase s) eqn:Ep; try (right; destruct (no_deadlock work' last' work_fine last_fine s I1) as (a & s2 & H1 & HK & H2); [congruence|];
    destruct (fine_step a s s2 H2) as (s3 & H3); exists a, s3; split; [assumption|split; [intros C; destruct (HK C)|assumption]]).
  left. destruct I1 as (_ & _ & HP). rewrite Ep in HP. destruct HP as (D & _).
  split; [left; exact Ep|]. rewrite U, R. split; [|split; constructor].
  apply none_live in D. rewrite forallb_forall in D. apply Forall_forall. intros d Hd. specialize (D d Hd). destruct d; [discriminate|reflexivity].
Qed.
End W.
