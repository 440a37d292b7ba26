From Verif Require Import Base Share_Model.
Local Ltac Zify.zify_post_hook ::= idtac.

(** Inside the lock. *)
Definition holding (a : at_) : bool := match a with Checking | Copying | Renaming => true | _ => false end.
Definition nodec (a : at_) : Prop := match a with Opening | Removing | Creating | Filling | Failed _ => False | _ => True end.

Record Inv (g : cfg) (w : world) : Prop := {
  I_lock : forall i, holding (v_at w i) = true -> v_lock w = Some i;
  I_file : match v_file w with
           | Writing => g_atomic g = false /\ exists i, v_at w i = Copying /\ v_lock w = Some i
           | _ => forall i, v_at w i = Copying -> g_atomic g = true
           end;
  I_dec : forall i, nodec (v_at w i);
  I_ren : forall i, v_at w i = Renaming -> g_atomic g = true }.

Lemma start_inv g : Inv g (start g).
Proof.
  unfold start. constructor; cbn; try discriminate; auto. destruct (g_remote g); discriminate.
Qed.

Definition sane (g : cfg) : Prop := g_compressed g = false /\ (g_atomic g = true \/ g_recheck g = true).

Lemma step_inv g w i : sane g -> Inv g w -> Inv g (step g w i).
Proof.
  intros [Hc Hs] [H1 H2 H3 H4].
  assert (Only : holding (v_at w i) = true -> forall j, j <> i -> holding (v_at w j) = false).
  { intros L j Hj. apply H1 in L. destruct (holding (v_at w j)) eqn:Hh; [|reflexivity]. rewrite (H1 _ Hh) in L. congruence. }
  (* a step that touches neither file nor lock and does not enter the critical section *)
  assert (K : forall a, holding (v_at w i) = false -> holding a = false -> nodec a -> Inv g (goto w i a)).
  { intros a E Ha Hn. constructor; cbn [v_lock v_file v_at goto].
    - intros j. destruct (Nat.eqb_spec j i); [congruence|apply H1].
    - destruct (v_file w).
      + intros j. destruct (Nat.eqb_spec j i); [intros ->; discriminate|apply H2].
      + destruct H2 as (A & j & Hj & Hl). split; [exact A|]. exists j. destruct (Nat.eqb_spec j i) as [->|]; [|auto]. rewrite Hj in E. discriminate.
      + intros j. destruct (Nat.eqb_spec j i); [intros ->; discriminate|apply H2].
    - intros j. destruct (Nat.eqb_spec j i); [exact Hn|apply H3].
    - intros j. destruct (Nat.eqb_spec j i); [intros ->; discriminate|apply H4]. }
  (* leaving the critical section *)
  assert (Q : holding (v_at w i) = true -> forall f, f <> Writing -> (f = v_file w \/ f = Complete) -> Inv g (goto (with_lock (with_file w f) None) i Decompressing)).
  { intros E f Hf Hff. specialize (Only E). constructor; cbn [v_lock v_file v_at goto with_lock with_file].
    - intros j. destruct (Nat.eqb_spec j i); [discriminate|]. intros X. rewrite Only in X by assumption. discriminate.
    - assert (Z : forall j, (if j =? i then Decompressing else v_at w j) = Copying -> g_atomic g = true).
      { intros j. destruct (Nat.eqb_spec j i) as [->|N]; [discriminate|]. intros X. specialize (Only j N). rewrite X in Only. discriminate. }
      destruct f; [exact Z|congruence|exact Z].
    - intros j. destruct (Nat.eqb_spec j i); [exact I|apply H3].
    - intros j. destruct (Nat.eqb_spec j i); [discriminate|intros X; apply H4 in X; congruence]. }
  unfold step. destruct (v_at w i) eqn:E.
  - destruct (present (v_file w)); [|destruct (g_remote g)]; apply K; try reflexivity; exact I.
  - destruct (v_lock w) as [o|] eqn:L; [apply K; try reflexivity; exact I|].
    constructor; cbn [v_lock v_file v_at goto with_lock].
    + intros j. destruct (Nat.eqb_spec j i) as [->|]; [auto|]. intros X. apply H1 in X. discriminate.
    + destruct (v_file w); [intros j; destruct (Nat.eqb_spec j i); [discriminate|intros X; apply H2 in X; congruence]| |intros j; destruct (Nat.eqb_spec j i); [discriminate|intros X; apply H2 in X; congruence]].
      destruct H2 as (A & j & Hj & Hl). congruence.
    + intros j. destruct (Nat.eqb_spec j i); [exact I|apply H3].
    + intros j. destruct (Nat.eqb_spec j i); [discriminate|intros X; apply H4 in X; congruence].
  - assert (L : v_lock w = Some i) by (apply H1; rewrite E; reflexivity).
    assert (NW : v_file w <> Writing). { intros F. rewrite F in H2. destruct H2 as (_ & j & Hj & Hl). rewrite L in Hl. injection Hl as ->. congruence. }
    destruct (g_recheck g && present (v_file w)) eqn:P.
    + specialize (Q eq_refl (v_file w) NW (or_introl eq_refl)). exact Q.
    + destruct (g_atomic g) eqn:A.
      * constructor; cbn [v_lock v_file v_at goto].
        -- intros j. destruct (Nat.eqb_spec j i) as [->|]; [intros _; exact L|apply H1].
        -- destruct (v_file w); auto. congruence.
        -- intros j. destruct (Nat.eqb_spec j i); [exact I|apply H3].
        -- auto.
      * constructor; cbn [v_lock v_file v_at goto with_file].
        -- intros j. destruct (Nat.eqb_spec j i) as [->|]; [intros _; exact L|apply H1].
        -- split; [exact A|]. exists i. rewrite Nat.eqb_refl. auto.
        -- intros j. destruct (Nat.eqb_spec j i); [exact I|apply H3].
        -- intros j. destruct (Nat.eqb_spec j i); [discriminate|intros X; apply H4 in X; congruence].
  - assert (L : v_lock w = Some i) by (apply H1; rewrite E; reflexivity). destruct (g_atomic g) eqn:A.
    + constructor; cbn [v_lock v_file v_at goto].
      * intros j. destruct (Nat.eqb_spec j i) as [->|]; [intros _; exact L|apply H1].
      * destruct (v_file w); auto. destruct H2. congruence.
      * intros j. destruct (Nat.eqb_spec j i); [exact I|apply H3].
      * auto.
    + apply Q; [reflexivity|discriminate|auto].
  - apply Q; [reflexivity|discriminate|auto].
  - rewrite Hc. cbn [negb]. apply K; try reflexivity; exact I.
  - specialize (H3 i). rewrite E in H3. contradiction.
  - specialize (H3 i). rewrite E in H3. contradiction.
  - specialize (H3 i). rewrite E in H3. contradiction.
  - specialize (H3 i). rewrite E in H3. contradiction.
  - constructor; auto.
  - specialize (H3 i). rewrite E in H3. contradiction.
Qed.

Lemma steps_inv g : sane g -> forall sched w, Inv g w -> Inv g (steps g w sched).
Proof. intros Hc. induction sched as [|i sched IH]; intros w H; [exact H|]. apply IH, step_inv; assumption. Qed.

(** A complete chunk stays complete. *)
Lemma complete_stays g w i : sane g -> Inv g w -> v_file w = Complete -> v_file (step g w i) = Complete.
Proof.
  intros [Hc Hs] [H1 H2 H3 H4] F. rewrite F in H2. unfold step. specialize (H2 i). specialize (H3 i).
  destruct (v_at w i); cbn in *; try contradiction; rewrite ?F, ?Hc; cbn; auto.
  - destruct (v_lock w); cbn; auto.
  - rewrite andb_true_r. destruct (g_recheck g); cbn; [exact F|]. destruct (g_atomic g); cbn; [exact F|]. destruct Hs; discriminate.
  - destruct (g_atomic g); cbn; auto.
Qed.
Lemma complete_stays_steps g : sane g -> forall sched w, Inv g w -> v_file w = Complete -> v_file (steps g w sched) = Complete.
Proof.
  intros Hc. induction sched as [|i sched IH]; intros w H F; [exact F|]. apply IH; [apply step_inv; assumption|apply complete_stays; assumption].
Qed.

(** Something exists or somebody holds the lock once a process is past the download. *)
Definition Past (w : world) : Prop :=
  (exists i, v_at w i = Decompressing \/ v_at w i = Done) -> v_file w <> Absent \/ exists j, v_lock w = Some j.

Lemma past_inv g w i : sane g -> g_remote g = true -> Inv g w -> Past w -> Past (step g w i).
Proof.
  intros [Hc Hs] Hr [H1 H2 H3 H4] H. unfold Past in *.
  assert (K : forall (w' : world), v_file w' = v_file w -> v_lock w' = v_lock w -> (forall j, v_at w' j <> v_at w j -> v_at w' j = Decompressing \/ v_at w' j = Done -> v_at w j = Decompressing \/ v_at w j = Done \/ v_file w <> Absent \/ exists o, v_lock w = Some o) ->
     (exists j, v_at w' j = Decompressing \/ v_at w' j = Done) -> v_file w' <> Absent \/ exists o, v_lock w' = Some o).
  { intros w' Ef El Hj (j & Dj). rewrite Ef, El.
    assert (D : v_at w j = Decompressing \/ v_at w j = Done \/ v_file w <> Absent \/ exists o, v_lock w = Some o).
    { specialize (Hj j). destruct Dj as [Dj|Dj]; rewrite Dj in Hj; destruct (v_at w j); auto; apply Hj; auto; discriminate. }
    destruct D as [D|[D|D]]; [apply H; exists j; auto|apply H; exists j; auto|exact D]. }
  unfold step. destruct (v_at w i) eqn:E.
  - destruct (present (v_file w)) eqn:P.
    + apply K; try reflexivity. intros j _ _. right. right. left. destruct (v_file w); [discriminate| |]; discriminate.
    + rewrite Hr. apply K; try reflexivity. intros j. cbn. destruct (Nat.eqb_spec j i) as [->|]; [intros _ [X|X]; discriminate|congruence].
  - destruct (v_lock w) as [o|] eqn:L.
    + intros _. right. exists o. exact L.
    + intros _. right. exists i. reflexivity.
  - assert (L : v_lock w = Some i) by (apply H1; rewrite E; reflexivity).
    destruct (g_recheck g && present (v_file w)) eqn:P.
    + intros _. left. cbn. apply andb_true_iff in P. destruct P as [_ P]. destruct (v_file w); [discriminate| |]; discriminate.
    + intros _. right. exists i. destruct (g_atomic g); exact L.
  - assert (L : v_lock w = Some i) by (apply H1; rewrite E; reflexivity). intros _. destruct (g_atomic g); [right; exists i; exact L|left; discriminate].
  - intros _. left. discriminate.
  - rewrite Hc. cbn [negb]. apply K; try reflexivity. intros j. cbn. destruct (Nat.eqb_spec j i) as [->|]; [auto|congruence].
  - specialize (H3 i). rewrite E in H3. contradiction.
  - specialize (H3 i). rewrite E in H3. contradiction.
  - specialize (H3 i). rewrite E in H3. contradiction.
  - specialize (H3 i). rewrite E in H3. contradiction.
  - exact H.
  - exact H.
Qed.
Lemma past_steps g : sane g -> g_remote g = true -> forall sched w, Inv g w -> Past w -> Past (steps g w sched).
Proof.
  intros Hc Hr. induction sched as [|i sched IH]; intros w Hi H; [exact H|]. apply IH; [apply step_inv; assumption|apply past_inv; assumption].
Qed.

Lemma steps_app g w a b : steps g w (a ++ b) = steps g (steps g w a) b.
Proof. apply fold_left_app. Qed.

(** * Nobody waits: ten steps of its own bring a process to the end *)

Definition cost (a : at_) : nat :=
  match a with Start => 10 | Locking => 9 | Checking => 8 | Copying => 7 | Renaming => 6 | Decompressing => 5 | Opening => 4 | Removing => 3
             | Creating => 2 | Filling => 1 | Done => 0 | Failed _ => 0 end.
Lemma step_cost g w i : (v_at (step g w i) i = v_at w i /\ cost (v_at w i) = 0) \/ cost (v_at (step g w i) i) < cost (v_at w i).
Proof.
  unfold step. destruct (v_at w i) eqn:E; rewrite ?E; auto; right;
  repeat match goal with |- context [if ?b then _ else _] => lazymatch b with Nat.eqb _ _ => fail | _ => destruct b end | |- context [match v_lock w with _ => _ end] => destruct (v_lock w) end;
  cbn; rewrite Nat.eqb_refl; cbn; lia.
Qed.
Lemma step_other g w i j : j <> i -> v_at (step g w i) j = v_at w j.
Proof.
  intros H. unfold step. destruct (v_at w i); auto;
  repeat match goal with |- context [if ?b then _ else _] => lazymatch b with Nat.eqb _ _ => fail | _ => destruct b end | |- context [match v_lock w with _ => _ end] => destruct (v_lock w) end;
  cbn; try (rewrite (proj2 (Nat.eqb_neq j i) H)); reflexivity.
Qed.
Lemma finishes g i : forall sched w, cost (v_at (steps g w sched) i) = 0 \/ cost (v_at (steps g w sched) i) + count_occ Nat.eq_dec sched i <= cost (v_at w i).
Proof.
  induction sched as [|j sched IH]; intros w; [right; cbn; lia|]. cbn [steps fold_left count_occ]. fold (steps g (step g w j) sched).
  destruct (Nat.eq_dec j i) as [->|N].
  - destruct (IH (step g w i)) as [H|H]; [left; exact H|]. destruct (step_cost g w i) as [[E Z]|L]; [left; rewrite E in H; lia|right; lia].
  - destruct (IH (step g w j)) as [H|H]; [left; exact H|]. right. rewrite step_other in H by congruence. exact H.
Qed.

(** Who holds the lock is inside it. *)
Lemma lock_held g w i : sane g -> Inv g w -> (forall o, v_lock w = Some o -> holding (v_at w o) = true) ->
  forall o, v_lock (step g w i) = Some o -> holding (v_at (step g w i) o) = true.
Proof.
  intros [Hc Hs] HI H o. unfold step. rewrite Hc. cbn [negb]. destruct (v_at w i) eqn:E.
  2: { case_eq (v_lock w).
       - intros n L. cbn. intros Ho. destruct (Nat.eqb_spec o i) as [->|]; [apply H in Ho; rewrite E in Ho; discriminate|apply H; exact Ho].
       - intros L. cbn. intros Ho. injection Ho as <-. rewrite Nat.eqb_refl. reflexivity. }
  all: repeat match goal with |- context [if ?b then _ else _] => lazymatch b with Nat.eqb _ _ => fail | _ => destruct b end end;
  cbn; intros Ho; try discriminate; destruct (Nat.eqb_spec o i) as [->|]; try (apply H; exact Ho); try reflexivity;
  apply H in Ho; rewrite E in Ho; discriminate.
Qed.
Lemma lock_held_steps g : sane g -> forall sched w, Inv g w -> (forall o, v_lock w = Some o -> holding (v_at w o) = true) ->
  forall o, v_lock (steps g w sched) = Some o -> holding (v_at (steps g w sched) o) = true.
Proof.
  intros Hs. induction sched as [|j sc IH]; intros w HI Hw; [exact Hw|]. apply IH; [apply step_inv; assumption|apply lock_held; assumption].
Qed.
