From Verif Require Import Base Prefetch_Model Prefetch_Spec.
Local Ltac Zify.zify_post_hook ::= idtac.

Lemma delete_loop_app cfg ctr locks : forall tbd present tried tbd' present' tried',
  delete_loop cfg ctr locks tbd present tried = (tbd', present', tried') -> tried' ++ tbd' = tried ++ tbd.
Proof.
  induction tbd as [|c tbd IH]; intros present tried tbd' present' tried' E; cbn [delete_loop] in E.
  - injection E as <- <- <-. reflexivity.
  - destruct (can_delete_chunk cfg ctr present).
    + apply IH in E. rewrite E, <- app_assoc. reflexivity.
    + injection E as <- <- <-. reflexivity.
Qed.

Lemma In_add_file c x l : In x (add_file c l) <-> x = c \/ In x l.
Proof.
  unfold add_file. destruct (memb c l) eqn:E.
  - split; [auto|]. intros [->|H]; [|exact H]. unfold memb in E. apply existsb_exists in E. destruct E as (y & Hy & E). apply Nat.eqb_eq in E. subst. exact Hy.
  - rewrite in_app_iff. cbn. intuition congruence.
Qed.
Lemma In_del_file c x l : In x (del_file c l) <-> x <> c /\ In x l.
Proof. unfold del_file. rewrite filter_In. destruct (Nat.eqb_spec x c); cbn; intuition congruence. Qed.

Lemma delete_loop_present cfg ctr locks : forall tbd present tried tbd' present' tried' x,
  delete_loop cfg ctr locks tbd present tried = (tbd', present', tried') -> In x present -> ~ In x tbd -> In x present'.
Proof.
  induction tbd as [|c tbd IH]; intros present tried tbd' present' tried' x E Hx Hn; cbn [delete_loop] in E.
  - injection E as <- <- <-. exact Hx.
  - destruct (can_delete_chunk cfg ctr present).
    + eapply IH; [exact E| |intros G; apply Hn; right; exact G]. destruct (locks c =? 0); [|exact Hx].
      apply In_del_file. split; [|exact Hx]. intros ->. apply Hn. left. reflexivity.
    + injection E as <- <- <-. exact Hx.
Qed.

(** ** Bookkeeping, true in every run *)
Record Book (cfg : pcfg) (s : pstate) : Prop := {
  b_req : exists mid, (mid = [] \/ (exists r, mid = None :: r) /\ (p_loc s = Last \/ p_loc s = Exited)) /\ p_req s = map Some (p_done s) ++ mid ++ p_dl s;
  b_back : (p_tried s ++ p_tbd s) ++ p_del s = p_back s;
  b_ctr : (p_ctr s = Z.of_nat (length (p_done s)) + Z.of_nat (length (p_forced s)) - Z.of_nat (length (p_tried s ++ p_tbd s)))%Z \/ c_max cfg = 0 /\ (p_ctr s = Z.of_nat (length (p_done s)) + Z.of_nat (length (p_forced s)))%Z /\ p_tried s = [] /\ p_tbd s = [];
  b_pre : length (p_done s) <= length (p_tried s ++ p_tbd s) + c_pre cfg;
  b_held : forall c, In c (p_done s) \/ In c (p_forced s) -> ~ In c (p_back s) -> In c (p_present s)
}.

Lemma book_maybe_delete cfg s l : c_max cfg <> 0 -> Book cfg s -> (p_loc s = AfterDownload /\ l = Top \/ p_loc s = Last /\ l = Exited) -> Book cfg (maybe_delete cfg s l).
Proof.
  intros HM [R B C P H] Hl. unfold maybe_delete. destruct (p_del s) as [|c rest] eqn:E.
  - split; cbn [p_req p_done p_dl p_loc p_tried p_tbd p_del p_back p_ctr p_forced p_present]; try assumption.
    destruct R as (mid & [->|[Hm Hq]] & R); [exists []; auto|]. exists mid. split; [|exact R]. right. split; [exact Hm|]. destruct Hl as [[Hl ->]|[Hl ->]]; [destruct Hq; congruence|auto].
  - destruct (delete_loop cfg (p_ctr s) (p_locks s) (p_tbd s ++ [c]) (p_present s) (p_tried s)) as [[tbd present] tried] eqn:ED.
    pose proof (delete_loop_app _ _ _ _ _ _ _ _ _ ED) as Happ.
    split; cbn [p_req p_done p_dl p_loc p_tried p_tbd p_del p_back p_ctr p_forced p_present].
    + destruct R as (mid & [->|[Hm Hq]] & R); [exists []; auto|]. exists mid. split; [|exact R]. right. split; [exact Hm|]. destruct Hl as [[Hl ->]|[Hl ->]]; [destruct Hq; congruence|auto].
    + rewrite Happ, <- B, <- !app_assoc. reflexivity.
    + left. destruct C as [C|[C _]]; [|congruence]. rewrite Happ, C, app_assoc, (app_length (p_tried s ++ p_tbd s)). cbn [length]. lia.
    + rewrite Happ, app_assoc, app_length. lia.
    + intros x Hx Hn. eapply delete_loop_present; [exact ED|apply H; assumption|]. intros G. apply Hn. rewrite <- B.
      rewrite !in_app_iff in *. cbn in *. tauto.
Qed.

Lemma book_tstep cfg s : Book cfg s -> Book cfg (tstep cfg s).
Proof.
  intros HB. unfold tstep. destruct (p_loc s) eqn:El.
  - destruct HB as [R B C P H]. destruct (p_force s) as [|c rest]; (split; cbn [goto p_req p_done p_dl p_loc p_tried p_tbd p_del p_back p_ctr p_forced p_present]; try assumption).
    + destruct R as (mid & [->|[_ Hq]] & R); [exists []; auto|destruct Hq; congruence].
    + destruct R as (mid & [->|[_ Hq]] & R); [exists []; auto|destruct Hq; congruence].
    + rewrite app_length. cbn [length]. destruct C as [C|(C1 & C2 & C3 & C4)]; [left|right; repeat split; try assumption]; lia.
    + intros x Hx Hn. apply In_add_file. rewrite in_app_iff in Hx. cbn in Hx.
      assert (G : In x (p_done s) \/ In x (p_forced s) \/ x = c) by intuition. destruct G as [G|[G|G]]; auto.
  - destruct HB as [R B C P H]. destruct (Z.ltb_spec (p_ctr s) (Z.of_nat (c_pre cfg))) as [Hlt|Hge].
    + destruct (p_dl s) as [|[c|] rest] eqn:Ed; (split; cbn [goto p_req p_done p_dl p_loc p_tried p_tbd p_del p_back p_ctr p_forced p_present]; try assumption).
      * destruct R as (mid & [->|[_ Hq]] & R); [exists []; rewrite Ed; auto|destruct Hq; congruence].
      * destruct R as (mid & [->|[_ Hq]] & R); [|destruct Hq; congruence]. exists []. split; [auto|].
        cbn [app] in *. rewrite R, map_app, <- app_assoc. reflexivity.
      * rewrite app_length. cbn [length]. destruct C as [C|(C1 & C2 & C3 & C4)]; [left|right; repeat split; try assumption]; lia.
      * rewrite (app_length (p_done s)). cbn [length]. destruct C as [C|(C1 & C2 & C3 & C4)]; [|rewrite C3, C4; cbn [app length]]; lia.
      * intros x Hx Hn. apply In_add_file. rewrite in_app_iff in Hx. cbn in Hx.
        assert (G : In x (p_done s) \/ In x (p_forced s) \/ x = c) by intuition. destruct G as [G|[G|G]]; auto.
      * destruct R as (mid & [->|[_ Hq]] & R); [|destruct Hq; congruence]. exists [None]. split; [|exact R]. right. split; [exists []; reflexivity|auto].
    + split; cbn [goto p_req p_done p_dl p_loc p_tried p_tbd p_del p_back p_ctr p_forced p_present]; try assumption.
      destruct R as (mid & [->|[_ Hq]] & R); [exists []; auto|destruct Hq; congruence].
  - destruct (Nat.eqb_spec (c_max cfg) 0) as [Z0|Z0].
    + destruct HB as [R B C P H]. split; cbn [goto p_req p_done p_dl p_loc p_tried p_tbd p_del p_back p_ctr p_forced p_present]; try assumption.
      destruct R as (mid & [->|[_ Hq]] & R); [exists []; auto|destruct Hq; congruence].
    + apply book_maybe_delete; auto.
  - destruct (Nat.eqb_spec (c_max cfg) 0) as [Z0|Z0].
    + destruct HB as [R B C P H]. split; cbn [goto p_req p_done p_dl p_loc p_tried p_tbd p_del p_back p_ctr p_forced p_present]; try assumption.
      destruct R as (mid & [->|[Hm Hq]] & R); [exists []; auto|exists mid; auto].
    + apply book_maybe_delete; auto.
  - exact HB.
Qed.

Lemma book_rstep cfg s dl del force locks : Book cfg s -> Book cfg (rstep s dl del force locks).
Proof.
  intros [R B C P H]. split; cbn [rstep p_req p_done p_dl p_loc p_tried p_tbd p_del p_back p_ctr p_forced p_present]; try assumption.
  - destruct R as (mid & Hm & R). exists mid. split; [exact Hm|]. rewrite R, <- !app_assoc. reflexivity.
  - rewrite app_assoc, B. reflexivity.
  - intros x Hx Hn. apply H; [exact Hx|]. intros G. apply Hn. apply in_or_app. auto.
Qed.

Lemma book_init cfg : Book cfg p_init.
Proof.
  split; cbn.
  - exists []. auto.
  - reflexivity.
  - left. reflexivity.
  - lia.
  - intros c [[]|[]].
Qed.

Lemma book_step cfg s a : Book cfg s -> Book cfg (pstep cfg s a).
Proof. intros H. destruct a; cbn [pstep]; try (apply book_rstep; exact H). apply book_tstep. exact H. Qed.

Lemma book_run cfg : forall acts s, Book cfg s -> Book cfg (prun cfg s acts).
Proof. induction acts as [|a acts IH]; intros s H; [exact H|]. cbn. apply IH. apply book_step. exact H. Qed.

(** ** Progress of the thread *)
Lemma threads_S cfg s n : threads cfg s (S n) = threads cfg (tstep cfg s) n.
Proof. reflexivity. Qed.
Lemma threads_add cfg : forall n m s, threads cfg s (n + m) = threads cfg (threads cfg s n) m.
Proof. induction n as [|n IH]; intros m s; [reflexivity|]. cbn [Nat.add]. rewrite !threads_S. apply IH. Qed.

Lemma maybe_delete_ctr cfg s l : let s' := maybe_delete cfg s l in
  p_dl s' = p_dl s /\ p_done s' = p_done s /\ p_force s' = p_force s /\ p_loc s' = l /\ p_req s' = p_req s /\ p_back s' = p_back s /\
  (p_del s = [] /\ p_del s' = [] /\ p_ctr s' = p_ctr s \/ exists c, p_del s = c :: p_del s' /\ p_ctr s' = (p_ctr s - 1)%Z).
Proof.
  unfold maybe_delete. destruct (p_del s) as [|c rest]; [cbn; repeat split; auto|].
  destruct (delete_loop _ _ _ _ _ _) as [[tbd present] tried]. cbn. repeat split; auto. right. exists c. auto.
Qed.

(** With room, the next request is served within three steps. *)
Lemma serve_soon cfg s c rest : p_dl s = Some c :: rest -> p_force s = [] -> (p_ctr s < Z.of_nat (c_pre cfg))%Z ->
  p_loc s = Top \/ p_loc s = AfterForce \/ p_loc s = AfterDownload ->
  exists n, n <= 3 /\ p_done (threads cfg s n) = p_done s ++ [c].
Proof.
  intros Hd Hf Hc.
  assert (A : forall t, p_loc t = AfterForce -> p_dl t = Some c :: rest -> (p_ctr t < Z.of_nat (c_pre cfg))%Z -> p_done (threads cfg t 1) = p_done t ++ [c]).
  { intros t Hl Hdt Hct. change (threads cfg t 1) with (tstep cfg t). unfold tstep. rewrite Hl, Hdt.
    destruct (Z.ltb_spec (p_ctr t) (Z.of_nat (c_pre cfg))); [reflexivity|lia]. }
  assert (B : forall t, p_loc t = Top -> p_force t = [] -> p_dl t = Some c :: rest -> (p_ctr t < Z.of_nat (c_pre cfg))%Z -> p_done (threads cfg t 2) = p_done t ++ [c]).
  { intros t Hl Hft Hdt Hct. rewrite threads_S. assert (E : tstep cfg t = goto t AfterForce) by (unfold tstep; rewrite Hl, Hft; reflexivity).
    rewrite E. rewrite A; [reflexivity|reflexivity|exact Hdt|exact Hct]. }
  intros [Hl|[Hl|Hl]].
  - exists 2. split; [lia|]. apply B; assumption.
  - exists 1. split; [lia|]. apply A; assumption.
  - exists 3. split; [lia|]. rewrite threads_S. unfold tstep. rewrite Hl. destruct (Nat.eqb_spec (c_max cfg) 0) as [Z0|Z0].
    + rewrite B; [reflexivity|reflexivity|exact Hf|exact Hd|exact Hc].
    + destruct (maybe_delete_ctr cfg s Top) as (M1 & M2 & M3 & M4 & _ & _ & M5). rewrite B; [rewrite M2; reflexivity|exact M4|congruence|congruence|].
      destruct M5 as [(_ & _ & M5)|(c' & _ & M5)]; rewrite M5; lia.
Qed.

(** One round of the loop of a thread that may not download takes one chunk given back. *)
Lemma take_back cfg s : c_max cfg <> 0 -> p_force s = [] -> (Z.of_nat (c_pre cfg) <= p_ctr s)%Z -> p_del s <> [] ->
  p_loc s = Top \/ p_loc s = AfterForce \/ p_loc s = AfterDownload ->
  exists n, n <= 3 /\ let s' := threads cfg s n in
    p_loc s' = Top /\ p_force s' = [] /\ p_dl s' = p_dl s /\ p_done s' = p_done s /\ p_ctr s' = (p_ctr s - 1)%Z /\ S (length (p_del s')) = length (p_del s).
Proof.
  intros HM Hf Hc Hn.
  assert (A : forall t, p_loc t = AfterDownload -> p_del t <> [] -> p_force t = [] -> let s' := threads cfg t 1 in
    p_loc s' = Top /\ p_force s' = [] /\ p_dl s' = p_dl t /\ p_done s' = p_done t /\ p_ctr s' = (p_ctr t - 1)%Z /\ S (length (p_del s')) = length (p_del t)).
  { intros t Hl Hnt Hft. change (threads cfg t 1) with (tstep cfg t). unfold tstep. rewrite Hl. replace (c_max cfg =? 0) with false by lia.
    destruct (maybe_delete_ctr cfg t Top) as (M1 & M2 & M3 & M4 & _ & _ & M5). cbv zeta. rewrite M1, M2, M3, M4.
    destruct M5 as [(M5 & _)|(c' & M5 & M6)]; [congruence|]. rewrite M6, M5. cbn [length]. repeat split; auto. }
  assert (B : forall t, p_loc t = AfterForce -> (Z.of_nat (c_pre cfg) <= p_ctr t)%Z -> tstep cfg t = goto t AfterDownload).
  { intros t Hl Hct. unfold tstep. rewrite Hl. destruct (Z.ltb_spec (p_ctr t) (Z.of_nat (c_pre cfg))); [lia|reflexivity]. }
  intros [Hl|[Hl|Hl]].
  - exists 3. split; [lia|]. rewrite threads_S. assert (E : tstep cfg s = goto s AfterForce) by (unfold tstep; rewrite Hl, Hf; reflexivity).
    rewrite E, threads_S, B; [|reflexivity|exact Hc]. apply (A (goto (goto s AfterForce) AfterDownload)); [reflexivity|exact Hn|exact Hf].
  - exists 2. split; [lia|]. rewrite threads_S, B by assumption. apply (A (goto s AfterDownload)); [reflexivity|exact Hn|exact Hf].
  - exists 1. split; [lia|]. apply A; assumption.
Qed.

Lemma progress cfg : c_max cfg <> 0 -> forall k s c rest, length (p_del s) = k -> p_dl s = Some c :: rest -> p_force s = [] ->
  (p_ctr s - Z.of_nat (length (p_del s)) < Z.of_nat (c_pre cfg))%Z ->
  p_loc s = Top \/ p_loc s = AfterForce \/ p_loc s = AfterDownload ->
  exists n, n <= 3 * (k + 1) /\ p_done (threads cfg s n) = p_done s ++ [c].
Proof.
  intros HM. induction k as [|k IH]; intros s c rest Hk Hd Hf Hc Hl.
  - destruct (serve_soon cfg s c rest Hd Hf ltac:(lia) Hl) as (n & Hn & E). exists n. split; [lia|exact E].
  - destruct (Z.lt_ge_cases (p_ctr s) (Z.of_nat (c_pre cfg))) as [Hlt|Hge].
    + destruct (serve_soon cfg s c rest Hd Hf Hlt Hl) as (n & Hn & E). exists n. split; [lia|exact E].
    + assert (Hne : p_del s <> []) by (intros Z; rewrite Z in Hk; discriminate).
      destruct (take_back cfg s HM Hf Hge Hne Hl) as (n & Hn & L & F & D & E & C & G). cbv zeta in *.
      destruct (IH (threads cfg s n) c rest) as (m & Hm & E2); [lia|congruence|exact F|lia|auto|].
      exists (n + m). split; [lia|]. rewrite threads_add, E2, E. reflexivity.
Qed.

(** A thread that may not download and gets nothing back does nothing. *)
Lemma stalled cfg : forall n s, (Z.of_nat (c_pre cfg) <= p_ctr s)%Z -> p_force s = [] -> (p_del s = [] \/ c_max cfg = 0) ->
  p_loc s = Top \/ p_loc s = AfterForce \/ p_loc s = AfterDownload ->
  p_done (threads cfg s n) = p_done s /\ p_present (threads cfg s n) = p_present s.
Proof.
  induction n as [|n IH]; intros s Hc Hf Hd Hl; [auto|]. rewrite threads_S.
  assert (G : exists l, tstep cfg s = goto s l /\ (l = Top \/ l = AfterForce \/ l = AfterDownload)).
  { unfold tstep. destruct Hl as [->|[->| ->]].
    - rewrite Hf. eauto.
    - destruct (Z.ltb_spec (p_ctr s) (Z.of_nat (c_pre cfg))); [lia|eauto].
    - destruct (Nat.eqb_spec (c_max cfg) 0) as [|Hm]; [eauto|]. destruct Hd as [Hd|]; [|congruence]. exists Top. split; [|auto].
      unfold maybe_delete, goto. rewrite Hd. reflexivity. }
  destruct G as (l & -> & Gl). apply (IH (goto s l)); assumption.
Qed.
