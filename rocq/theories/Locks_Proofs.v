From Verif Require Import Base Locks_Model Locks_Spec.
Local Ltac Zify.zify_post_hook ::= idtac.

Definition counter_of (regs : list nat) : option (option nat) := match regs with [] => None | _ => Some (Some (length regs)) end.

Definition quiet (p : pc) : Prop := p = Idle \/ p = Del.

Definition LInv (s : lstate) : Prop :=
  match l_lock s with
  | None => l_cnt s = counter_of (l_regs s) /\ forall w, quiet (l_pcs s w)
  | Some w =>
      (forall v, v <> w -> quiet (l_pcs s v)) /\
      match l_pcs s w with
      | IncR v => v = length (l_regs s) /\ l_cnt s = counter_of (l_regs s)
      | IncW v => v = S (length (l_regs s)) /\ l_cnt s = Some None
      | DecR v => v = S (length (l_regs s)) /\ l_cnt s = Some (Some v)
      | DecW v => v = length (l_regs s) /\ 1 <= v /\ l_cnt s = Some None
      | _ => False
      end
  end.

Lemma remove1_length w : forall l, In w l -> S (length (remove1 w l)) = length l.
Proof.
  induction l as [|x l IH]; intros H; [destruct H|]. cbn. destruct (Nat.eqb_spec x w); [reflexivity|].
  destruct H as [->|H]; [congruence|]. cbn [length]. rewrite IH by exact H. reflexivity.
Qed.
Lemma counter_pos regs : regs <> [] -> counter_of regs = Some (Some (length regs)).
Proof. destruct regs; [congruence|reflexivity]. Qed.
Lemma set_pc_eq f w p : set_pc f w p w = p.
Proof. unfold set_pc. rewrite Nat.eqb_refl. reflexivity. Qed.
Lemma set_pc_neq f w p v : v <> w -> set_pc f w p v = f v.
Proof. unfold set_pc. intros. replace (v =? w) with false by lia. reflexivity. Qed.
Lemma quiet_set f w p : quiet p -> (forall v, v <> w -> quiet (f v)) -> forall v, quiet (set_pc f w p v).
Proof. intros Hp H v. unfold set_pc. destruct (Nat.eqb_spec v w); auto. Qed.

Lemma lstep_inv s w a s' : LInv s -> lstep s w a = Some s' ->
  (a = DecStart -> In w (l_regs s)) -> a <> IncTimeout -> a <> DecTimeout -> LInv s'.
Proof.
  intros HI E Hd N1 N2. unfold lstep in E.
  destruct a; try congruence.
  - (* IncStart *) destruct (l_pcs s w) eqn:Ep; try discriminate. destruct (l_lock s) eqn:El; [discriminate|].
    injection E as <-. unfold LInv in *. rewrite El in HI. cbn [with_ l_lock l_pcs l_regs l_cnt]. destruct HI as [Hc Hq].
    split.
    + intros v Hv. rewrite set_pc_neq by exact Hv. apply Hq.
    + rewrite set_pc_eq. split; [|exact Hc]. rewrite Hc. destruct (l_regs s); reflexivity.
  - (* DecStart *) destruct (l_pcs s w) eqn:Ep; try discriminate. destruct (l_lock s) eqn:El; [discriminate|].
    specialize (Hd eq_refl). unfold LInv in HI. rewrite El in HI. destruct HI as [Hc Hq].
    assert (Hne : l_regs s <> []) by (intros Z; rewrite Z in Hd; destruct Hd).
    rewrite (counter_pos _ Hne) in Hc. rewrite Hc in E. injection E as <-.
    unfold LInv. cbn [with_ l_lock l_pcs l_regs l_cnt]. split.
    + intros v Hv. rewrite set_pc_neq by exact Hv. apply Hq.
    + rewrite set_pc_eq. split; [|reflexivity]. rewrite remove1_length by exact Hd. reflexivity.
  - (* Next *) unfold LInv in HI. destruct (l_lock s) as [h|] eqn:El.
    + destruct HI as [Hq Hp]. destruct (Nat.eq_dec w h) as [->|Hwh].
      * destruct (l_pcs s h) eqn:Ep; try (destruct Hp; fail).
        -- destruct Hp as [-> Hc]. injection E as <-. unfold LInv. cbn [with_ l_lock l_pcs l_regs l_cnt].
           split; [intros v Hv; rewrite set_pc_neq by exact Hv; auto|]. rewrite set_pc_eq. auto.
        -- destruct Hp as [-> Hc]. injection E as <-. unfold LInv. cbn [with_ l_lock l_pcs l_regs l_cnt].
           split; [reflexivity|]. apply quiet_set; [left; reflexivity|exact Hq].
        -- destruct Hp as [-> Hc]. destruct (Nat.eqb_spec (S (length (l_regs s)) - 1) 0) as [Z|Z].
           ++ injection E as <-. unfold LInv. cbn [with_ l_lock l_pcs l_regs l_cnt].
              destruct (l_regs s); [|cbn in Z; lia]. split; [reflexivity|]. apply quiet_set; [left; reflexivity|exact Hq].
           ++ injection E as <-. unfold LInv. cbn [with_ l_lock l_pcs l_regs l_cnt].
              split; [intros v Hv; rewrite set_pc_neq by exact Hv; auto|]. rewrite set_pc_eq. split; [lia|]. split; [lia|reflexivity].
        -- destruct Hp as (-> & Hv & Hc). injection E as <-. unfold LInv. cbn [with_ l_lock l_pcs l_regs l_cnt].
           split; [destruct (l_regs s); [cbn in Hv; lia|reflexivity]|]. apply quiet_set; [left; reflexivity|exact Hq].
      * destruct (Hq w Hwh) as [Hw|Hw]; rewrite Hw in E; try discriminate. injection E as <-.
        unfold LInv. cbn [with_ l_lock l_pcs l_regs l_cnt]. split.
        -- intros v Hv. destruct (Nat.eq_dec v w) as [->|Hn]; [rewrite set_pc_eq; left; reflexivity|rewrite set_pc_neq by exact Hn; auto].
        -- rewrite set_pc_neq by congruence. exact Hp.
    + destruct HI as [Hc Hq]. destruct (Hq w) as [Hw|Hw]; rewrite Hw in E; try discriminate. injection E as <-.
      unfold LInv. cbn [with_ l_lock l_pcs l_regs l_cnt]. split; [exact Hc|]. apply quiet_set; [left; reflexivity|auto].
  - (* Check *) destruct (l_pcs s w) eqn:Ep; try discriminate.
    destruct (remaining (l_cnt s) =? 0); injection E as <-; [|exact HI]. unfold LInv in *. cbn [with_ l_lock l_pcs l_regs l_cnt].
    destruct (l_lock s) as [h|].
    + destruct HI as [Hq Hp]. assert (Hn : w <> h). { intros ->. rewrite Ep in Hp. exact Hp. } split.
      * intros v Hv. destruct (Nat.eq_dec v w) as [->|Hn']; [rewrite set_pc_eq; right; reflexivity|rewrite set_pc_neq by exact Hn'; auto].
      * rewrite set_pc_neq by congruence. exact Hp.
    + destruct HI as [Hc Hq]. split; [exact Hc|]. apply quiet_set; [right; reflexivity|auto].
  - (* Fetch *) destruct (l_pcs s w) eqn:Ep; try discriminate. injection E as <-. unfold LInv in *. cbn [with_ l_lock l_pcs l_regs l_cnt].
    destruct (l_lock s) as [h|].
    + destruct HI as [Hq Hp]. assert (Hn : w <> h). { intros ->. rewrite Ep in Hp. exact Hp. } split.
      * intros v Hv. destruct (Nat.eq_dec v w) as [->|Hn']; [rewrite set_pc_eq; left; reflexivity|rewrite set_pc_neq by exact Hn'; auto].
      * rewrite set_pc_neq by congruence. exact Hp.
    + destruct HI as [Hc Hq]. split; [exact Hc|]. apply quiet_set; [left; reflexivity|auto].
Qed.

Lemma l_init_inv b : LInv (l_init b).
Proof. split; [reflexivity|]. intros w. left. reflexivity. Qed.

Lemma lrun_inv : forall sched s, LInv s -> disciplined s sched -> LInv (lrun s sched).
Proof.
  induction sched as [|[w a] sched IH]; intros s HI D; cbn [lrun disciplined] in *; [exact HI|].
  destruct D as [Da D]. apply IH; [|exact D]. destruct (lstep s w a) as [s'|] eqn:E; [|exact HI].
  apply (lstep_inv s w a s' HI E); intros ->; [exact Da|destruct Da|destruct Da].
Qed.

Lemma remaining_zero s : LInv s -> remaining (l_cnt s) = 0 -> l_regs s = [].
Proof.
  unfold LInv. intros HI R. assert (C : l_cnt s = counter_of (l_regs s) -> l_regs s = []).
  { intros Hc. rewrite Hc in R. destruct (l_regs s); [reflexivity|discriminate]. }
  destruct (l_lock s) as [h|].
  - destruct HI as [_ Hp]. destruct (l_pcs s h); try (destruct Hp; fail).
    + apply C. apply Hp.
    + destruct Hp as [_ Hc]. rewrite Hc in R. discriminate.
    + destruct Hp as [-> Hc]. rewrite Hc in R. discriminate.
    + destruct Hp as (_ & _ & Hc). rewrite Hc in R. discriminate.
  - apply C. apply HI.
Qed.

(** A worker stays registered until it unregisters. *)
Lemma remove1_other w v : forall l, In w l -> v <> w -> In w (remove1 v l).
Proof.
  induction l as [|x l IH]; intros H Hn; [destruct H|]. cbn. destruct (Nat.eqb_spec x v).
  - destruct H as [->|H]; [congruence|exact H].
  - destruct H as [->|H]; [left; reflexivity|right; auto].
Qed.
Lemma lstep_stays s w v a s' : In w (l_regs s) -> lstep s v a = Some s' -> (v = w -> a <> DecStart /\ a <> DecTimeout) -> In w (l_regs s').
Proof.
  intros H E N. assert (R : forall l, In w l -> In w (remove1 v l) \/ v = w).
  { intros l Hl. destruct (Nat.eq_dec v w); [auto|left; apply remove1_other; auto]. }
  destruct a; cbn [lstep] in E; destruct (l_pcs s v); try discriminate; destruct (l_lock s); try discriminate;
    repeat match type of E with context [match ?x with _ => _ end] => destruct x end; injection E as <-; cbn [with_ l_regs]; auto;
    try (destruct (R _ H) as [G| ->]; [exact G|destruct (N eq_refl); congruence]); right; exact H.
Qed.
Lemma lrun_stays w : forall sched s, In w (l_regs s) -> Forall (fun va => fst va = w -> snd va <> DecStart /\ snd va <> DecTimeout) sched ->
  In w (l_regs (lrun s sched)).
Proof.
  induction sched as [|[v a] sched IH]; intros s H F; cbn [lrun]; [exact H|]. apply Forall_cons_iff in F. destruct F as [Fa F].
  apply IH; [|exact F]. destruct (lstep s v a) as [s'|] eqn:E; [|exact H]. exact (lstep_stays s w v a s' H E Fa).
Qed.

Lemma removal_was_decided w : forall sched s, LInv s -> disciplined s sched -> l_pcs s w <> Del -> l_pcs (lrun s sched) w = Del ->
  exists before rest, sched = before ++ (w, Check) :: rest /\ l_regs (lrun s before) = [].
Proof.
  induction sched as [|[v a] sched IH]; intros s HI D Hs HE; cbn [lrun disciplined] in *; [congruence|].
  destruct D as [Da D]. set (s1 := match lstep s v a with Some s' => s' | None => s end) in *.
  assert (HI1 : LInv s1). { apply (lrun_inv [(v, a)] s HI). cbn [disciplined]. auto. }
  destruct (l_pcs s1 w) eqn:E1.
  6: { assert (G : v = w /\ a = Check /\ remaining (l_cnt s) = 0).
       { unfold s1 in E1. destruct (lstep s v a) as [s'|] eqn:E; [|congruence].
         destruct (Nat.eq_dec v w) as [->|Hn].
         - split; [reflexivity|]. destruct a; cbn [lstep] in E; destruct (l_pcs s w) eqn:Ep; try congruence; try discriminate; destruct (l_lock s); try discriminate;
             repeat match type of E with context [match ?x with _ => _ end] => destruct x eqn:? end; injection E as <-; cbn [with_ l_pcs] in E1; rewrite ?set_pc_eq in E1; try congruence; try discriminate;
             (split; [reflexivity|apply Nat.eqb_eq; assumption]).
         - exfalso. apply Hs. destruct a; cbn [lstep] in E; destruct (l_pcs s v) eqn:Ep; try discriminate; destruct (l_lock s); try discriminate;
             repeat match type of E with context [match ?x with _ => _ end] => destruct x eqn:? end; injection E as <-; cbn [with_ l_pcs] in E1; rewrite ?set_pc_neq in E1 by congruence; exact E1. }
       destruct G as (-> & -> & R). exists [], sched. split; [reflexivity|]. cbn [lrun]. apply remaining_zero; assumption. }
  all: destruct (IH s1 HI1 D ltac:(congruence) HE) as (before & rest & -> & R); exists ((v, a) :: before), rest; split; [reflexivity|exact R].
Qed.
