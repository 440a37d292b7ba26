From Verif Require Import Base Assign_Model Assign_Spec Iter_Model Iter_Spec Iter_Proofs Config_Proofs Prefetch_Model Prefetch_Spec Prefetch_Proofs Prefetch_Proofs2 Read_Model Read_Spec Read_Proofs.
Local Ltac Zify.zify_post_hook ::= idtac.

(** * Indexing *)

Notation cnt l c := (count_occ Nat.eq_dec l c).
Definition holding (o : option nat) (c : nat) : nat := if same_chunk c o then 1 else 0.

Lemma given_back_app a b : given_back (a ++ b) = given_back a ++ given_back b.
Proof. apply flat_map_app. Qed.
Lemma asked_app a b : asked (a ++ b) = asked a ++ asked b.
Proof. apply flat_map_app. Qed.

(** The state of a reader used for indexing only. *)
Definition indexing (st : rdstate) : Prop := rd_queued st = false /\ (rd_thread st = false -> rd_last st = None).

Lemma read_access closes st c i : indexing st -> exists st' es, read true closes st (access c i) = Ok (st', es) /\ indexing st' /\ rd_last st' = Some c /\
  (exists e1 e2, es = e1 ++ ELoad c i :: e2 /\ loaded e1 = [] /\ loaded e2 = [] /\ given_back e1 = [] /\
     asked e1 = (if same_chunk c (rd_last st) then [] else [c]) /\ asked e2 = [] /\
     given_back e2 = match rd_last st with Some l => if l =? c then [] else [l] | None => [] end).
Proof.
  destruct st as [th q la]. intros [Q N]. cbn [rd_queued rd_thread rd_last] in *. subst q. unfold read, access. cbn [rq_chunk rq_index rq_download rq_last rd_thread rd_queued rd_last].
  destruct th; cbn [rd_queued rd_last rd_thread negb andb].
  - destruct la as [l|]; cbn [same_chunk].
    + destruct (Nat.eqb_spec l c) as [->|H]; cbn [negb bind app andb].
      * eexists; eexists. split; [reflexivity|]. split; [split; [reflexivity|discriminate]|]. split; [reflexivity|]. exists [], []. repeat split.
      * eexists; eexists. split; [reflexivity|]. split; [split; [reflexivity|discriminate]|]. split; [reflexivity|].
        eexists [EReq [c]], _. split; [reflexivity|]. destruct closes; repeat split.
    + rewrite Nat.eqb_refl. cbn [negb bind app andb]. eexists; eexists. split; [reflexivity|]. split; [split; [reflexivity|discriminate]|]. split; [reflexivity|].
      exists [EReq [c]], []. repeat split.
  - rewrite (N eq_refl). cbn [same_chunk]. rewrite Nat.eqb_refl. cbn [negb bind app andb]. eexists; eexists. split; [reflexivity|]. split; [split; [reflexivity|discriminate]|]. split; [reflexivity|].
    exists [EStart; EReq [c]], []. repeat split.
Qed.

Lemma loaded_nil_split e1 c i : forall before after r, loaded e1 = [] -> e1 ++ r = before ++ ELoad c i :: after ->
  exists b2, before = e1 ++ b2 /\ r = b2 ++ ELoad c i :: after.
Proof.
  induction e1 as [|e e1 IH]; intros before after r HL E; [exists before; auto|].
  destruct before as [|b before]; cbn [app] in E; injection E as E1 E2.
  - subst e. discriminate.
  - subst b. destruct (IH before after r) as (b2 & -> & Hr); [|exact E2|].
    + unfold loaded in *. cbn [flat_map] in HL. apply app_eq_nil in HL. apply HL.
    + exists b2. auto.
Qed.

(** The invariant: a chunk is asked for once more than given back exactly if it is the last one read. *)
Lemma reads_access closes : forall accs st B A, indexing st -> (forall c, cnt A c = cnt B c + holding (rd_last st) c) ->
  exists st' es, reads true closes st (map (fun ci => access (fst ci) (snd ci)) accs) = Ok (st', es) /\ indexing st' /\ loaded es = accs /\
  (forall c, cnt (A ++ asked es) c = cnt (B ++ given_back es) c + holding (rd_last st') c) /\
  (forall before c i after, es = before ++ ELoad c i :: after -> cnt (B ++ given_back before) c < cnt (A ++ asked before) c).
Proof.
  induction accs as [|[c i] accs IH]; intros st B A HI HA.
  - exists st, []. cbn. rewrite !app_nil_r. repeat split; auto; try apply HI. intros [|]; discriminate.
  - cbn [map reads fst snd]. destruct (read_access closes st c i HI) as (st1 & es1 & E & HI1 & L1 & e1 & e2 & Ees & Ld1 & Ld2 & Bk1 & As1 & As2 & Bk2). rewrite E. cbn [bind].
    assert (HA1 : forall x, cnt (A ++ asked es1) x = cnt (B ++ given_back es1) x + holding (rd_last st1) x).
    { intros x. rewrite Ees, asked_app, given_back_app. unfold asked at 2, given_back at 2. cbn [flat_map app]. fold (asked e2) (given_back e2).
      rewrite L1, Bk1, As1, As2, Bk2, app_nil_r. cbn [app]. rewrite !count_occ_app. specialize (HA x).
      unfold holding in *. cbn [same_chunk]. destruct (rd_last st) as [l|]; cbn [same_chunk] in *.
      - destruct (Nat.eqb_spec l c) as [->|Hne]; cbn [count_occ]; [lia|]. cbn [count_occ]. destruct (Nat.eq_dec l x), (Nat.eq_dec c x), (Nat.eqb_spec l x), (Nat.eqb_spec c x); subst; try congruence; lia.
      - cbn [count_occ]. destruct (Nat.eq_dec c x), (Nat.eqb_spec c x); try congruence; lia. }
    destruct (IH st1 (B ++ given_back es1) (A ++ asked es1) HI1 HA1) as (st' & es & E' & HI' & L' & HA' & HB'). rewrite E'. cbn [bind].
    exists st', (es1 ++ es). split; [reflexivity|]. split; [exact HI'|]. split; [|split].
    + rewrite Ees. unfold loaded in *. rewrite !flat_map_app. cbn [flat_map]. rewrite Ld1, Ld2, L'. reflexivity.
    + intros x. rewrite asked_app, given_back_app, !app_assoc. apply HA'.
    + intros before x j after Es. rewrite Ees, <- app_assoc in Es. destruct (loaded_nil_split _ _ _ _ _ _ Ld1 Es) as (b2 & -> & Er).
      cbn [app] in Er. destruct b2 as [|b b2]; cbn [app] in Er.
      * injection Er as <- <- _. rewrite app_nil_r, Bk1, As1, app_nil_r. specialize (HA c). unfold holding in HA. rewrite count_occ_app.
        destruct (same_chunk c (rd_last st)); cbn [count_occ]; [lia|]. destruct (Nat.eq_dec c c); [lia|congruence].
      * injection Er as <- Er. destruct (loaded_nil_split _ _ _ _ _ _ Ld2 Er) as (b3 & -> & Er').
        specialize (HB' b3 x j after Er'). rewrite Ees in HB'.
        replace (e1 ++ ELoad c i :: e2 ++ b3) with ((e1 ++ ELoad c i :: e2) ++ b3) by (rewrite <- app_assoc; reflexivity).
        rewrite (asked_app _ b3), (given_back_app _ b3), !app_assoc. exact HB'.
Qed.

(** * The reader and its thread *)

Lemma present_incl cfg : forall acts s, (forall c, In c (p_present s) -> In c (p_done s) \/ In c (p_forced s)) ->
  let s' := prun cfg s acts in forall c, In c (p_present s') -> In c (p_done s') \/ In c (p_forced s').
Proof.
  assert (DL : forall cfg ctr locks tbd present tried tbd' present' tried', delete_loop cfg ctr locks tbd present tried = (tbd', present', tried') -> incl present' present).
  { clear. intros cfg ctr locks. induction tbd as [|c tbd IH]; intros present tried tbd' present' tried' E; cbn [delete_loop] in E.
    - injection E as <- <- <-. apply incl_refl.
    - destruct (can_delete_chunk cfg ctr present); [|injection E as <- <- <-; apply incl_refl]. apply IH in E. destruct (locks c =? 0); [|exact E].
      intros x Hx. apply E in Hx. unfold del_file in Hx. apply filter_In in Hx. apply Hx. }
  assert (AF : forall c l x, In x (add_file c l) -> In x l \/ x = c).
  { clear. intros c l x H. unfold add_file in H. destruct (memb c l); [auto|]. apply in_app_or in H. destruct H as [H|[H|[]]]; auto. }
  assert (MD : forall s l, (forall c, In c (p_present s) -> In c (p_done s) \/ In c (p_forced s)) ->
     let s' := maybe_delete cfg s l in forall c, In c (p_present s') -> In c (p_done s') \/ In c (p_forced s')).
  { intros s l H. unfold maybe_delete. destruct (p_del s) as [|c rest]; [exact H|].
    destruct (delete_loop cfg (p_ctr s) (p_locks s) (p_tbd s ++ [c]) (p_present s) (p_tried s)) as [[tbd present] tried] eqn:ED.
    cbn. intros x Hx. apply H. eapply DL; eassumption. }
  induction acts as [|a acts IH]; intros s H; [exact H|]. cbn [prun fold_left]. apply IH.
  destruct a; cbn [pstep rstep p_present p_done p_forced]; try exact H.
  unfold tstep. destruct (p_loc s).
  - destruct (p_force s); [exact H|]. cbn. intros c Hc. apply AF in Hc. rewrite in_app_iff. cbn. destruct Hc as [Hc| ->]; [apply H in Hc; tauto|auto].
  - destruct (p_ctr s <? Z.of_nat (c_pre cfg))%Z; [|exact H]. destruct (p_dl s) as [|[c|] r]; try exact H. cbn. intros x Hx. apply AF in Hx. rewrite in_app_iff. cbn. destruct Hx as [Hx| ->]; [apply H in Hx; tauto|auto].
  - destruct (c_max cfg =? 0); [exact H|apply MD; exact H].
  - destruct (c_max cfg =? 0); [exact H|apply MD; exact H].
  - exact H.
Qed.

Lemma tstep_keeps cfg s : p_req (tstep cfg s) = p_req s /\ p_back (tstep cfg s) = p_back s /\ incl (p_done s) (p_done (tstep cfg s)) /\
  (p_force s = [] -> p_force (tstep cfg s) = [] /\ p_forced (tstep cfg s) = p_forced s).
Proof.
  assert (MD : forall l, p_req (maybe_delete cfg s l) = p_req s /\ p_back (maybe_delete cfg s l) = p_back s /\ incl (p_done s) (p_done (maybe_delete cfg s l)) /\
    (p_force s = [] -> p_force (maybe_delete cfg s l) = [] /\ p_forced (maybe_delete cfg s l) = p_forced s)).
  { intros l. unfold maybe_delete. destruct (p_del s) as [|c rest]; [cbn; repeat split; auto; apply incl_refl|].
    destruct (delete_loop cfg (p_ctr s) (p_locks s) (p_tbd s ++ [c]) (p_present s) (p_tried s)) as [[tbd present] tried]. cbn. repeat split; auto; apply incl_refl. }
  unfold tstep. destruct (p_loc s).
  - destruct (p_force s) eqn:E; cbn; rewrite ?E; repeat split; auto; try apply incl_refl; discriminate.
  - destruct (p_ctr s <? Z.of_nat (c_pre cfg))%Z; [|cbn; repeat split; auto; apply incl_refl].
    destruct (p_dl s) as [|[c|] r]; cbn; repeat split; auto; try apply incl_refl. apply incl_appl, incl_refl.
  - destruct (c_max cfg =? 0); [cbn; repeat split; auto; apply incl_refl|apply MD].
  - destruct (c_max cfg =? 0); [cbn; repeat split; auto; apply incl_refl|apply MD].
  - repeat split; auto; apply incl_refl.
Qed.

Lemma wb_app cfg : forall a b s, well_behaved cfg s a -> well_behaved cfg (prun cfg s a) b -> well_behaved cfg s (a ++ b).
Proof. induction a as [|x a IH]; intros b s H1 H2; [exact H2|]. cbn [well_behaved app] in *. split; [apply H1|]. apply IH; [apply H1|exact H2]. Qed.

Section X.
Context (cfg : pcfg) (cs : list nat) (HN : NoDup cs).

(** Reachable states of the pair. *)
Definition closing_only (evs : list ev) : Prop := Forall (fun e => match e with EClose _ => True | _ => False end) evs.
Record XInv (evs : list ev) (s : pstate) : Prop := {
  x_acts : exists acts, well_behaved cfg p_init acts /\ s = prun cfg p_init acts;
  x_force : p_force s = [] /\ p_forced s = [];
  x_phase : (exists r, (evs = EStart :: EReq cs :: r \/ evs = EReq cs :: r) /\ p_req s = [] /\ p_back s = [] /\ ready cs [] [] r) \/
            (exists L, ready cs L (p_back s) evs /\ incl L (p_done s) /\ p_req s = map Some cs) \/
            closing_only evs
}.

Lemma prun_snoc s acts a : prun cfg s (acts ++ [a]) = pstep cfg (prun cfg s acts) a.
Proof. unfold prun. rewrite fold_left_app. reflexivity. Qed.

Lemma acts_snoc s a : (exists acts, well_behaved cfg p_init acts /\ s = prun cfg p_init acts) -> well_behaved cfg s [a] ->
  exists acts, well_behaved cfg p_init acts /\ pstep cfg s a = prun cfg p_init acts.
Proof.
  intros (acts & W & E) H. exists (acts ++ [a]). split; [apply wb_app; [exact W|rewrite <- E; exact H]|]. rewrite prun_snoc, E. reflexivity.
Qed.

Lemma xstep_inv evs s w : XInv evs s -> XInv (fst (xstep cfg (evs, s) w)) (snd (xstep cfg (evs, s) w)).
Proof.
  intros [A [F1 F2] P]. destruct w; cbn [xstep].
  - destruct evs as [|e r]; [split; auto|].
    destruct P as [(r0 & [E|E] & Q & B & R)|[(L & R & I & Q)|P]].
    + injection E as -> ->. cbn. split; auto. left. exists r0. auto.
    + injection E as -> ->. cbn [fst snd]. split.
      * apply acts_snoc; [exact A|]. cbn [well_behaved]. split; [|exact I]. rewrite Q. cbn [app].
        apply FinFun.Injective_map_NoDup; [|exact HN]. intros x y H. congruence.
      * cbn. rewrite F1, F2. auto.
      * right. left. exists []. cbn. rewrite Q, B. repeat split; [exact R|intros x []].
    + destruct e; cbn [ready] in R.
      * cbn. split; auto. right. left. exists L. auto.
      * destruct R.
      * destruct (memb c (p_present s)) eqn:Em; cbn [fst snd].
        -- apply memb_In in Em. destruct R as (R1 & R2 & R3 & R4). split; auto. right. left. exists (c :: L). split; [exact R4|]. split; [|exact Q].
           intros x [<-|Hx]; [|apply I, Hx]. destruct A as (acts & W & ->).
           destruct (present_incl cfg acts p_init ltac:(intros x []) c Em) as [H|H]; [exact H|]. rewrite F2 in H. destruct H.
        -- split; auto. right. left. exists L. split; [|auto]. exact R.
      * destruct R as (R1 & R2 & R3). cbn [fst snd]. split.
        -- apply acts_snoc; [exact A|]. cbn [well_behaved]. split; [|exact Logic.I]. split; [apply I, R1|exact R2].
        -- cbn. rewrite F1, F2. auto.
        -- right. left. exists L. cbn. rewrite app_nil_r. auto.
      * cbn. split; auto. right. left. exists L. auto.
      * cbn [fst snd]. split.
        -- apply acts_snoc; [exact A|]. cbn [well_behaved]. split; [|exact Logic.I]. rewrite Q. intros H. apply in_map_iff in H. destruct H as (x & H & _). discriminate.
        -- cbn. rewrite F1, F2. auto.
        -- right. right. exact R.
    + inversion P as [|? ? He Hr]; subst. destruct e; try contradiction. cbn. split; auto.
  - cbn [fst snd]. destruct (tstep_keeps cfg s) as (K1 & K2 & K3 & K4). destruct (K4 F1) as [K5 K6]. split.
    + change (tstep cfg s) with (pstep cfg s Thread). apply acts_snoc; [exact A|]. cbn. auto.
    + rewrite K5, K6. auto.
    + rewrite K1, K2. destruct P as [P|[(L & R & I & Q)|P]]; [left; exact P| |right; right; exact P].
      right. left. exists L. split; [exact R|]. split; [|exact Q]. intros x Hx. apply K3, I, Hx.
Qed.

Lemma xrun_inv sched : forall evs s, XInv evs s -> XInv (fst (xrun cfg (evs, s) sched)) (snd (xrun cfg (evs, s) sched)).
Proof.
  induction sched as [|w sched IH]; intros evs s H; [exact H|]. cbn [xrun fold_left]. pose proof (xstep_inv evs s w H) as H1.
  destruct (xstep cfg (evs, s) w) as [evs1 s1]. apply IH. exact H1.
Qed.

(** The next step of the reader is possible. *)
Definition enabled (evs : list ev) (s : pstate) : Prop := fst (xstep cfg (evs, s) Reader) = tl evs.

Lemma threads_inv evs s m : XInv evs s -> XInv evs (threads cfg s m).
Proof.
  revert s. induction m as [|m IH]; intros s H; [exact H|]. rewrite threads_S. apply IH. apply (xstep_inv evs s Worker H).
Qed.
Lemma threads_done s m k : m <= k -> incl (p_done (threads cfg s m)) (p_done (threads cfg s k)).
Proof.
  intros H. replace k with (m + (k - m)) by lia. rewrite threads_add. generalize (threads cfg s m), (k - m). clear.
  intros s n. revert s. induction n as [|n IH]; intros s; [apply incl_refl|]. rewrite threads_S. eapply incl_tran; [|apply IH]. apply tstep_keeps.
Qed.
Lemma threads_back s m : p_back (threads cfg s m) = p_back s.
Proof. revert s. induction m as [|m IH]; intros s; [reflexivity|]. rewrite threads_S, IH. apply tstep_keeps. Qed.

Lemma held_enabled evs s c i r : XInv evs s -> evs = ELoad c i :: r -> In c (p_done s) -> ~ In c (p_back s) -> enabled evs s.
Proof.
  intros [(acts & W & E) _ _] -> Hd Hb. unfold enabled. cbn [xstep].
  assert (Hp : In c (p_present s)). { pose proof (book_run cfg acts _ (book_init cfg)) as HB. rewrite <- E in HB. apply (b_held _ _ HB); auto. }
  apply memb_In in Hp. rewrite Hp. reflexivity.
Qed.

Lemma reader_advances evs s : c_max cfg <> 0 -> 2 <= c_pre cfg -> XInv evs s ->
  exists n, n <= 3 * (length (p_del s) + 1) /\ forall m, n <= m -> enabled evs (threads cfg s m).
Proof.
  intros HM HP HX. destruct evs as [|e r]; [exists 0; split; [lia|]; reflexivity|].
  destruct e as [|l|c i|c|c|]; try (exists 0; split; [lia|]; intros m _; reflexivity).
  pose proof HX as [A [F1 F2] [(r0 & [E|E] & _)|[(L & R & I & Q)|P]]]; try discriminate; [|inversion P; contradiction].
  cbn [ready] in R. destruct R as (R1 & R2 & R3 & _).
  destruct (in_dec Nat.eq_dec c (p_done s)) as [Hd|Hd].
  { exists 0. split; [lia|]. intros m _. eapply held_enabled; [apply threads_inv, HX|reflexivity| |rewrite threads_back; exact R1].
    apply (threads_done s 0 m ltac:(lia)), Hd. }
  destruct R3 as [R3|(cs1 & cs2 & Ec & Hi & Hl)]; [exfalso; apply Hd, I, R3|].
  destruct A as (acts & W & Es). pose proof (book_run cfg acts _ (book_init cfg)) as HB. rewrite <- Es in HB.
  pose proof (running cfg acts) as Hloc. cbv zeta in Hloc. rewrite <- Es, Q in Hloc.
  assert (Hnone : ~ In None (map Some cs)). { intros H. apply in_map_iff in H. destruct H as (x & H & _). discriminate. }
  specialize (Hloc Hnone).
  assert (Hreq : exists dl, p_dl s = map Some dl /\ cs = p_done s ++ dl).
  { destruct (b_req _ _ HB) as (mid & [->|[(r1 & ->) _]] & Er); rewrite Q in Er.
    - cbn [app] in Er. apply map_eq_app in Er. destruct Er as (d1 & dl & E1 & E2 & E3). exists dl. split; [symmetry; exact E3|].
      rewrite E1. f_equal. clear -E2. revert d1 E2. induction (p_done s) as [|x l IH]; intros [|y d1] H; cbn in H; try discriminate; [reflexivity|]. injection H as -> H. f_equal. apply IH, H.
    - exfalso. apply Hnone. rewrite Er. apply in_or_app. right. left. reflexivity. }
  destruct Hreq as (dl & Edl & Ecs).
  (* what is downloaded is exactly [cs1] *)
  assert (Hdone : p_done s = cs1 /\ dl = c :: cs2).
  { rewrite Ec in Ecs. assert (HN' := HN). rewrite Ec in HN'. assert (Hi' : incl cs1 (p_done s)) by (intros x Hx; apply I, Hi, Hx). clear -Ecs Hd Hi' HN'.
    revert cs1 Ecs Hi' HN'. induction (p_done s) as [|x l IH]; intros cs1 E Hi HN.
    - destruct cs1 as [|y cs1]; [|exfalso; apply (Hi y); left; reflexivity]. cbn in E. auto.
    - destruct cs1 as [|y cs1]; cbn [app] in E; injection E as E1 E2.
      + exfalso. apply Hd. left. congruence.
      + subst y. cbn [app] in HN. inversion HN as [|? ? N1 N2]; subst.
        destruct (IH ltac:(intros H; apply Hd; right; exact H) cs1 E2) as [-> ->]; auto.
        intros z Hz. destruct (Hi z ltac:(right; exact Hz)) as [<-|H]; [|exact H]. exfalso. apply N1, in_or_app. left. exact Hz. }
  destruct Hdone as [Hdone ->]. cbn [map] in Edl.
  destruct (progress cfg HM (length (p_del s)) s c (map Some cs2) eq_refl Edl F1) as (n & Hn & Eq).
  { destruct (b_ctr _ _ HB) as [C|[C _]]; [|contradiction]. pose proof (b_back _ _ HB) as Eb. apply (f_equal (@length nat)) in Eb. rewrite app_length in Eb.
    rewrite C, F2. cbn [length]. rewrite Hdone. lia. }
  { exact Hloc. }
  exists n. split; [exact Hn|]. intros m Hm. eapply held_enabled; [apply threads_inv, HX|reflexivity| |rewrite threads_back; exact R1].
  apply (threads_done s n m Hm). rewrite Eq. apply in_or_app. right. left. reflexivity.
Qed.

(** * Completion under fair schedules *)

Lemma xrun_app es a b : xrun cfg es (a ++ b) = xrun cfg (xrun cfg es a) b.
Proof. apply fold_left_app. Qed.

Definition from (f : nat -> who) (t n : nat) : list who := map f (seq t n).
Lemma from_S f t n : from f t (S n) = f t :: from f (S t) n.
Proof. reflexivity. Qed.
Lemma from_add f t n m : from f t (n + m) = from f t n ++ from f (t + n) m.
Proof. unfold from. rewrite seq_app, map_app. reflexivity. Qed.

Lemma xstep_blocked evs s : fst (xstep cfg (evs, s) Reader) = tl evs \/ xstep cfg (evs, s) Reader = (evs, s).
Proof.
  cbn [xstep]. destruct evs as [|e r]; [right; reflexivity|]. destruct e; try (left; reflexivity).
  destruct (memb c (p_present s)); [left; reflexivity|right; reflexivity].
Qed.

(** Once the reader is enabled for good, it moves at its next turn. *)
Lemma soon_enabled f evs : forall d t s, (forall m, enabled evs (threads cfg s m)) -> f (t + d) = Reader ->
  exists n, fst (xrun cfg (evs, s) (from f t n)) = tl evs.
Proof.
  induction d as [|d IH]; intros t s He Hf.
  - rewrite Nat.add_0_r in Hf. exists 1. cbn. rewrite Hf. exact (He 0).
  - destruct (f t) eqn:Ef.
    + exists 1. cbn [from seq map xrun fold_left]. rewrite Ef. exact (He 0).
    + destruct (IH (S t) (tstep cfg s)) as (n & Hn).
      * intros m. rewrite <- threads_S. apply He.
      * rewrite Nat.add_succ_comm. exact Hf.
      * exists (S n). rewrite from_S, Ef. exact Hn.
Qed.

Lemma next_worker f evs : forall d t s, f (t + d) = Worker ->
  (exists n, fst (xrun cfg (evs, s) (from f t n)) = tl evs) \/ (exists n, xrun cfg (evs, s) (from f t n) = (evs, tstep cfg s)).
Proof.
  induction d as [|d IH]; intros t s Hf.
  - rewrite Nat.add_0_r in Hf. right. exists 1. cbn. rewrite Hf. reflexivity.
  - destruct (f t) eqn:Ef.
    + destruct (xstep_blocked evs s) as [H|H]; [left; exists 1; cbn [from seq map xrun fold_left]; rewrite Ef; exact H|].
      destruct (IH (S t) s ltac:(rewrite Nat.add_succ_comm; exact Hf)) as [(n & Hn)|(n & Hn)]; [left|right]; exists (S n); rewrite from_S, Ef; unfold xrun; cbn [fold_left]; rewrite H; exact Hn.
    + right. exists 1. cbn. rewrite Ef. reflexivity.
Qed.

Lemma one_event f evs : fair f -> forall k t s, (forall m, k <= m -> enabled evs (threads cfg s m)) ->
  exists n, fst (xrun cfg (evs, s) (from f t n)) = tl evs.
Proof.
  intros Hfair. induction k as [|k IH]; intros t s He.
  - destruct (Hfair Reader t) as (m & Hm & Ef). apply (soon_enabled f evs (m - t) t s); [intros j; apply He; lia|].
    replace (t + (m - t)) with m by lia. exact Ef.
  - destruct (Hfair Worker t) as (m & Hm & Ef).
    destruct (next_worker f evs (m - t) t s) as [H|(n & Hn)]; [replace (t + (m - t)) with m by lia; exact Ef|exact H|].
    destruct (IH (t + n) (tstep cfg s)) as (n2 & Hn2); [intros j Hj; rewrite <- threads_S; apply He; lia|].
    exists (n + n2). rewrite from_add, xrun_app, Hn. exact Hn2.
Qed.

Lemma completes f : c_max cfg <> 0 -> 2 <= c_pre cfg -> fair f -> forall k evs t s, length evs <= k -> XInv evs s ->
  exists n, fst (xrun cfg (evs, s) (from f t n)) = [].
Proof.
  intros HM HP Hf. induction k as [|k IH]; intros evs t s Hk HX.
  - destruct evs; [exists 0; reflexivity|cbn in Hk; lia].
  - destruct evs as [|e r]; [exists 0; reflexivity|]. destruct (reader_advances (e :: r) s HM HP HX) as (n & _ & He).
    destruct (one_event f (e :: r) Hf n t s He) as (n1 & E1). pose proof (xrun_inv (from f t n1) _ _ HX) as HX1.
    destruct (xrun cfg (e :: r, s) (from f t n1)) as [evs1 s1] eqn:Ex. cbn [fst snd tl] in *. subst evs1.
    destruct (IH r (t + n1) s1 ltac:(cbn in Hk; lia) HX1) as (n2 & E2). exists (n1 + n2). rewrite from_add, xrun_app, Ex. exact E2.
Qed.
End X.

Lemma x_init cfg closes ps : NoDup (map fst ps) -> Forall (fun p => snd p <> []) ps -> XInv cfg (map fst ps) (epoch_script closes ps) p_init.
Proof.
  intros HN F. split.
  - exists []. split; [exact I|reflexivity].
  - auto.
  - destruct ps as [|[c is] ps]; [right; right; constructor|]. left. unfold epoch_script. eexists. split; [left; reflexivity|]. split; [reflexivity|]. split; [reflexivity|].
    inversion F as [|? ? Hi F']; subst. cbn [snd] in Hi. destruct is as [|i is]; [congruence|]. cbn [map app ready fst].
    split; [auto|]. split; [left; reflexivity|]. split; [right; exists [], (map fst ps); repeat split; [intros x []|cbn; lia]|].
    apply ready_loads; [left; reflexivity|auto|left; reflexivity|]. intros L' HL. apply ready_script; auto.
Qed.

(** * The chunks of a worker are distinct *)

Lemma give_chunks c : forall ws iv, Forall2 (fun w w' => w_chunks w' = w_chunks w \/ w_chunks w' = w_chunks w ++ [c]) ws (give c iv ws).
Proof.
  assert (Refl : forall ws, Forall2 (fun w w' => w_chunks w' = w_chunks w \/ w_chunks w' = w_chunks w ++ [c]) ws ws).
  { induction ws; constructor; auto. }
  induction ws as [|w ws IH]; intros iv; [constructor|]. cbn [give]. destruct (w_left w =? 0); [constructor; auto|].
  destruct (iv_size iv =? 0); [apply Refl|]. destruct (w_left w <? iv_size iv); constructor; auto.
Qed.

Lemma assign_chunks_distinct W nw B dl idx ivs a : NoDup idx -> length idx = length ivs -> assign W nw B dl idx ivs = Ok a -> Forall (@NoDup nat) (fst a).
Proof.
  intros HN Hl. unfold assign. destruct ((B =? 0) || ((0 <? W) && (nw =? 0))); [discriminate|]. intros E. injection E as <-. cbn [fst].
  set (ws0 := map (fun q => Wst q [] []) (quotas W nw B dl (sum (map iv_size ivs)))).
  assert (G : forall l ws seen, (forall w, In w ws -> NoDup (w_chunks w) /\ incl (w_chunks w) seen) -> NoDup (seen ++ map fst l) ->
     forall w, In w (fold_left (fun ws ci => give (fst ci) (snd ci) ws) l ws) -> NoDup (w_chunks w)).
  { clear. induction l as [|[c iv] l IH]; intros ws seen H N w Hw; [apply H, Hw|]. cbn [fold_left fst snd map] in *.
    apply (IH (give c iv ws) (seen ++ [c])); [|rewrite <- app_assoc; exact N|exact Hw].
    assert (Hc : ~ In c seen). { intros Hc. apply (NoDup_remove_2 _ _ _ N). apply in_or_app. left. exact Hc. }
    pose proof (give_chunks c ws iv) as F. clear -F H Hc. induction F as [|x y ws1 ws2 Hxy F IH]; intros z [].
    - subst z. destruct (H x ltac:(left; reflexivity)) as [N1 I1]. destruct Hxy as [-> | ->].
      + split; [exact N1|apply incl_appl, I1].
      + split; [|apply incl_app; [apply incl_appl, I1|apply incl_appr, incl_refl]].
        apply NoDup_app_intro; [exact N1|constructor; [intros []|constructor]|]. intros v Hv [<-|[]]. apply Hc, I1, Hv.
    - apply IH; auto. intros w Hw. apply H. right. exact Hw. }
  apply Forall_forall. intros l Hl'. apply in_map_iff in Hl'. destruct Hl' as (w & <- & Hw).
  apply (G (combine idx ivs) ws0 []) with (w := w); [| |exact Hw].
  - intros v Hv. apply in_map_iff in Hv. destruct Hv as (q & <- & _). cbn. split; [constructor|intros x []].
  - cbn [app]. replace (map fst (combine idx ivs)) with idx; [exact HN|]. clear -Hl. revert ivs Hl. induction idx as [|x idx IH]; intros [|y ivs] H; cbn in *; try lia; [reflexivity|f_equal; apply IH; lia].
Qed.

(** * A whole epoch *)

Fixpoint parts (shuf : shuf_t) (n epoch k : nat) (cis : list (nat * interval)) : list (nat * list nat) :=
  match cis with
  | [] => []
  | (c, iv) :: cis' => (c, shuf (seq (iv_rs iv) (iv_re iv - iv_rs iv)) n epoch k) :: parts shuf n epoch (S k) cis'
  end.
Lemma flat_parts shuf n epoch : forall cis k, flat (parts shuf n epoch k cis) = chunk_order shuf n epoch k cis.
Proof. induction cis as [|[c iv] cis IH]; intros k; [reflexivity|]. unfold flat in *. cbn [parts flat_map fst snd chunk_order]. rewrite IH. reflexivity. Qed.
Lemma parts_fst shuf n epoch : forall cs ivs k, length cs = length ivs -> map fst (parts shuf n epoch k (combine cs ivs)) = cs.
Proof. induction cs as [|c cs IH]; intros [|iv ivs] k H; cbn in *; try lia; [reflexivity|]. f_equal. apply IH. lia. Qed.
Lemma parts_ne shuf n epoch : shuf_ok shuf -> forall cs ivs k, Forall (fun iv => iv_rs iv < iv_re iv) ivs ->
  Forall (fun p => snd p <> []) (parts shuf n epoch k (combine cs ivs)).
Proof.
  intros Hs. induction cs as [|c cs IH]; intros [|iv ivs] k F; cbn [combine parts]; constructor.
  - cbn [snd]. intros E. pose proof (shuf_ok_length shuf Hs (seq (iv_rs iv) (iv_re iv - iv_rs iv)) n epoch k) as H. rewrite E, seq_length in H. inversion F; subst. cbn in H. lia.
  - apply IH. inversion F; assumption.
Qed.

Lemma epoch_events shuf env nw wrank epoch a n w closes : shuf_ok shuf -> assignment_ok n a ->
  nth_error (workers a) (global_rank env * nw + wrank) = Some w -> NoDup (fst w) ->
  exists s0 reqs s' ps, iter_fresh env nw wrank epoch a = Ok s0 /\ Run shuf s0 reqs s' /\
    reads true closes rd_init reqs = Ok (rd_init, epoch_script closes ps) /\ flat ps = stream shuf epoch w /\ map fst ps = fst w /\ Forall (fun p => snd p <> []) ps.
Proof.
  intros Hs Ha Hw HN. destruct (fresh_run shuf env nw wrank epoch a n w Hs Ha Hw) as (s0 & reqs & s' & E0 & HR & ES & _ & _ & EL & ED).
  destruct (assignment_ok_worker _ _ _ _ Ha Hw) as [Hl Hne]. destruct w as [cs ivs]. cbn [fst snd] in *.
  exists s0, reqs, s', (parts shuf (length cs) epoch 0 (combine cs ivs)). pose proof (parts_fst shuf (length cs) epoch cs ivs 0 Hl) as Pf.
  pose proof (parts_ne shuf (length cs) epoch Hs cs ivs 0 Hne) as Pn. pose proof (flat_parts shuf (length cs) epoch (combine cs ivs) 0) as Fp.
  repeat split; auto. apply reads_epoch; auto; rewrite ?Fp, ?Pf; auto.
Qed.

Lemma epoch_of_script shuf env nw wrank epoch a n w closes es : shuf_ok shuf -> assignment_ok n a ->
  nth_error (workers a) (global_rank env * nw + wrank) = Some w -> NoDup (fst w) -> epoch_of shuf env nw wrank epoch a closes es ->
  exists ps, es = epoch_script closes ps /\ map fst ps = fst w /\ NoDup (map fst ps) /\ Forall (fun p => snd p <> []) ps.
Proof.
  intros Hs Ha Hw HN (s0 & reqs & s' & st & E0 & HR & ER).
  destruct (epoch_events shuf env nw wrank epoch a n w closes Hs Ha Hw HN) as (s0' & reqs' & s'' & ps & H1 & H2 & H3 & H4 & H5 & H6).
  rewrite E0 in H1. injection H1 as <-. destruct (Run_det _ _ _ _ _ _ HR H2) as [-> _]. rewrite ER in H3. injection H3 as -> ->.
  exists ps. rewrite H5. auto.
Qed.

Lemma reads_local closes : forall xs st, rd_thread st = false -> exists st' es, reads false closes st xs = Ok (st', es) /\ rd_thread st' = false /\
  loaded es = map req_sample xs /\ Forall (fun e => match e with ELoad _ _ | EClose _ => True | _ => False end) es.
Proof.
  induction xs as [|x xs IH]; intros st Ht; [exists st, []; repeat split; auto|].
  cbn [reads]. unfold read at 1. cbn [andb bind]. destruct (same_chunk (rq_chunk x) (rd_last st)).
  - rewrite Ht, andb_false_r. cbn [bind app]. destruct (IH st Ht) as (st' & es & E & H1 & H2 & H3). rewrite E. cbn [bind].
    exists st', (ELoad (rq_chunk x) (rq_index x) :: es). split; [reflexivity|]. split; [exact H1|]. split; [cbn; f_equal; exact H2|]. constructor; auto.
  - cbn [rd_thread]. rewrite Ht, andb_false_r. cbn [bind app].
    destruct (IH {| rd_thread := false; rd_queued := rd_queued st; rd_last := Some (rq_chunk x) |} eq_refl) as (st' & es & E & H1 & H2 & H3). rewrite E. cbn [bind].
    eexists; eexists. split; [reflexivity|]. split; [exact H1|].
    assert (C : exists cl, match rd_last st with Some l => if closes then [EClose l] else [] | None => [] end = map EClose cl).
    { destruct (rd_last st) as [l|]; [|exists []; reflexivity]. destruct closes; [exists [l]|exists []]; reflexivity. }
    destruct C as (cl & ->). split.
    + unfold loaded in *. cbn [flat_map app map]. f_equal. rewrite flat_map_app, H2. rewrite flat_map_nil; [reflexivity|].
      intros y Hy. apply in_map_iff in Hy. destruct Hy as (z & <- & _). reflexivity.
    + constructor; [exact I|]. apply Forall_app. split; [|exact H3]. apply Forall_forall. intros y Hy. apply in_map_iff in Hy. destruct Hy as (z & <- & _). exact I.
Qed.
