From Verif Require Import Base Config_Proofs Prefetch_Model Prefetch_Spec Prefetch_Proofs.
Local Ltac Zify.zify_post_hook ::= idtac.

Lemma memb_In c l : memb c l = true <-> In c l.
Proof.
  unfold memb. rewrite existsb_exists. split; [intros (x & H & E); apply Nat.eqb_eq in E; subst; exact H|].
  intros H. exists c. split; [exact H|apply Nat.eqb_refl].
Qed.
Lemma memb_not_In c l : memb c l = false <-> ~ In c l.
Proof. rewrite <- memb_In. destruct (memb c l); intuition congruence. Qed.

Definition minus (l gone : list nat) : list nat := filter (fun c => negb (memb c gone)) l.

Lemma minus_del l gone c : del_file c (minus l gone) = minus l (gone ++ [c]).
Proof.
  unfold del_file, minus. induction l as [|x l IH]; [reflexivity|]. cbn [filter].
  assert (E : memb x (gone ++ [c]) = memb x gone || (x =? c)).
  { unfold memb. rewrite existsb_app. cbn. rewrite orb_false_r. reflexivity. }
  rewrite E. destruct (memb x gone); cbn [negb orb]; [exact IH|]. cbn [filter]. destruct (x =? c); cbn [negb]; rewrite IH; reflexivity.
Qed.
Lemma minus_add l gone c : ~ In c l -> ~ In c gone -> add_file c (minus l gone) = minus (l ++ [c]) gone.
Proof.
  intros H1 H2. unfold minus. rewrite filter_app. cbn [filter]. apply memb_not_In in H2. rewrite H2. cbn [negb].
  unfold add_file. destruct (memb c (filter _ l)) eqn:E; [|reflexivity].
  apply memb_In in E. apply filter_In in E. tauto.
Qed.
Lemma minus_length l gone : NoDup l -> NoDup gone -> incl gone l -> length (minus l gone) + length gone = length l.
Proof.
  intros N1 N2 I. assert (P : Permutation l (gone ++ minus l gone)).
  { apply NoDup_Permutation; [exact N1| |].
    - apply NoDup_app_intro; [exact N2|apply NoDup_filter; exact N1|]. intros x Hx Hm. apply filter_In in Hm. destruct Hm as [_ Hm].
      apply memb_In in Hx. rewrite Hx in Hm. discriminate.
    - intros x. rewrite in_app_iff. unfold minus. rewrite filter_In. split.
      + intros Hx. destruct (memb x gone) eqn:E; [left; apply memb_In; exact E|right; auto].
      + intros [Hx|[Hx _]]; auto. }
  apply Permutation_length in P. rewrite app_length in P. lia.
Qed.
Lemma sum_bound (f : nat -> nat) k : (forall c, f c <= k) -> forall l, sum (map f l) <= length l * k.
Proof. intros H. induction l as [|x l IH]; cbn; [lia|]. specialize (H x). lia. Qed.

Section B.
Context (cfg : pcfg) (smax : nat) (Hsize : forall c, c_size cfg c <= smax).
Context (HM : c_max cfg <> 0).

Record WB (s : pstate) : Prop := {
  w_req : NoDup (p_req s);
  w_back : NoDup (p_back s);
  w_incl : incl (p_back s) (p_done s);
  w_force : p_force s = [] /\ p_forced s = [];
  w_locks : forall c, p_locks s c = if memb c (p_done s) && negb (memb c (p_back s)) then 1 else 0;
  w_present : p_present s = minus (p_done s) (p_tried s)
}.

Lemma wb_done s : Book cfg s -> WB s -> NoDup (p_done s).
Proof.
  intros HB HW. destruct (b_req _ _ HB) as (mid & _ & E). pose proof (w_req s HW) as N. rewrite E in N.
  apply NoDup_app_l in N. apply NoDup_map_inv in N. exact N.
Qed.
Lemma wb_counts s : Book cfg s -> WB s -> length (p_present s) + length (p_tried s) = length (p_done s) /\
  (p_ctr s = Z.of_nat (length (p_done s)) - Z.of_nat (length (p_tried s)) - Z.of_nat (length (p_tbd s)))%Z.
Proof.
  intros HB HW. split.
  - rewrite (w_present s HW). pose proof (b_back _ _ HB) as E. apply minus_length.
    + apply wb_done; assumption.
    + pose proof (w_back s HW) as N. rewrite <- E, <- app_assoc in N. apply NoDup_app_l in N. exact N.
    + intros x Hx. apply (w_incl s HW). rewrite <- E, !in_app_iff. auto.
  - destruct (b_ctr _ _ HB) as [C|[C _]]; [|congruence]. destruct (w_force s HW) as [_ F]. rewrite C, F, app_length. cbn [length]. lia.
Qed.

Lemma delete_loop_minus ctr locks done : forall tbd tried tbd' present' tried', (forall c, In c tbd -> locks c = 0) ->
  delete_loop cfg ctr locks tbd (minus done tried) tried = (tbd', present', tried') ->
  present' = minus done tried' /\ (tbd' = [] \/ can_delete_chunk cfg ctr present' = false).
Proof.
  induction tbd as [|c tbd IH]; intros tried tbd' present' tried' HL E; cbn [delete_loop] in E.
  - injection E as <- <- <-. auto.
  - destruct (can_delete_chunk cfg ctr (minus done tried)) eqn:Ec.
    + rewrite (HL c (or_introl eq_refl)) in E. cbn [Nat.eqb] in E. rewrite minus_del in E. apply IH in E; [exact E|].
      intros x Hx. apply HL. right. exact Hx.
    + injection E as <- <- <-. auto.
Qed.

Definition bounded (s : pstate) : Prop := (Z.of_nat (folder_size cfg (p_present s)) <= Z.of_nat (c_max cfg) + p_ctr s * Z.of_nat smax)%Z.
(** With deletion as soon as processed and at most two chunks in advance nothing is kept. *)
Definition tight (s : pstate) : Prop := p_tbd s = [].

Lemma ctr_nonneg s : Book cfg s -> WB s -> (0 <= p_ctr s)%Z.
Proof.
  intros HB HW. destruct (wb_counts s HB HW) as [E1 E2]. pose proof (b_back _ _ HB) as E.
  assert (L : length (p_back s) <= length (p_done s)).
  { apply NoDup_incl_length; [apply (w_back s HW)|apply (w_incl s HW)]. }
  rewrite <- E, !app_length in L. lia.
Qed.

Lemma wb_maybe_delete s l : Book cfg s -> WB s -> WB (maybe_delete cfg s l) /\
  (c_when_processed cfg = false -> bounded s -> bounded (maybe_delete cfg s l)) /\
  (c_when_processed cfg = true -> c_pre cfg <= 2 -> tight s -> tight (maybe_delete cfg s l)).
Proof.
  intros HB HW. pose proof (ctr_nonneg s HB HW) as Hnn. pose proof HW as [W1 W2 W3 W4 W5 W6]. unfold maybe_delete.
  destruct (p_del s) as [|c rest] eqn:Ed.
  { split; [split; assumption|]. split; [intros _ H; exact H|intros _ _ H; exact H]. }
  destruct (wb_counts s HB HW) as [E1 E2]. pose proof (b_back _ _ HB) as E. rewrite Ed in E.
  assert (HL : forall x, In x (p_tbd s ++ [c]) -> p_locks s x = 0).
  { intros x Hx. rewrite W5. assert (G : In x (p_back s)). { rewrite <- E, !in_app_iff. rewrite in_app_iff in Hx. cbn in *. tauto. }
    apply memb_In in G. rewrite G, andb_false_r. reflexivity. }
  destruct (delete_loop cfg (p_ctr s) (p_locks s) (p_tbd s ++ [c]) (p_present s) (p_tried s)) as [[tbd present] tried] eqn:ED.
  pose proof (delete_loop_app _ _ _ _ _ _ _ _ _ ED) as Happ. rewrite W6 in ED.
  destruct (delete_loop_minus _ _ _ _ _ _ _ _ HL ED) as [Hp Hend].
  assert (W' : WB {| p_dl := p_dl s; p_del := rest; p_force := p_force s; p_tbd := tbd; p_ctr := p_ctr s - 1; p_loc := l;
         p_present := present; p_locks := p_locks s; p_req := p_req s; p_done := p_done s; p_forced := p_forced s;
         p_back := p_back s; p_tried := tried |}) by (split; assumption).
  split; [exact W'|]. split.
  - intros Hw Hb. unfold bounded in *. cbn [p_present p_ctr].
    assert (L : length (p_back s) <= length (p_done s)) by (apply NoDup_incl_length; assumption).
    rewrite <- E, !app_length in L. cbn [length] in L.
    destruct Hend as [->|Hc].
    + rewrite app_nil_r in Happ. assert (Hlen : length (minus (p_done s) tried) + length tried = length (p_done s)).
      { apply minus_length; [apply wb_done; assumption| |].
        - rewrite Happ. rewrite <- E in W2. cbn [app] in W2. change (c :: rest) with ([c] ++ rest) in W2.
          rewrite app_assoc in W2. apply NoDup_app_l in W2. rewrite <- app_assoc in W2. exact W2.
        - intros x Hx. apply W3. rewrite <- E. rewrite Happ in Hx. rewrite !in_app_iff in *. cbn in *. tauto. }
      pose proof (sum_bound (c_size cfg) smax Hsize (minus (p_done s) tried)) as SB. rewrite Hp. unfold folder_size.
      assert (LT : length tried = length (p_tried s) + length (p_tbd s) + 1). { rewrite Happ, !app_length. cbn. lia. }
      assert (LE : length (minus (p_done s) tried) = length (p_done s) - length (p_tried s) - length (p_tbd s) - 1) by lia.
      assert (LZ : (Z.of_nat (length (minus (p_done s) tried)) = p_ctr s - 1)%Z) by lia.
      assert (SB' : (Z.of_nat (sum (map (c_size cfg) (minus (p_done s) tried))) <= (p_ctr s - 1) * Z.of_nat smax)%Z) by (rewrite <- LZ; lia).
      lia.
    + unfold can_delete_chunk in Hc. rewrite Hw in Hc. apply Nat.leb_gt in Hc.
      assert (G : (0 <= (p_ctr s - 1) * Z.of_nat smax)%Z) by (apply Z.mul_nonneg_nonneg; lia). lia.
  - intros Hw Hpre Ht. unfold tight in *. cbn [p_tbd]. destruct Hend as [->|Hc]; [reflexivity|exfalso].
    unfold can_delete_chunk in Hc. rewrite Hw in Hc. apply Z.leb_gt in Hc.
    assert (L : length (p_back s) <= length (p_done s)) by (apply NoDup_incl_length; assumption).
    rewrite <- E, !app_length in L. cbn [length] in L. lia.
Qed.

Definition ok_size (s : pstate) : Prop :=
  (c_when_processed cfg = false -> bounded s) /\ (c_when_processed cfg = true -> c_pre cfg <= 2 -> tight s).

Lemma wb_tstep s : Book cfg s -> WB s -> ok_size s -> WB (tstep cfg s) /\ ok_size (tstep cfg s).
Proof.
  intros HB HW [O1 O2]. pose proof HW as [W1 W2 W3 W4 W5 W6]. unfold tstep. destruct (p_loc s) eqn:El.
  - destruct W4 as [F1 F2]. rewrite F1. split; [split; cbn [goto p_req p_done p_force p_forced p_back p_locks p_present p_tried]; auto|split; assumption].
  - destruct (p_ctr s <? Z.of_nat (c_pre cfg))%Z.
    + destruct (p_dl s) as [|[c|] rest] eqn:Ed.
      * split; [split; assumption|split; assumption].
      * assert (Hn : ~ In c (p_done s)).
        { destruct (b_req _ _ HB) as (mid & _ & E). rewrite E, Ed in W1. intros Hin. rewrite app_assoc in W1.
          apply NoDup_remove_2 in W1. apply W1. rewrite !in_app_iff. left. left. apply in_map. exact Hin. }
        assert (Hb : ~ In c (p_back s)) by (intros G; apply Hn; apply W3; exact G).
        split.
        -- split; cbn [p_req p_done p_force p_forced p_back p_locks p_present p_tried]; try assumption.
           ++ intros x Hx. apply in_or_app. left. apply W3. exact Hx.
           ++ intros x. unfold set_nat. destruct (Nat.eqb_spec x c) as [->|Hx].
              ** rewrite W5. assert (M1 : memb c (p_done s) = false) by (apply memb_not_In; exact Hn).
                 assert (M2 : memb c (p_back s) = false) by (apply memb_not_In; exact Hb).
                 assert (M3 : memb c (p_done s ++ [c]) = true) by (apply memb_In; apply in_or_app; right; left; reflexivity).
                 rewrite M1, M2, M3. reflexivity.
              ** rewrite W5. assert (M : memb x (p_done s ++ [c]) = memb x (p_done s)).
                 { unfold memb. rewrite existsb_app. cbn. replace (x =? c) with false by lia. rewrite !orb_false_r. reflexivity. }
                 rewrite M. reflexivity.
           ++ rewrite W6. apply minus_add; [exact Hn|]. intros G. apply Hb. rewrite <- (b_back _ _ HB), !in_app_iff. auto.
        -- split; [|intros; apply O2; assumption]. intros Hw. specialize (O1 Hw). unfold bounded in *. cbn [p_present p_ctr].
           rewrite W6, minus_add; [|exact Hn|intros G; apply Hb; rewrite <- (b_back _ _ HB), !in_app_iff; auto].
           rewrite W6 in O1. unfold minus. rewrite filter_app. fold (minus (p_done s) (p_tried s)). cbn [filter].
           specialize (Hsize c). unfold folder_size in *. rewrite map_app, sum_app.
           destruct (negb (memb c (p_tried s))); cbn [map sum]; lia.
      * split; [split; assumption|split; assumption].
    + split; [split; assumption|split; assumption].
  - replace (c_max cfg =? 0) with false by lia. destruct (wb_maybe_delete s Top HB HW) as (A & B & C). split; [exact A|]. split; auto.
  - replace (c_max cfg =? 0) with false by lia. destruct (wb_maybe_delete s Exited HB HW) as (A & B & C). split; [exact A|]. split; auto.
  - split; [exact HW|split; assumption].
Qed.

Lemma wb_run : forall acts s, Book cfg s -> WB s -> ok_size s -> well_behaved cfg s acts ->
  let s' := prun cfg s acts in Book cfg s' /\ WB s' /\ ok_size s'.
Proof.
  induction acts as [|a acts IH]; intros s HB HW HO Hw; [cbn; auto|]. cbn [well_behaved] in Hw. destruct Hw as [Ha Hw].
  cbn. pose proof HW as [W1 W2 W3 W4 W5 W6].
  assert (G : WB (pstep cfg s a) /\ ok_size (pstep cfg s a)).
  { destruct a.
    - split; [|split; apply HO]. split; cbn [pstep rstep p_req p_done p_force p_forced p_back p_locks p_present p_tried]; rewrite ?app_nil_r; assumption.
    - destruct Ha as [H1 H2]. split; [|split; apply HO]. split; cbn [pstep rstep p_req p_done p_force p_forced p_back p_locks p_present p_tried]; rewrite ?app_nil_r; try assumption.
      + apply NoDup_app_intro; [exact W2|constructor; [intros []|constructor]|]. intros x Hx [->|[]]. contradiction.
      + intros x Hx. apply in_app_iff in Hx. destruct Hx as [Hx|[->|[]]]; auto.
      + intros x. assert (M : memb x (p_back s ++ [c]) = memb x (p_back s) || (x =? c)).
        { unfold memb. rewrite existsb_app. cbn. rewrite orb_false_r. reflexivity. }
        unfold set_nat. rewrite M. destruct (Nat.eqb_spec x c) as [Ex|Hx]; [rewrite Ex in *|].
        * rewrite W5, orb_true_r, andb_false_r. destruct (memb c (p_done s) && negb (memb c (p_back s))); reflexivity.
        * rewrite W5, orb_false_r. reflexivity.
    - split; [|split; apply HO]. split; cbn [pstep rstep p_req p_done p_force p_forced p_back p_locks p_present p_tried]; rewrite ?app_nil_r; try assumption.
      apply NoDup_app_intro; [exact W1|constructor; [intros []|constructor]|]. intros x Hx [<-|[]]. contradiction.
    - destruct Ha.
    - apply wb_tstep; assumption. }
  destruct G as [G1 G2]. apply IH; [apply book_step; exact HB|exact G1|exact G2|exact Hw].
Qed.

Lemma wb_init : WB p_init /\ ok_size p_init.
Proof.
  split.
  - split; cbn; try constructor; auto. intros x [].
  - split; [|reflexivity]. intros _. unfold bounded. cbn. lia.
Qed.

(** The folder never holds more than the limit plus the chunks downloaded in advance. *)
Lemma folder_bound acts : well_behaved cfg p_init acts ->
  (c_when_processed cfg = false -> folder_size cfg (p_present (prun cfg p_init acts)) <= c_max cfg + c_pre cfg * smax) /\
  (c_when_processed cfg = true -> c_pre cfg <= 2 -> folder_size cfg (p_present (prun cfg p_init acts)) <= c_pre cfg * smax).
Proof.
  intros Hw. destruct wb_init as [W0 O0]. destruct (wb_run acts p_init (book_init cfg) W0 O0 Hw) as (HB & HW & O1 & O2).
  set (s := prun cfg p_init acts) in *. destruct (wb_counts s HB HW) as [E1 E2]. pose proof (b_pre _ _ HB) as P. rewrite app_length in P.
  pose proof (ctr_nonneg s HB HW) as Hnn. split.
  - intros Hm. specialize (O1 Hm). unfold bounded in O1. assert (p_ctr s <= Z.of_nat (c_pre cfg))%Z by lia. nia.
  - intros Hm Hp. specialize (O2 Hm Hp). unfold tight in O2. rewrite O2 in *. cbn [length] in *.
    pose proof (sum_bound (c_size cfg) smax Hsize (p_present s)) as SB. unfold folder_size.
    assert (length (p_present s) <= c_pre cfg) by lia. nia.
Qed.
End B.

Lemma well_behaved_app cfg : forall a b s, well_behaved cfg s (a ++ b) <-> well_behaved cfg s a /\ well_behaved cfg (prun cfg s a) b.
Proof. induction a as [|x a IH]; intros b s; cbn [app well_behaved]; [cbn; tauto|]. rewrite IH. cbn [prun fold_left]. unfold prun. tauto. Qed.
Lemma prun_app cfg a b s : prun cfg s (a ++ b) = prun cfg (prun cfg s a) b.
Proof. unfold prun. apply fold_left_app. Qed.

(** ** A reader that is faster than the thread, deletion as soon as processed, four chunks in advance *)
Definition fast_cfg : pcfg := {| c_max := 1; c_pre := 4; c_when_processed := true; c_size := fun _ => 1 |}.
Definition fast_start (n : nat) : list pact := [Request (seq 0 (S n)); Thread; Thread; Thread].
Definition fast_round (i : nat) : list pact := [Thread; Thread; GiveBack i; Thread].
Definition fast_trace (n : nat) : list pact := fast_start n ++ flat_map fast_round (seq 0 n).

Definition K (n i : nat) (s : pstate) : Prop :=
  p_loc s = Top /\ p_ctr s = 1%Z /\ p_force s = [] /\ p_del s = [] /\ p_dl s = map Some (seq (S i) (n - i)) /\ p_tbd s = seq 0 i /\
  p_present s = seq 0 (S i) /\ p_done s = seq 0 (S i) /\ p_back s = seq 0 i.

Lemma add_file_new i : add_file (S i) (seq 0 (S i)) = seq 0 (S (S i)).
Proof.
  unfold add_file. destruct (memb (S i) (seq 0 (S i))) eqn:E; [apply memb_In, in_seq in E; lia|].
  rewrite (seq_S (S i) 0). reflexivity.
Qed.

Lemma fast_round_ok n i s : i < n -> K n i s -> well_behaved fast_cfg s (fast_round i) /\ K n (S i) (prun fast_cfg s (fast_round i)).
Proof.
  intros Hi (L & C & F & D & Q & T & P & G & B).
  assert (E1 : tstep fast_cfg s = goto s AfterForce) by (unfold tstep; rewrite L, F; reflexivity).
  set (s1 := goto s AfterForce) in *.
  assert (E2 : exists s2, tstep fast_cfg s1 = s2 /\ p_loc s2 = AfterDownload /\ p_ctr s2 = 2%Z /\ p_force s2 = [] /\ p_del s2 = [] /\
    p_dl s2 = map Some (seq (S (S i)) (n - S i)) /\ p_tbd s2 = seq 0 i /\ p_present s2 = seq 0 (S (S i)) /\ p_done s2 = seq 0 (S (S i)) /\ p_back s2 = seq 0 i).
  { eexists. split; [reflexivity|]. unfold tstep. cbn [s1 goto p_loc p_ctr p_dl]. rewrite C, Q. replace (n - i) with (S (n - S i)) by lia.
    cbn [seq map]. cbn [p_loc p_ctr p_force p_del p_dl p_tbd p_present p_done p_back fast_cfg c_pre]. change (1 <? Z.of_nat 4)%Z with true. cbv iota.
    cbn [p_loc p_ctr p_force p_del p_dl p_tbd p_present p_done p_back].
    unfold s1. cbn [goto p_loc p_ctr p_force p_del p_dl p_tbd p_present p_done p_back]. rewrite ?C, P, G, add_file_new. repeat split; auto. symmetry. apply (seq_S (S i) 0). }
  destruct E2 as (s2 & E2 & L2 & C2 & F2 & D2 & Q2 & T2 & P2 & G2 & B2).
  unfold fast_round. cbn [well_behaved]. cbn [pstep]. rewrite E1, E2. split.
  - split; [exact I|]. split; [exact I|]. split; [|auto]. rewrite G2, B2. split; [apply in_seq; lia|]. intros H. apply in_seq in H. lia.
  - cbn [prun fold_left pstep]. rewrite E1, E2. set (s3 := rstep s2 [] [i] [] _). unfold tstep.
    replace (p_loc s3) with AfterDownload by (symmetry; exact L2). cbn [fast_cfg c_max Nat.eqb]. fold fast_cfg.
    assert (D3 : p_del s3 = [i]) by (cbn [s3 rstep p_del]; rewrite D2; reflexivity).
    assert (C3 : p_ctr s3 = 2%Z) by exact C2. unfold maybe_delete. rewrite D3.
    assert (E3 : forall present tried, delete_loop fast_cfg (p_ctr s3) (p_locks s3) (p_tbd s3 ++ [i]) present tried = (seq 0 (S i), present, tried)).
    { intros present tried. replace (p_tbd s3 ++ [i]) with (seq 0 (S i)) by (cbn [s3 rstep p_tbd]; rewrite T2, seq_S; reflexivity).
      cbn [seq delete_loop]. unfold can_delete_chunk. rewrite C3. reflexivity. }
    rewrite E3. unfold K. cbn [p_loc p_ctr p_force p_del p_dl p_tbd p_present p_done p_back]. rewrite C3.
    cbn [s3 rstep p_force p_dl p_present p_done p_back]. rewrite F2, Q2, P2, G2, B2, app_nil_r. repeat split; auto; try (rewrite app_nil_r; reflexivity); symmetry; apply seq_S.
Qed.

Lemma fast_rounds n : forall k i s, i + k <= n -> K n i s ->
  well_behaved fast_cfg s (flat_map fast_round (seq i k)) /\ K n (i + k) (prun fast_cfg s (flat_map fast_round (seq i k))).
Proof.
  induction k as [|k IH]; intros i s Hi HK.
  - rewrite Nat.add_0_r. cbn. auto.
  - cbn [seq flat_map]. destruct (fast_round_ok n i s ltac:(lia) HK) as [W1 K1]. rewrite well_behaved_app, prun_app.
    destruct (IH (S i) _ ltac:(lia) K1) as [W2 K2]. split; [auto|]. replace (i + S k) with (S i + k) by lia. exact K2.
Qed.

Lemma fast_start_ok n : well_behaved fast_cfg p_init (fast_start n) /\ K n 0 (prun fast_cfg p_init (fast_start n)).
Proof.
  split.
  - cbn [fast_start well_behaved]. split; [|auto]. cbn [p_init p_req app]. apply FinFun.Injective_map_NoDup; [intros x y E; congruence|apply seq_NoDup].
  - unfold K. cbn. rewrite Nat.sub_0_r. repeat split.
Qed.

Lemma fast_trace_grows n : well_behaved fast_cfg p_init (fast_trace n) /\
  folder_size fast_cfg (p_present (prun fast_cfg p_init (fast_trace n))) = S n /\
  p_back (prun fast_cfg p_init (fast_trace n)) = seq 0 n.
Proof.
  destruct (fast_start_ok n) as [W1 K1]. unfold fast_trace. rewrite well_behaved_app, prun_app.
  destruct (fast_rounds n n 0 _ ltac:(lia) K1) as [W2 K2]. split; [auto|].
  destruct K2 as (_ & _ & _ & _ & _ & _ & P & _ & B). rewrite P, B. split; [|reflexivity]. unfold folder_size. cbn [fast_cfg c_size Nat.add].
  rewrite sum_map_const, seq_length. lia.
Qed.

(** ** One slow download: a forced download is counted twice and given back once *)
Definition drift_cfg : pcfg := {| c_max := 100; c_pre := 2; c_when_processed := false; c_size := fun _ => 1 |}.
(** The reader gives up waiting for chunk 0 while the thread is downloading it. *)
Definition drift_start (m : nat) : list pact := [Request (seq 0 (S m)); Thread; Force 0; Thread; Thread; Thread; Thread; Thread].
(** From then on: wait for chunk [k] in vain, force it, read it, give back the one before. *)
Definition drift_round (k : nat) : list pact := [Force k; Thread; Thread; GiveBack (pred k); Thread].
Definition drift_trace (m n : nat) : list pact := drift_start m ++ flat_map drift_round (seq 1 n).

Definition D (m k : nat) (s : pstate) : Prop :=
  p_loc s = Top /\ p_ctr s = 2%Z /\ p_force s = [] /\ p_del s = [] /\ p_dl s = map Some (seq 1 m) /\ p_done s = [0] /\
  p_back s = seq 0 k /\ p_forced s = seq 0 (S k) /\ forall x, In x (p_present s) -> x <= k.

Lemma delete_loop_sub cfg ctr locks : forall tbd present tried tbd' present' tried' x,
  delete_loop cfg ctr locks tbd present tried = (tbd', present', tried') -> In x present' -> In x present.
Proof.
  induction tbd as [|c tbd IH]; intros present tried tbd' present' tried' x E Hx; cbn [delete_loop] in E.
  - injection E as <- <- <-. exact Hx.
  - destruct (can_delete_chunk cfg ctr present).
    + specialize (IH _ _ _ _ _ x E Hx). destruct (locks c =? 0); [|exact IH]. apply In_del_file in IH. apply IH.
    + injection E as <- <- <-. exact Hx.
Qed.

Lemma drift_round_ok m k s : D m k s -> D m (S k) (prun drift_cfg s (drift_round (S k))).
Proof.
  intros (L & C & F & De & Q & G & B & Fo & P). unfold drift_round. cbn [prun fold_left pstep pred].
  set (s1 := rstep s [] [] [S k] (p_locks s)).
  assert (E2 : exists s2, tstep drift_cfg s1 = s2 /\ p_loc s2 = AfterForce /\ p_ctr s2 = 3%Z /\ p_force s2 = [] /\ p_del s2 = [] /\ p_dl s2 = map Some (seq 1 m) /\
     p_done s2 = [0] /\ p_back s2 = seq 0 k /\ p_forced s2 = seq 0 (S (S k)) /\ forall x, In x (p_present s2) -> x <= S k).
  { eexists. split; [reflexivity|]. unfold tstep. replace (p_loc s1) with Top by (symmetry; exact L).
    replace (p_force s1) with [S k] by (cbn [s1 rstep p_force]; rewrite F; reflexivity).
    cbn [p_loc p_ctr p_force p_del p_dl p_tbd p_present p_done p_back p_forced s1 rstep]. rewrite C, De, Q, G, B, Fo, !app_nil_r.
    repeat split; auto. 
    - symmetry. apply (seq_S (S k) 0).
    - intros x Hx. apply In_add_file in Hx. destruct Hx as [->|Hx]; [lia|]. specialize (P x Hx). lia. }
  destruct E2 as (s2 & -> & L2 & C2 & F2 & D2 & Q2 & G2 & B2 & Fo2 & P2).
  assert (E3 : tstep drift_cfg s2 = goto s2 AfterDownload) by (unfold tstep; rewrite L2, C2; reflexivity). rewrite E3.
  set (s4 := rstep (goto s2 AfterDownload) [] [k] [] _).
  assert (E5 : tstep drift_cfg s4 = maybe_delete drift_cfg s4 Top) by reflexivity. rewrite E5. unfold maybe_delete.
  replace (p_del s4) with [k] by (cbn [s4 rstep goto p_del]; rewrite D2; reflexivity).
  destruct (delete_loop drift_cfg (p_ctr s4) (p_locks s4) (p_tbd s4 ++ [k]) (p_present s4) (p_tried s4)) as [[tbd present] tried] eqn:ED.
  unfold D. cbn [p_loc p_ctr p_force p_del p_dl p_tbd p_present p_done p_back p_forced].
  cbn [s4 rstep goto p_loc p_ctr p_force p_del p_dl p_tbd p_present p_done p_back p_forced]. rewrite C2, F2, Q2, G2, B2, Fo2, !app_nil_r.
  repeat split; auto.
  - symmetry. apply (seq_S k 0).
  - intros x Hx. apply P2. exact (delete_loop_sub _ _ _ _ _ _ _ _ _ x ED Hx).
Qed.

Lemma drift_rounds m : forall n k s, D m k s -> D m (k + n) (prun drift_cfg s (flat_map drift_round (seq (S k) n))).
Proof.
  induction n as [|n IH]; intros k s HD; [rewrite Nat.add_0_r; exact HD|]. cbn [seq flat_map]. rewrite prun_app.
  replace (k + S n) with (S k + n) by lia. apply IH. apply drift_round_ok. exact HD.
Qed.

Lemma drift_start_ok m : D m 0 (prun drift_cfg p_init (drift_start m)).
Proof. unfold D. cbn. rewrite !app_nil_r. repeat split; auto. intros x [<-|[]]. lia. Qed.

Lemma drift_facts m n : let s := prun drift_cfg p_init (drift_trace m n) in p_force s = [] /\ p_dl s = map Some (seq 1 m).
Proof.
  cbv zeta. unfold drift_trace. rewrite prun_app. pose proof (drift_rounds m n 0 _ (drift_start_ok m)) as HD.
  destruct HD as (L & C & F & De & Q & _). split; assumption.
Qed.

Lemma drift_stalls m n j : let s := prun drift_cfg p_init (drift_trace m n) in
  p_done (threads drift_cfg s j) = [0] /\ p_back s = seq 0 n /\ ~ In (S n) (p_present (threads drift_cfg s j)).
Proof.
  cbv zeta. unfold drift_trace. rewrite prun_app. pose proof (drift_rounds m n 0 _ (drift_start_ok m)) as HD. cbn [Nat.add] in HD.
  destruct HD as (L & C & F & De & Q & G & B & Fo & P).
  destruct (stalled drift_cfg j _ ltac:(rewrite C; cbn; lia) F (or_introl De) (or_introl L)) as [S1 S2].
  rewrite S1, S2. split; [exact G|]. split; [exact B|]. intros H. specialize (P _ H). lia.
Qed.

(** The thread only leaves its loop when the reader has ended. *)
Lemma ended_only_when_told cfg : forall acts s, (p_loc s = Last \/ p_loc s = Exited -> In None (p_req s)) -> incl (p_dl s) (p_req s) ->
  let s' := prun cfg s acts in p_loc s' = Last \/ p_loc s' = Exited -> In None (p_req s').
Proof.
  induction acts as [|a acts IH]; intros s H1 H2; [exact H1|]. cbn [prun fold_left]. apply IH.
  - destruct a; cbn [pstep rstep p_loc p_req]; try (intros H; apply in_or_app; left; apply H1; exact H).
    unfold tstep. destruct (p_loc s) eqn:El.
    + destruct (p_force s); cbn; intros [H|H]; discriminate.
    + destruct (p_ctr s <? Z.of_nat (c_pre cfg))%Z; [|cbn; intros [H|H]; discriminate].
      destruct (p_dl s) as [|[c|] rest]; cbn; try (intros [H|H]; discriminate). intros _. apply H2. left. reflexivity.
    + destruct (c_max cfg =? 0); [cbn; intros [H|H]; discriminate|]. destruct (maybe_delete_ctr cfg s Top) as (_ & _ & _ & M & _). rewrite M. intros [H|H]; discriminate.
    + intros _. destruct (c_max cfg =? 0); [apply H1; auto|]. destruct (maybe_delete_ctr cfg s Exited) as (_ & _ & _ & _ & M & _). rewrite M. apply H1. auto.
    + intros _. apply H1. auto.
  - destruct a; cbn [pstep rstep p_dl p_req]; try (apply incl_app; [apply incl_appl; exact H2|apply incl_appr; apply incl_refl]).
    unfold tstep. destruct (p_loc s) eqn:El.
    + destruct (p_force s); exact H2.
    + destruct (p_ctr s <? Z.of_nat (c_pre cfg))%Z; [|exact H2]. destruct (p_dl s) as [|[c|] rest] eqn:Ed; cbn [goto p_dl p_req]; rewrite ?Ed; try exact H2;
        intros x Hx; apply H2; right; exact Hx.
    + destruct (c_max cfg =? 0); [exact H2|]. destruct (maybe_delete_ctr cfg s Top) as (M1 & _ & _ & _ & M2 & _). rewrite M1, M2. exact H2.
    + destruct (c_max cfg =? 0); [exact H2|]. destruct (maybe_delete_ctr cfg s Exited) as (M1 & _ & _ & _ & M2 & _). rewrite M1, M2. exact H2.
    + exact H2.
Qed.

Lemma running cfg acts : let s := prun cfg p_init acts in ~ In None (p_req s) -> p_loc s = Top \/ p_loc s = AfterForce \/ p_loc s = AfterDownload.
Proof.
  cbv zeta. intros H. pose proof (ended_only_when_told cfg acts p_init) as E. cbv zeta in E.
  destruct (p_loc (prun cfg p_init acts)); auto; exfalso; apply H; apply E; auto; try (intros [G|G]; discriminate); intros x [].
Qed.
