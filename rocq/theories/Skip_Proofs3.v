(** The simulation of one rank is exact if no batch needs more than two chunks. *)
From Verif Require Import Base Assign_Model Skip_Model Skip_Spec Skip_Proofs.
Local Ltac Zify.zify_post_hook ::= idtac.

(** [C', S'] is what is left of the chunks [C] with sizes [S] after [D] samples. *)
Definition at_ (C S : list nat) (D : nat) (C' S' : list nat) : Prop :=
  exists pc ps S1, C = pc ++ C' /\ S = ps ++ S1 /\ length pc = length ps /\
    ((S1 = [] /\ S' = [] /\ D = sum ps) \/
     (exists x0 d rest, S1 = x0 :: rest /\ S' = (x0 - d) :: rest /\ d < x0 /\ D = sum ps + d)).

(** Chunk [c] ends after [E] samples. *)
Definition ends_at (C S : list nat) (c E : nat) : Prop :=
  exists pc ps x qc qs, C = pc ++ c :: qc /\ S = ps ++ x :: qs /\ length pc = length ps /\ E = sum ps + x.

Definition fat (B : nat) (S : list nat) : Prop := forall a x b, S = a ++ x :: b -> a <> [] -> b <> [] -> B <= x.

Lemma at_0 C S : length C = length S -> Forall (fun x => 1 <= x) S -> at_ C S 0 C S.
Proof.
  intros L F. exists [], [], S. repeat (apply conj; [reflexivity|]). destruct S as [|x S]; [left; auto|right].
  inversion F; subst. exists x, 0, S. rewrite Nat.sub_0_r. cbn. auto.
Qed.

Lemma at_le C S D C' S' : at_ C S D C' S' -> D <= sum S.
Proof.
  intros (pc & ps & S1 & -> & -> & L & [(-> & -> & ->)|(x0 & d & rest & -> & -> & H & ->)]); rewrite sum_app; cbn [sum]; lia.
Qed.

Lemma at_nil C S D C' : at_ C S D C' [] -> D = sum S.
Proof.
  intros (pc & ps & S1 & -> & -> & L & [(-> & _ & ->)|(x0 & d & rest & _ & E & _)]); [|discriminate].
  rewrite sum_app. cbn; lia.
Qed.

Lemma at_cons C S D C' h rest : at_ C S D C' (h :: rest) -> 1 <= h /\ D + h + sum rest = sum S.
Proof.
  intros (pc & ps & S1 & -> & -> & L & [(-> & E & ->)|(x0 & d & r & -> & E & H & ->)]); [discriminate|].
  injection E as -> ->. rewrite sum_app. cbn [sum]. lia.
Qed.

Lemma at_len C S D C' S' : length C = length S -> at_ C S D C' S' -> length C' = length S'.
Proof.
  intros L (pc & ps & S1 & -> & -> & L2 & [(-> & -> & _)|(x0 & d & r & -> & -> & _ & _)]); rewrite !app_length in L; cbn [length] in *; lia.
Qed.

Lemma at_sub C S D C' h rest r : at_ C S D C' (h :: rest) -> r < h -> at_ C S (D + r) C' ((h - r) :: rest).
Proof.
  intros (pc & ps & S1 & -> & -> & L & [(-> & E & ->)|(x0 & d & rs & -> & E & H & ->)]) Hr; [discriminate|].
  injection E as -> ->. exists pc, ps, (x0 :: rs). repeat (apply conj; [auto|]). right. exists x0, (d + r), rs.
  split; [reflexivity|]. split; [f_equal; lia|]. split; lia.
Qed.

Lemma at_pop C S D cur C' h rest : Forall (fun x => 1 <= x) S ->
  at_ C S D (cur :: C') (h :: rest) -> at_ C S (D + h) C' rest /\ ends_at C S cur (D + h).
Proof.
  intros F (pc & ps & S1 & -> & -> & L & [(-> & E & ->)|(x0 & d & rs & -> & E & H & ->)]); [discriminate|].
  injection E as -> ->. split.
  - exists (pc ++ [cur]), (ps ++ [x0]), rs. rewrite <- !app_assoc. repeat (apply conj; [reflexivity|]).
    split; [rewrite !app_length; cbn; lia|]. apply Forall_app in F. destruct F as [_ F]. inversion F; subst.
    destruct rs as [|y rs]; [left|right].
    + rewrite sum_app. cbn. repeat split; lia.
    + inversion H3; subst. exists y, 0, rs. rewrite Nat.sub_0_r, sum_app. cbn. repeat split; lia.
  - exists pc, ps, x0, C', rs. repeat (apply conj; [auto|]). lia.
Qed.

(** After a pop the next chunk is whole. *)
Lemma at_fresh B C S D cur C' h rest y rs : fat B S ->
  at_ C S D (cur :: C') (h :: rest) -> rest = y :: rs -> rs = [] \/ B <= y.
Proof.
  intros Hf (pc & ps & S1 & -> & -> & L & [(-> & E & ->)|(x0 & d & r & -> & E & H & ->)]) ->; [discriminate|].
  injection E as -> <-. destruct rs as [|z rs]; [left; reflexivity|right].
  apply (Hf (ps ++ [x0]) y (z :: rs)); [rewrite <- app_assoc; reflexivity| |discriminate]. destruct ps; discriminate.
Qed.

Lemma at_end C S D C' S' c E : at_ C S D C' S' -> ~ In c C' -> ends_at C S c E -> E <= D.
Proof.
  intros (pc & ps & S1 & -> & -> & L & H) Hn (qc & qs & x & rc & rs & E1 & E2 & L2 & ->).
  assert (HD : sum ps <= D).
  { destruct H as [(_ & _ & ->)|(x0 & d & r & _ & _ & _ & ->)]; lia. }
  assert (K : exists m, pc = qc ++ c :: m).
  { apply app_eq_app in E1. destruct E1 as (l & [[A1 A2]|[A1 A2]]).
    - destruct l as [|y l]; [exfalso; apply Hn; cbn in A2; rewrite <- A2; left; reflexivity|]. injection A2 as <- _. eauto.
    - exfalso. apply Hn. rewrite A2. apply in_or_app. right; left; reflexivity. }
  destruct K as (m & ->).
  assert (K : exists m', ps = qs ++ x :: m').
  { apply app_eq_app in E2. destruct E2 as (l & [[A1 A2]|[A1 A2]]).
    - destruct l as [|y l]; [|injection A2 as <- _; eauto]. rewrite app_nil_r in A1. subst.
      rewrite app_length in L. cbn in L. lia.
    - rewrite A1, app_length in L2. rewrite app_length in L. cbn in L. lia. }
  destruct K as (m' & ->). rewrite sum_app in HD. cbn [sum] in HD. lia.
Qed.

Lemma occ_0 c chunks v C : occ c chunks = 0 -> nth_error chunks v = Some C -> ~ In c C.
Proof.
  intros H E Hin. unfold occ in H. apply nth_error_In in E.
  assert (G : forall l, In C l -> count_occ Nat.eq_dec C c <= sum (map (fun l => count_occ Nat.eq_dec l c) l)).
  { clear. induction l as [|x l IH]; [intros []|]. intros [->|Hi]; cbn; [lia|]. specialize (IH Hi). lia. }
  specialize (G _ E). apply (count_occ_In Nat.eq_dec) in Hin. lia.
Qed.

Lemma q_lt a b k : a * k < b * k -> a < b.
Proof. destruct (Nat.lt_ge_cases a b); [trivial|]. intros Q. pose proof (Nat.mul_le_mono_r b a k). lia. Qed.
Lemma q_s t k : (t + 1) * k = t * k + k.
Proof. lia. Qed.
Lemma q_p a k : 1 <= a -> a * k = (a - 1) * k + k.
Proof. destruct a; [lia|]. intros _. cbn. rewrite Nat.sub_0_r. lia. Qed.

Section Sim.
  Variables (nw B c K z : nat) (C0 S0 : list (list nat)).
  Hypothesis Hnw : 1 <= nw.
  Hypothesis HB : 1 <= B.
  Hypothesis Hz : z < nw.
  Hypothesis HK : 1 <= K.
  Hypothesis Hpar : par nw C0 S0.
  Hypothesis Hfat : forall v S, nth_error S0 v = Some S -> fat B S.
  Hypothesis Htot : forall v S, nth_error S0 v = Some S ->
    (v < z -> sum S = K * B) /\ (z < v -> sum S = (K - 1) * B) /\ (v = z -> (K - 1) * B < sum S <= K * B).

  Definition due (t i v T : nat) : nat := Nat.min T (if v <? i then (t + 1) * B else t * B).
  Definition done (t i : nat) (carry : option nat) (v T : nat) : nat :=
    match carry with None => due t i v T | Some r => if v =? i then t * B + (B - r) else due t i v T end.

  Definition inv (s : sk) (t i : nat) : Prop :=
    i < nw /\ k_idx s mod nw = i /\ length (k_chunks s) = nw /\ length (k_sizes s) = nw /\
    k_shared s = occ c (k_chunks s) /\ 1 <= k_shared s /\
    (forall r, k_carry s = Some r -> 1 <= r < B) /\
    forall v C S, nth_error C0 v = Some C -> nth_error S0 v = Some S ->
      exists C' S', nth_error (k_chunks s) v = Some C' /\ nth_error (k_sizes s) v = Some S' /\
        at_ C S (done t i (k_carry s) v (sum S)) C' S' /\
        (k_carry s <> None -> v = i -> forall h rest, S' = h :: rest -> rest = [] \/ B <= h).

  Definition lastly (t i : nat) : Prop :=
    (forall v C S E, nth_error C0 v = Some C -> nth_error S0 v = Some S -> ends_at C S c E ->
       E <= (if v <=? i then (t + 1) * B else t * B)) /\
    (exists C S E, nth_error C0 i = Some C /\ nth_error S0 i = Some S /\ ends_at C S c E /\ t * B < E).

  Lemma both v : v < nw -> exists C S, nth_error C0 v = Some C /\ nth_error S0 v = Some S /\ length C = length S /\ Forall (fun x => 1 <= x) S.
  Proof.
    destruct Hpar as (L1 & L2 & H). intros Hv. destruct (nth_error S0 v) as [S|] eqn:E; [|apply nth_error_None in E; lia].
    destruct (H v S E) as (F & C & HC & L). exists C, S. auto.
  Qed.

  Lemma step_idx idx i : i < nw -> idx mod nw = i -> (idx + 1) mod nw = if i + 1 =? nw then 0 else i + 1.
  Proof.
    intros Hi E. rewrite Nat.add_mod by lia. rewrite E. destruct (Nat.eq_dec nw 1) as [->|N1].
    - assert (i = 0) by lia. subst i. reflexivity.
    - rewrite (Nat.mod_small 1 nw) by lia. destruct (Nat.eqb_spec (i + 1) nw) as [->|N].
      + apply Nat.mod_same. lia.
      + apply Nat.mod_small. lia.
  Qed.

  (** Worker [i] has had its batch of round [t]: it is the turn of the next one. *)
  Lemma due_next t i v T : v < nw -> i < nw -> v <> i ->
    due (if i + 1 =? nw then t + 1 else t) (if i + 1 =? nw then 0 else i + 1) v T = due t i v T.
  Proof.
    intros Hv Hi N. unfold due. destruct (Nat.eqb_spec (i + 1) nw) as [E|E].
    - destruct (Nat.ltb_spec v 0); [lia|]. destruct (Nat.ltb_spec v i); [reflexivity|lia].
    - destruct (Nat.ltb_spec v (i + 1)), (Nat.ltb_spec v i); try reflexivity; lia.
  Qed.
  Lemma due_now t i T : i < nw ->
    due (if i + 1 =? nw then t + 1 else t) (if i + 1 =? nw then 0 else i + 1) i T = Nat.min T ((t + 1) * B).
  Proof.
    intros Hi. unfold due. destruct (Nat.eqb_spec (i + 1) nw) as [E|E].
    - destruct (Nat.ltb_spec i 0); [lia|reflexivity].
    - destruct (Nat.ltb_spec i (i + 1)); [reflexivity|lia].
  Qed.

  Lemma part1_inv s s1 t i : inv s t i -> part1 B s = Ok s1 -> exists t1, inv s1 t1 i.
  Proof.
    intros I E. unfold part1 in E. destruct (k_carry s) as [r|] eqn:Ec; [injection E as <-; exists t; exact I|].
    destruct (min_head (k_sizes s)) as [m|] eqn:Em; [|discriminate]. cbn zeta in E. injection E as <-.
    destruct I as (Hi & Hidx & L1 & L2 & Hsh & H1 & _ & HW). rewrite Ec in HW. cbn [done] in HW.
    set (nb := m / B - 1) in *.
    assert (Hnb : nb = 0 \/ forall v, v < nw -> exists h rest, nth_error (k_sizes s) v = Some (h :: rest) /\ nb * B < h).
    { destruct (Nat.eq_dec nb 0) as [|Hp]; [left; assumption|right].
      assert (Hm : (nb + 1) * B <= m).
      { pose proof (Nat.mul_div_le m B ltac:(lia)). replace (nb + 1) with (m / B) by (unfold nb in *; lia). rewrite Nat.mul_comm. assumption. }
      (* somebody has the smallest head *)
      assert (Hu : exists u h rest, nth_error (k_sizes s) u = Some (h :: rest)).
      { clear -Em. induction (k_sizes s) as [|l ls IH]; [discriminate|]. destruct l as [|x l]; [|exists 0, x, l; reflexivity].
        cbn in Em. destruct (IH Em) as (u & h & rest & E). exists (S u), h, rest. exact E. }
      destruct Hu as (u & hu & ru & Hu). pose proof (min_head_le _ _ Em u hu ru Hu) as Hmu.
      assert (Hun : u < nw) by (rewrite <- L2; apply nth_error_Some; congruence).
      intros v Hv. destruct (both v Hv) as (C & S & EC & ES & Lv & Fv). destruct (HW v C S EC ES) as (C' & S' & G1 & G2 & G3 & _).
      destruct S' as [|h rest]; [exfalso|exists h, rest; split; [exact G2|]; pose proof (min_head_le _ _ Em v h rest G2); rewrite q_s in Hm; lia].
      destruct (both u Hun) as (Cu & Su & ECu & ESu & Lu & Fu). destruct (HW u Cu Su ECu ESu) as (C'' & S'' & G1' & G2' & G3' & _).
      rewrite Hu in G2'. injection G2' as <-. pose proof (at_cons _ _ _ _ _ _ G3') as [_ A]. pose proof (at_nil _ _ _ _ G3) as A2.
      destruct (Htot v S ES) as (T1 & T2 & T3). destruct (Htot u Su ESu) as (U1 & U2 & U3).
      unfold due in A, A2.
      assert (B1 : 2 * B <= hu) by (clear -Hm Hmu Hp; destruct nb as [|nb']; [congruence|]; cbn [Nat.add Nat.mul] in Hm; rewrite q_s in Hm; lia).
      assert (B2 : sum S <= (if v <? i then (t + 1) * B else t * B)) by lia.
      assert (B3 : (if u <? i then (t + 1) * B else t * B) + 2 * B <= sum Su).
      { destruct (Nat.min_spec (sum Su) (if u <? i then (t + 1) * B else t * B)) as [[? Q]|[? Q]]; rewrite Q in A; lia. }
      assert (B4 : sum Su <= K * B) by (destruct (lt_eq_lt_dec u z) as [[?|?]|?]; [rewrite U1|apply U3|rewrite U2]; try assumption; rewrite ?(q_p K B HK); lia).
      assert (B5 : (K - 1) * B <= sum S) by (destruct (lt_eq_lt_dec v z) as [[?|?]|?]; [rewrite T1|apply Nat.lt_le_incl, T3|rewrite T2]; try assumption; rewrite ?(q_p K B HK); lia).
      pose proof (q_p K B HK) as KB. pose proof (q_s t B) as TB.
      destruct (Nat.ltb_spec u i).
      - destruct (Nat.ltb_spec v i); lia.
      - destruct (Nat.ltb_spec v i); [|lia].
        (* v < i <= u, v has ended with K - 1 batches, u has K of them *)
        assert (Q2 : t < K - 1) by (apply (q_lt _ _ B); lia).
        assert (Q : K - 1 < t + 2) by (apply (q_lt _ _ B); replace ((t + 2) * B) with (t * B + 2 * B) by lia; lia).
        assert (Kt : K - 1 = t + 1) by lia. rewrite Kt in *.
        destruct (lt_eq_lt_dec v z) as [[Lz|Lz]|Lz].
        + specialize (T1 Lz). lia.
        + specialize (T3 Lz). lia.
        + assert (z < u) by lia. specialize (U2 ltac:(lia)). lia. }
    destruct Hnb as [Z|Hall].
    - exists t. rewrite Z. cbn [Nat.mul]. split; [exact Hi|]. cbn [k_chunks k_sizes k_shared k_idx k_carry].
      rewrite Nat.add_0_r, map_length. repeat (apply conj; [assumption|]). split; [discriminate|].
      intros v C S EC ES. destruct (HW v C S EC ES) as (C' & S' & G1 & G2 & G3 & _). exists C', S'. split; [exact G1|].
      split; [rewrite nth_error_map, G2; cbn; destruct S'; cbn; rewrite ?Nat.sub_0_r; reflexivity|]. split; [exact G3|congruence].
    - exists (t + nb). assert (Hlen : length (filter is_nonempty (k_sizes s)) = nw).
      { rewrite <- L2. f_equal. apply filter_all. intros l Hin. apply In_nth_error in Hin. destruct Hin as (v & Hv).
        destruct (Hall v) as (h & rest & E & _); [rewrite <- L2; apply nth_error_Some; congruence|]. rewrite E in Hv. injection Hv as <-. reflexivity. }
      rewrite Hlen. split; [exact Hi|]. cbn [k_chunks k_sizes k_shared k_idx k_carry].
      rewrite Nat.mod_add by lia. rewrite map_length. repeat (apply conj; [assumption|]). split; [discriminate|].
      intros v C S EC ES. destruct (HW v C S EC ES) as (C' & S' & G1 & G2 & G3 & _).
      destruct (Hall v) as (h & rest & E & Hh); [destruct Hpar as (_ & L & _); rewrite <- L; apply nth_error_Some; congruence|].
      rewrite E in G2. injection G2 as <-. exists C', ((h - nb * B) :: rest). split; [exact G1|].
      split; [rewrite nth_error_map, E; reflexivity|]. split; [|congruence].
      pose proof (at_cons _ _ _ _ _ _ G3) as [_ A]. cbn [done].
      replace (due (t + nb) i v (sum S)) with (due t i v (sum S) + nb * B); [apply at_sub; assumption|].
      unfold due in *. destruct (v <? i); [|replace ((t + nb) * B) with (t * B + nb * B) by (rewrite Nat.mul_add_distr_r; reflexivity); lia].
      replace ((t + nb + 1) * B) with ((t + 1) * B + nb * B) by (rewrite !Nat.mul_add_distr_r; lia). lia.
  Qed.

  Lemma part2_inv s t i r : inv s t i -> part2 nw B c s = Ok r ->
    match r with
    | inl s2 => exists t2 i2, inv s2 t2 i2
    | inr (j, _) => j = i /\ lastly t i
    end.
  Proof.
    intros (Hi & Hidx & L1 & L2 & Hsh & H1 & Hr & HW) E. unfold part2 in E. cbn zeta in E. rewrite Hidx in E.
    destruct (both i Hi) as (Ci & Si & ECi & ESi & Li & Fi).
    destruct (HW i Ci Si ECi ESi) as (C' & S' & G1 & G2 & G3 & G4). rewrite G2 in E.
    assert (Lc := at_len _ _ _ _ _ Li G3).
    destruct (Htot i Si ESi) as (T1 & T2 & T3).
    destruct S' as [|lft rest].
    - (* the worker has ended *)
      injection E as <-. pose proof (at_nil _ _ _ _ G3) as A.
      destruct (k_carry s) as [r0|] eqn:Ec.
      + exfalso. cbn [done] in A. rewrite Nat.eqb_refl in A. specialize (Hr r0 eq_refl).
        pose proof (q_p K B HK) as KB. pose proof (q_s t B) as TB. assert (Ez : i = z /\ t = K - 1).
        { destruct (lt_eq_lt_dec i z) as [[Q|Q]|Q].
          - exfalso. specialize (T1 Q). assert (t < K) by (apply (q_lt _ _ B); lia). assert (K < t + 1) by (apply (q_lt _ _ B); lia). lia.
          - split; [exact Q|]. specialize (T3 Q). assert (K - 1 < t + 1) by (apply (q_lt _ _ B); lia). assert (t < K) by (apply (q_lt _ _ B); lia). lia.
          - exfalso. specialize (T2 Q). assert (t < K - 1) by (apply (q_lt _ _ B); lia). assert (K - 1 < t + 1) by (apply (q_lt _ _ B); lia). lia. }
        destruct Ez as [-> ->].
        assert (Q : 1 <= occ c (k_chunks s)) by lia. apply occ_pos in Q. destruct Q as (v & l & Hv & Hin).
        assert (Hvn : v < nw) by (rewrite <- L1; apply nth_error_Some; congruence).
        destruct (both v Hvn) as (C & S & EC & ES & Lv & Fv). destruct (HW v C S EC ES) as (C'' & S'' & F1 & F2 & F3 & _).
        rewrite F1 in Hv. injection Hv as ->. pose proof (at_len _ _ _ _ _ Lv F3) as Lq.
        destruct S'' as [|h rest]; [destruct l; [destruct Hin|discriminate]|].
        pose proof (at_cons _ _ _ _ _ _ F3) as [B1 B2]. cbn [done] in B2. destruct (Htot v S ES) as (U1 & U2 & U3).
        destruct (Nat.eqb_spec v z) as [->|Nv]; [rewrite ES in ESi; injection ESi as ->; lia|].
        unfold due in B2. 
        destruct (Nat.ltb_spec v z) as [Lt|Ge]; [specialize (U1 Lt); lia|specialize (U2 ltac:(lia)); lia].
      + (* skip it *)
        exists (if i + 1 =? nw then t + 1 else t), (if i + 1 =? nw then 0 else i + 1).
        split; [destruct (Nat.eqb_spec (i + 1) nw); lia|]. cbn [k_chunks k_sizes k_shared k_idx k_carry].
        split; [apply step_idx; assumption|]. repeat (apply conj; [assumption|]).
        intros v C S EC ES. destruct (HW v C S EC ES) as (C'' & S'' & F1 & F2 & F3 & _). exists C'', S''.
        split; [exact F1|]. split; [exact F2|]. split; [|congruence]. cbn [done] in *.
        assert (Hv : v < nw) by (rewrite <- L1; apply nth_error_Some; congruence).
        destruct (Nat.eq_dec v i) as [->|Nv]; [|rewrite due_next by assumption; exact F3].
        rewrite due_now by exact Hi. rewrite ES in ESi. injection ESi as ->. unfold due in A, F3.
        destruct (Nat.ltb_spec i i); [lia|]. replace (Nat.min (sum Si) ((t + 1) * B)) with (Nat.min (sum Si) (t * B)); [exact F3|].
        rewrite (q_s t B). lia.
    - pose proof (at_cons _ _ _ _ _ _ G3) as [Hl A].
      set (remover := match k_carry s with None => B | Some r0 => r0 end) in *.
      (* how much of the batch the worker has had *)
      assert (HD : done t i (k_carry s) i (sum Si) = t * B + (B - remover) /\ 1 <= remover <= B).
      { unfold remover, done. destruct (k_carry s) as [r0|]; [rewrite Nat.eqb_refl; specialize (Hr r0 eq_refl); lia|].
        split; [|lia]. cbn [done] in A. unfold due in *. destruct (Nat.ltb_spec i i); [lia|]. lia. }
      destruct HD as [HD Hrem]. rewrite HD in *.
      destruct (Nat.ltb_spec remover lft) as [Hlt|Hge].
      + injection E as <-. exists (if i + 1 =? nw then t + 1 else t), (if i + 1 =? nw then 0 else i + 1).
        split; [destruct (Nat.eqb_spec (i + 1) nw); lia|]. cbn [k_chunks k_sizes k_shared k_idx k_carry].
        split; [apply step_idx; assumption|]. rewrite upd_length. repeat (apply conj; [assumption|]). split; [discriminate|].
        intros v C S EC ES. assert (Hv : v < nw).
        { destruct Hpar as (L & _). rewrite <- L. apply nth_error_Some. congruence. }
        destruct (Nat.eq_dec v i) as [->|Nv].
        * rewrite ES in ESi. injection ESi as ->. rewrite EC in ECi. injection ECi as ->.
          exists C', ((lft - remover) :: rest). split; [exact G1|]. split; [rewrite nth_error_upd_eq, G2; reflexivity|]. split; [|congruence].
          cbn [done]. rewrite due_now by exact Hi.
          replace (Nat.min (sum Si) ((t + 1) * B)) with (t * B + (B - remover) + remover) by (rewrite q_s; lia). apply at_sub; assumption.
        * destruct (HW v C S EC ES) as (C'' & S'' & F1 & F2 & F3 & _). exists C'', S''. split; [exact F1|].
          split; [rewrite nth_error_upd_neq by auto; exact F2|]. split; [|congruence]. cbn [done]. rewrite due_next by assumption.
          unfold done in F3. destruct (k_carry s); [destruct (Nat.eqb_spec v i); [congruence|]|]; exact F3.
      + rewrite G1 in E. destruct C' as [|cur C']; [discriminate|].
        destruct (at_pop _ _ _ _ _ _ _ Fi G3) as [P1 P2].
        assert (Hocc := occ_upd_tl c (k_chunks s) i cur C' G1).
        set (shared := if cur =? c then k_shared s - 1 else k_shared s) in *.
        assert (Hs : shared = occ c (upd i (@tl nat) (k_chunks s))) by (unfold shared; destruct (cur =? c); lia).
        assert (Hupd : forall v C S, nth_error C0 v = Some C -> nth_error S0 v = Some S -> v <> i ->
                  exists C'' S'', nth_error (upd i (@tl nat) (k_chunks s)) v = Some C'' /\ nth_error (upd i (@tl nat) (k_sizes s)) v = Some S'' /\
                    at_ C S (due t i v (sum S)) C'' S'').
        { intros v C S EC ES Nv. destruct (HW v C S EC ES) as (C'' & S'' & F1 & F2 & F3 & _). exists C'', S''.
          rewrite !nth_error_upd_neq by auto. split; [exact F1|]. split; [exact F2|].
          unfold done in F3. destruct (k_carry s); [destruct (Nat.eqb_spec v i); [congruence|]|]; exact F3. }
        assert (Hown : nth_error (upd i (@tl nat) (k_chunks s)) i = Some C' /\ nth_error (upd i (@tl nat) (k_sizes s)) i = Some rest).
        { rewrite !nth_error_upd_eq, G1, G2. split; reflexivity. }
        destruct ((shared =? 0) && (cur =? c)) eqn:Eb.
        * injection E as <-. split; [reflexivity|]. apply andb_true_iff in Eb. destruct Eb as [E1 E2].
          apply Nat.eqb_eq in E1. apply Nat.eqb_eq in E2. rewrite E1 in Hs. symmetry in Hs. split.
          -- intros v C S En EC ES He. assert (Hv : v < nw) by (destruct Hpar as (L & _); rewrite <- L; apply nth_error_Some; congruence).
             destruct (Nat.eq_dec v i) as [->|Nv].
             ++ rewrite ES in ESi. injection ESi as ->. rewrite EC in ECi. injection ECi as ->.
                pose proof (at_end _ _ _ _ _ _ _ P1 (occ_0 _ _ _ _ Hs (proj1 Hown)) He). destruct (Nat.leb_spec i i); [rewrite q_s; lia|lia].
             ++ destruct (Hupd v C S EC ES Nv) as (C'' & S'' & F1 & F2 & F3).
                pose proof (at_end _ _ _ _ _ _ _ F3 (occ_0 _ _ _ _ Hs F1) He) as Q. unfold due in Q.
                destruct (Nat.ltb_spec v i), (Nat.leb_spec v i); lia.
          -- subst cur. exists Ci, Si, (t * B + (B - remover) + lft). split; [exact ECi|]. split; [exact ESi|]. split; [exact P2|lia].
        * assert (Hpos : 1 <= shared).
          { apply andb_false_iff in Eb. destruct Eb as [E1|E2]; [apply Nat.eqb_neq in E1; lia|]. unfold shared. rewrite E2. exact H1. }
          assert (Hnext : forall idx k, (idx + 1) mod nw = (if i + 1 =? nw then 0 else i + 1) ->
                    t * B + (B - remover) + lft = Nat.min (sum Si) ((t + 1) * B) ->
                    exists t2 i2, inv (Sk (upd i (@tl nat) (k_chunks s)) (upd i (@tl nat) (k_sizes s)) shared (idx + 1) None k) t2 i2).
          { intros idx k Hx Hm. exists (if i + 1 =? nw then t + 1 else t), (if i + 1 =? nw then 0 else i + 1).
            split; [destruct (Nat.eqb_spec (i + 1) nw); lia|]. cbn [k_chunks k_sizes k_shared k_idx k_carry].
            split; [exact Hx|]. rewrite !upd_length. repeat (apply conj; [assumption|]). split; [discriminate|].
            intros v C S EC ES. assert (Hv : v < nw) by (destruct Hpar as (L & _); rewrite <- L; apply nth_error_Some; congruence).
            cbn [done]. destruct (Nat.eq_dec v i) as [->|Nv].
            - rewrite ES in ESi. injection ESi as ->. rewrite EC in ECi. injection ECi as ->. exists C', rest.
              split; [apply Hown|]. split; [apply Hown|]. split; [|congruence]. rewrite due_now by exact Hi. rewrite <- Hm. exact P1.
            - destruct (Hupd v C S EC ES Nv) as (C'' & S'' & F1 & F2 & F3). exists C'', S''. split; [exact F1|]. split; [exact F2|].
              split; [|congruence]. rewrite due_next by assumption. exact F3. }
          destruct (k_carry s) as [r0|] eqn:Ec.
          -- (* the remainder of a batch: this was the last chunk of the worker *)
             specialize (Hr r0 eq_refl). unfold remover in *. destruct (Nat.eqb_spec r0 B); [lia|]. injection E as <-.
             destruct (Nat.eqb_spec lft B); cbv beta iota zeta in *; (apply Hnext; [apply step_idx; assumption|]);
             (destruct (G4 ltac:(discriminate) eq_refl lft rest eq_refl) as [Er|Hf]; [rewrite Er in A; cbn [sum] in A; rewrite q_s; lia|lia]).
          -- unfold remover in *. rewrite Nat.eqb_refl in E. destruct (Nat.eqb_spec lft B) as [->|Hne].
             ++ injection E as <-. apply Hnext; [apply step_idx; assumption|]. rewrite q_s. lia.
             ++ injection E as <-. exists t, i. split; [exact Hi|]. cbn [k_chunks k_sizes k_shared k_idx k_carry].
                split; [exact Hidx|]. rewrite !upd_length. repeat (apply conj; [assumption|]).
                split; [intros r1 Er; injection Er as <-; lia|].
                intros v C S EC ES. assert (Hv : v < nw) by (destruct Hpar as (L & _); rewrite <- L; apply nth_error_Some; congruence).
                cbn [done]. destruct (Nat.eqb_spec v i) as [->|Nv].
                ** rewrite ES in ESi. injection ESi as ->. rewrite EC in ECi. injection ECi as ->. exists C', rest.
                   split; [apply Hown|]. split; [apply Hown|]. split.
                   --- replace (t * B + (B - (B - lft))) with (t * B + (B - B) + lft) by lia. exact P1.
                   --- intros _ _ y rs Ey. exact (at_fresh B _ _ _ _ _ _ _ y rs (Hfat i Si ES) G3 Ey).
                ** destruct (Hupd v C S EC ES Nv) as (C'' & S'' & F1 & F2 & F3). exists C'', S''. split; [exact F1|]. split; [exact F2|].
                   split; [exact F3|intros _ Q; congruence].
  Qed.

  Lemma simulate_exact : forall fuel s t i j n, inv s t i -> simulate fuel nw B c s = Ok (j, n) -> exists t2, j < nw /\ lastly t2 j.
  Proof.
    induction fuel as [|f IH]; intros s t i j n I E; [discriminate|]. cbn [simulate] in E.
    destruct (part1 B s) as [s1|] eqn:E1; [|discriminate]. cbn [bind] in E.
    destruct (part1_inv s s1 t i I E1) as (t1 & I1).
    destruct (part2 nw B c s1) as [r|] eqn:E2; [|discriminate]. cbn [bind] in E.
    pose proof (part2_inv s1 t1 i r I1 E2) as H. destruct r as [s2|[j' n']].
    - destruct H as (t2 & i2 & I2). eapply IH; eassumption.
    - injection E as -> ->. destruct H as [-> H]. exists t1. split; [apply I1|exact H].
  Qed.

  Lemma start_inv sh k : sh = occ c C0 -> 1 <= sh -> inv (Sk C0 S0 sh 0 None k) 0 0.
  Proof.
    intros -> H. split; [lia|]. cbn [k_chunks k_sizes k_shared k_idx k_carry]. split; [apply Nat.mod_0_l; lia|].
    destruct Hpar as (L1 & L2 & HP). repeat (apply conj; [assumption || reflexivity|]). split; [discriminate|].
    intros v C S EC ES. exists C, S. split; [exact EC|]. split; [exact ES|]. split; [|congruence].
    cbn [done]. unfold due. destruct (Nat.ltb_spec v 0); [lia|]. rewrite Nat.mul_0_l, Nat.min_0_r.
    destruct (HP v S ES) as (F & C' & EC' & L). rewrite EC in EC'. injection EC' as <-. apply at_0; assumption.
  Qed.
End Sim.
