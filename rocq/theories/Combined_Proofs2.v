From Verif Require Import Base Combined_Model Combined_Spec Combined_Proofs.
From Coq Require Import QArith.
Local Open Scope nat_scope.
Local Ltac Zify.zify_post_hook ::= idtac.

(** What a dataset had: samples taken plus samples left. *)
Definition had {A} (counts : list nat) (rest : list (list A)) : list nat :=
  map (fun p => fst p + length (snd p)) (combine counts rest).

Lemma had_step {A} : forall counts (iters : list (list A)) k x l, nth_error iters k = Some (x :: l) ->
  had (upd k S counts) (upd k (fun _ => l) iters) = had counts iters.
Proof.
  unfold had. induction counts as [|c counts IH]; intros [|i iters] [|k] x l E; try discriminate; cbn in *; auto.
  - injection E as ->. cbn. f_equal. lia.
  - f_equal. eapply IH; eauto.
Qed.
Lemma had_zero {A} (iters : list (list A)) : had (repeat 0 (length iters)) iters = map (@length A) iters.
Proof. unfold had. induction iters as [|i iters IH]; cbn; [reflexivity|]. f_equal. exact IH. Qed.

Section P.
Context {A : Type} (rng : nat -> list nat -> list Q -> nat).
Context (Hrng : forall n l ws, l <> [] -> In (rng n l ws) l).
Implicit Types s : cit A.

Lemma after_ok over_all m B ws0 : forall n s out s', Inv s -> after rng over_all m B ws0 n s = Some (out, s') ->
  Inv s' /\ takes (c_iters s) out (c_iters s') /\ had (c_counts s') (c_iters s') = had (c_counts s) (c_iters s) /\ length out = n.
Proof.
  induction n as [|n IH]; intros s out s' HI E; cbn [after] in E.
  - injection E as <- <-. repeat split; auto; try apply HI. constructor.
  - assert (G : match c_next rng over_all m B ws0 s with
      | Yield x s1 => exists k l, nth_error (c_iters s) k = Some (x :: l) /\ c_iters s1 = upd k (fun _ => l) (c_iters s) /\
                    Inv s1 /\ c_counts s1 = upd k S (c_counts s) | _ => True end).
    { destruct over_all.
      - pose proof (c_next_all_ok rng Hrng m B ws0 s HI) as G. destruct (c_next rng true m B ws0 s); [exact G|exact I|exact I].
      - pose proof (c_next_first_ok rng Hrng m B ws0 s HI) as G. destruct (c_next rng false m B ws0 s); [exact G|exact I|exact I]. }
    destruct (c_next rng over_all m B ws0 s) as [x s1|s1|e]; try discriminate.
    destruct G as (k & l & Hk & Hi & I1 & Hc).
    destruct (after rng over_all m B ws0 n s1) as [[o s2]|] eqn:E2; [|discriminate].
    cbn [option_map fst snd] in E. injection E as <- <-.
    destruct (IH s1 o s2 I1 E2) as (I2 & T & H & Hl). split; [exact I2|]. split; [|split].
    + econstructor; [exact Hk|]. rewrite <- Hi. exact T.
    + rewrite H, Hi, Hc. eapply had_step. exact Hk.
    + cbn [length]. lia.
Qed.

(** ** Resuming (stratified) *)
Definition canonical (ws : list Q) s : Prop := s = c_init (c_iters s) ws (Some (c_counts s)).

Lemma sum_updS : forall l k, k < length l -> sum (upd k S l) = S (sum l).
Proof. induction l as [|x l IH]; intros [|k] H; cbn in *; try lia. rewrite IH by lia. lia. Qed.

Lemma canonical_step ws s k x l : canonical ws s -> length (c_counts s) = length (c_iters s) ->
  nth_error (c_iters s) k = Some (x :: l) ->
  exists s', get_sample k (set_draw s (S (c_draws s)) (c_cur s) (c_inb s)) = Ok (x, s') /\ canonical ws s' /\
    length (c_counts s') = length (c_iters s') /\ c_iters s' = upd k (fun _ => l) (c_iters s).
Proof.
  intros C L E. assert (Hk : k < length (c_iters s)) by (apply nth_error_Some; congruence).
  unfold get_sample. cbn [set_draw c_iters c_counts]. rewrite E. replace (length (c_counts s) <=? k) with false by lia. eexists. split; [reflexivity|]. split; [|split].
  - unfold canonical in *. destruct s as [it al wt dr co cu ib]. cbn [c_iters c_counts c_draws c_cur c_inb c_alive c_wts set_draw c_init] in *.
    injection C as -> -> -> -> ->. unfold c_init. rewrite upd_length, sum_updS; [reflexivity|].
    rewrite L. apply nth_error_Some. congruence.
  - cbn. rewrite !upd_length. exact L.
  - reflexivity.
Qed.

(** A yield never brings an exhausted dataset back. *)
Lemma next_all_alive B ws0 : forall fuel s x s', Inv s -> next_all rng fuel Stratified B ws0 s = Yield x s' ->
  forall i, nth_error (c_alive s') i = Some true -> nth_error (c_alive s) i = Some true.
Proof.
  induction fuel as [|fuel IH]; intros s x s' HI E i Hi; [discriminate|]. cbn [next_all] in E.
  assert (GS : forall k (t t' : cit A) y, get_sample k t = Ok (y, t') -> c_alive t' = c_alive t).
  { intros k t t' y G. unfold get_sample in G. destruct (nth_error (c_iters t) k) as [[|z l]|]; try discriminate.
    destruct (length (c_counts t) <=? k); [discriminate|]. injection G as <- <-. reflexivity. }
  destruct (left_indexes (c_alive s)) as [|k0 [|k1 lf]] eqn:El; [discriminate| |].
  - destruct (get_sample k0 s) as [[y t]|[]] eqn:Eg; try discriminate. cbn [fst snd] in E. injection E as <- <-.
    rewrite (GS _ _ _ _ Eg) in Hi. exact Hi.
  - pose proof HI as (L & D & W & N & C & K).
    assert (Hna : 2 <= nalive (c_alive s)) by (rewrite <- left_length, El; cbn; lia).
    destruct (get_index_ok rng Hrng Stratified B s HI) as (k & s1 & Eq & (S1 & S2 & S3 & S4) & I1 & Hk & Hal).
    rewrite Eq in E. destruct (get_sample k s1) as [[y t]|e] eqn:Eg.
    + cbn [fst snd] in E. injection E as <- <-. rewrite (GS _ _ _ _ Eg), S2 in Hi. exact Hi.
    + destruct (nth_error (c_iters s) k) as [[|z l]|] eqn:Ei; [| |apply nth_error_None in Ei; lia].
      2: { unfold get_sample in Eg. rewrite S1, S4, Ei in Eg. replace (length (c_counts s) <=? k) with false in Eg by lia. discriminate. }
      unfold get_sample in Eg. rewrite S1, Ei in Eg. injection Eg as <-.
      assert (Hn' : 1 <= nalive (upd k (fun _ => false) (c_alive s))).
      { destruct Hal as [Ha|[Ha _]]; [pose proof (nalive_kill _ _ Ha); lia|rewrite (nalive_dead _ _ Ha); lia]. }
      destruct (renormalise_ok _ _ (pos_weights_kill _ _ k W) Hn') as (ws' & Er & Wr).
      unfold exhaust in E. rewrite S3, Er in E. cbn [bind] in E.
      match type of E with next_all _ _ _ _ _ ?t = _ => set (s2 := t) in E end.
      assert (I2 : Inv s2).
      { split; [cbn; rewrite upd_length, S2, S1; exact L|]. split; [|split; [cbn; rewrite S2; exact Wr|split; [cbn; rewrite S2; exact Hn'|apply I1]]].
        cbn [c_alive c_iters s2]. rewrite S1, S2. intros j Hj. destruct (Nat.eq_dec k j) as [<-|Hne]; [exact Ei|].
        rewrite nth_error_upd_neq in Hj by exact Hne. apply D. exact Hj. }
      specialize (IH s2 x s' I2 E i Hi). cbn [c_alive s2] in IH. rewrite S2 in IH.
      destruct (Nat.eq_dec k i) as [<-|Hne]; [rewrite nth_error_upd_eq in IH; destruct (nth_error (c_alive s) k); discriminate|].
      rewrite nth_error_upd_neq in IH by exact Hne. exact IH.
Qed.

Lemma c_next_canonical over_all B ws0 ws s x s' : Inv s -> canonical ws s -> length (c_counts s) = length (c_iters s) ->
  (over_all = true -> 2 <= length (c_iters s)) ->
  c_next rng over_all Stratified B ws0 s = Yield x s' -> (forall i, i < length (c_iters s') -> nth_error (c_alive s') i = Some true) ->
  canonical ws s' /\ length (c_counts s') = length (c_iters s').
Proof.
  intros HI C L H2 E Ha. destruct (new_index_ok rng Hrng s HI) as (k & s1 & En & Hk & ->).
  apply left_In in Hk. pose proof HI as (LA & D & W & N & CC & CK).
  assert (Hkl : k < length (c_iters s)) by (rewrite <- LA; apply nth_error_Some; congruence).
  destruct over_all.
  - unfold c_next in E. set (fuel := S (length (c_iters s)) * S (S B)) in E.
    destruct fuel as [|f] eqn:Ef; [discriminate|]. cbn [next_all] in E.
    assert (AL : c_alive s = repeat true (length (c_iters s))) by (unfold canonical in C; rewrite C; reflexivity).
    destruct (left_indexes (c_alive s)) as [|k0 [|k1 lf]] eqn:El.
    { apply (f_equal (@length _)) in El. rewrite left_length in El. cbn in El. lia. }
    { apply (f_equal (@length _)) in El. rewrite left_length, AL, nalive_repeat in El. cbn in El. specialize (H2 eq_refl). lia. }
    cbn [get_index] in E. rewrite En in E.
    destruct (nth_error (c_iters s) k) as [[|z l]|] eqn:Ei; [| |apply nth_error_None in Ei; lia].
    2: { destruct (canonical_step ws s k z l C L Ei) as (s2 & Eg & C2 & L2 & _). rewrite Eg in E. cbn [fst snd] in E.
         injection E as <- <-. auto. }
    exfalso. unfold get_sample in E. cbn [set_draw c_iters] in E. rewrite Ei in E.
    assert (Hna : 2 <= nalive (c_alive s)) by (rewrite <- left_length, El; cbn; lia).
    assert (Hn' : 1 <= nalive (upd k (fun _ => false) (c_alive s))) by (pose proof (nalive_kill _ _ Hk); lia).
    destruct (renormalise_ok _ _ (pos_weights_kill _ _ k W) Hn') as (ws' & Er & Wr).
    unfold exhaust in E. cbn [set_draw c_wts] in E. rewrite Er in E. cbn [bind] in E.
    match type of E with next_all _ _ _ _ _ ?t = _ => set (s2 := t) in E end.
    assert (I2 : Inv s2).
    { split; [cbn; rewrite upd_length; exact LA|]. split; [|split; [exact Wr|split; [exact Hn'|split; [exact CC|exact CK]]]].
      cbn [c_alive c_iters s2 set_draw]. intros j Hj. destruct (Nat.eq_dec k j) as [<-|Hne]; [exact Ei|].
      rewrite nth_error_upd_neq in Hj by exact Hne. apply D. exact Hj. }
    assert (Hlen : k < length (c_iters s')).
    { pose proof (next_all_ok rng Hrng Stratified B ws0 f s2 I2) as G.
      assert (Hm : measure B s2 < f).
      { unfold measure. cbn [c_alive c_inb s2 set_draw]. pose proof (nalive_kill _ _ Hk) as K.
        pose proof (nalive_le (c_alive s)) as K2. rewrite LA in K2.
        assert (f = S (length (c_iters s)) * S (S B) - 1) as -> by lia. nia. }
      specialize (G Hm). rewrite E in G. cbn [step_ok] in G. destruct G as (k' & l' & _ & Hi & _). rewrite Hi, upd_length. exact Hkl. }
    specialize (Ha k Hlen). pose proof (next_all_alive B ws0 f s2 x s' I2 E k Ha) as G.
    cbn [c_alive s2 set_draw] in G. rewrite nth_error_upd_eq, Hk in G. discriminate.
  - unfold c_next in E. cbn [get_index] in E. rewrite En in E.
    destruct (nth_error (c_iters s) k) as [[|z l]|] eqn:Ei; [| |apply nth_error_None in Ei; lia].
    + unfold get_sample in E. cbn [set_draw c_iters] in E. rewrite Ei in E. discriminate.
    + destruct (canonical_step ws s k z l C L Ei) as (s2 & Eg & C2 & L2 & _). rewrite Eg in E. cbn [fst snd] in E.
      injection E as <- <-. auto.
Qed.

(** Members that still hold samples were holding samples before. *)
Lemma takes_length (s : list (list A)) out rest : takes s out rest -> length rest = length s.
Proof. induction 1 as [|k x l s out rest E _ IH]; [reflexivity|]. rewrite upd_length in IH. exact IH. Qed.
Lemma takes_nonempty (s : list (list A)) out rest : takes s out rest -> Forall (fun l => l <> []) rest -> Forall (fun l => l <> []) s.
Proof.
  induction 1 as [|k x l s out rest E _ IH]; intros F; [exact F|]. specialize (IH F). clear -E IH.
  revert k E IH. induction s as [|y s IHs]; intros [|k] E F; try discriminate; cbn in *.
  - injection E as ->. inversion F; subst. constructor; [discriminate|assumption].
  - inversion F; subst. constructor; [assumption|]. eapply IHs; eauto.
Qed.

Lemma nonempty_alive s : Inv s -> Forall (fun l => l <> []) (c_iters s) -> forall i, i < length (c_iters s) -> nth_error (c_alive s) i = Some true.
Proof.
  intros (L & D & _) F i Hi. destruct (nth_error (c_alive s) i) as [[]|] eqn:E; [reflexivity| |apply nth_error_None in E; lia].
  specialize (D i E). apply nth_error_In in D. rewrite Forall_forall in F. specialize (F _ D). congruence.
Qed.

Lemma after_canonical over_all B ws0 ws : forall n s out s', Inv s -> canonical ws s -> length (c_counts s) = length (c_iters s) ->
  (over_all = true -> 2 <= length (c_iters s)) ->
  after rng over_all Stratified B ws0 n s = Some (out, s') -> Forall (fun l => l <> []) (c_iters s') -> canonical ws s'.
Proof.
  induction n as [|n IH]; intros s out s' HI C L H2 E F; cbn [after] in E.
  - injection E as <- <-. exact C.
  - destruct (c_next rng over_all Stratified B ws0 s) as [x s1|s1|e] eqn:E1; try discriminate.
    destruct (after rng over_all Stratified B ws0 n s1) as [[o s2]|] eqn:E2; [|discriminate].
    cbn [option_map fst snd] in E. injection E as <- <-.
    assert (E1' : after rng over_all Stratified B ws0 1 s = Some ([x], s1)) by (cbn [after]; rewrite E1; reflexivity).
    destruct (after_ok _ _ _ _ _ _ _ _ HI E1') as (I1 & T1 & _).
    destruct (after_ok _ _ _ _ _ _ _ _ I1 E2) as (_ & T2 & _).
    assert (F1 : Forall (fun l => l <> []) (c_iters s1)) by (eapply takes_nonempty; eauto).
    destruct (c_next_canonical over_all B ws0 ws s x s1 HI C L H2 E1 (nonempty_alive s1 I1 F1)) as [C1 L1].
    eapply (IH s1); eauto. rewrite (takes_length _ _ _ T1). exact H2.
Qed.

(** ** Per-stream batches, without [iterate_over_all] *)
Lemma per_stream_within B ws0 k : forall r s out s', Inv s -> c_cur s = Some k -> c_inb s + r = B ->
  after rng false PerStream B ws0 r s = Some (out, s') ->
  c_cur s' = Some k /\ c_inb s' = B /\ exists l, nth_error (c_iters s) k = Some (out ++ l) /\ c_iters s' = upd k (fun _ => l) (c_iters s).
Proof.
  induction r as [|r IH]; intros s out s' HI Hc Hb E; cbn [after] in E.
  - injection E as <- <-. split; [exact Hc|]. split; [lia|]. destruct HI as (_ & _ & _ & _ & C & _). specialize (C k Hc).
    destruct (nth_error (c_iters s) k) as [l|] eqn:El; [|apply nth_error_None in El; lia]. exists l. split; [reflexivity|].
    clear -El. revert k El. induction (c_iters s) as [|y q IHq]; intros [|k] El; try discriminate; cbn in *; [congruence|].
    f_equal. apply IHq. exact El.
  - unfold c_next in E. cbn [get_index] in E. rewrite Hc in E. replace (B <=? c_inb s) with false in E by lia.
    destruct (nth_error (c_iters s) k) as [[|x l]|] eqn:Ei.
    + unfold get_sample in E. cbn [set_draw c_iters] in E. rewrite Ei in E. discriminate.
    + unfold get_sample in E. cbn [set_draw c_iters c_alive c_wts c_draws c_counts c_cur c_inb] in E. rewrite Ei in E.
      replace (length (c_counts s) <=? k) with false in E.
      2: { assert (k < length (c_iters s)) by (apply nth_error_Some; congruence). destruct HI as (_ & _ & _ & _ & _ & K). lia. }
      cbn [fst snd] in E.
      match type of E with context [after _ _ _ _ _ r ?t] => set (s1 := t) in E end.
      destruct (after rng false PerStream B ws0 r s1) as [[o s2]|] eqn:E2; [|discriminate].
      cbn [option_map fst snd] in E. injection E as <- <-.
      assert (I1 : Inv s1).
      { destruct HI as (L & D & W & N & C & K). split; [cbn; rewrite upd_length; exact L|]. split; [|split; [exact W|split; [exact N|split; [|cbn; rewrite !upd_length; exact K]]]].
        - cbn [c_alive c_iters s1]. intros j Hj. specialize (D j Hj). destruct (Nat.eq_dec k j) as [<-|Hn]; [congruence|].
          rewrite nth_error_upd_neq by exact Hn. exact D.
        - cbn [c_cur c_iters s1]. rewrite upd_length. intros k0 E0. apply C. rewrite Hc. exact E0. }
      destruct (IH s1 o s2 I1) as (P1 & P2 & l' & P3 & P4).
      * reflexivity.
      * cbn. lia.
      * exact E2.
      * split; [exact P1|]. split; [exact P2|]. exists l'. cbn [c_iters s1] in P3, P4.
        rewrite nth_error_upd_eq, Ei in P3. cbn [option_map] in P3. injection P3 as ->. split; [reflexivity|].
        rewrite P4. clear. revert k. induction (c_iters s) as [|y q IHq]; intros [|k]; cbn; auto. f_equal. apply IHq.
    + unfold get_sample in E. cbn [set_draw c_iters] in E. rewrite Ei in E. discriminate.
Qed.

Definition boundary (B : nat) s : Prop := c_cur s = None \/ B <= c_inb s.

Lemma per_stream_batch B ws0 s out s' : 1 <= B -> Inv s -> boundary B s ->
  after rng false PerStream B ws0 B s = Some (out, s') ->
  boundary B s' /\ Inv s' /\ exists k l, nth_error (c_iters s) k = Some (out ++ l) /\ c_iters s' = upd k (fun _ => l) (c_iters s).
Proof.
  intros HB HI Hbd E. destruct (after_ok _ _ _ _ _ _ _ _ HI E) as (I' & _). destruct B as [|r]; [lia|].
  destruct (new_index_ok rng Hrng s HI) as (k & s1 & En & Hk & Es1). apply left_In in Hk.
  pose proof HI as (L & D & W & N & C & K).
  assert (Hkl : k < length (c_iters s)) by (rewrite <- L; apply nth_error_Some; congruence).
  set (s0 := set_draw s (S (c_draws s)) (Some k) 0).
  assert (I0 : Inv s0).
  { split; [exact L|split; [exact D|split; [exact W|split; [exact N|split; [|exact K]]]]]. intros k' E'. cbn in E'. injection E' as <-. exact Hkl. }
  assert (G : after rng false PerStream (S r) ws0 (S r) s0 = Some (out, s')).
  { rewrite <- E. cbn [after]. assert (EQ : c_next rng false PerStream (S r) ws0 s0 = c_next rng false PerStream (S r) ws0 s); [|rewrite EQ; reflexivity].
    unfold c_next. cbn [get_index c_cur s0 set_draw c_inb]. change (S r <=? 0) with false. cbn beta iota.
    assert (EN : match c_cur s with Some k0 => if S r <=? c_inb s then None else Some k0 | None => None end = None).
    { destruct Hbd as [->|Hb]; [reflexivity|]. destruct (c_cur s); [|reflexivity]. destruct (Nat.leb_spec (S r) (c_inb s)); [reflexivity|lia]. }
    rewrite EN, En. cbn [bind fst snd]. rewrite Es1. cbn [set_draw c_iters c_alive c_wts c_draws c_counts c_cur c_inb]. reflexivity. }
  destruct (per_stream_within (S r) ws0 k (S r) s0 out s' I0 eq_refl eq_refl G) as (P1 & P2 & l & P3 & P4).
  split; [right; lia|]. split; [exact I'|]. exists k, l. auto.
Qed.

Lemma after_add over_all m B ws0 : forall a b s out s', after rng over_all m B ws0 (a + b) s = Some (out, s') ->
  exists o1 o2 s1, after rng over_all m B ws0 a s = Some (o1, s1) /\ after rng over_all m B ws0 b s1 = Some (o2, s') /\ out = o1 ++ o2.
Proof.
  induction a as [|a IH]; intros b s out s' E; cbn [Nat.add after] in *.
  - exists [], out, s. auto.
  - destruct (c_next rng over_all m B ws0 s) as [x s1|s1|e]; try discriminate.
    destruct (after rng over_all m B ws0 (a + b) s1) as [[o s2]|] eqn:E2; [|discriminate].
    cbn [option_map fst snd] in E. injection E as <- <-. destruct (IH b s1 o s2 E2) as (o1 & o2 & t & -> & E4 & ->).
    exists (x :: o1), o2, t. auto.
Qed.

Lemma per_stream_boundary B ws0 : 1 <= B -> forall j s out s', Inv s -> boundary B s ->
  after rng false PerStream B ws0 (j * B) s = Some (out, s') -> boundary B s' /\ Inv s'.
Proof.
  intros HB. induction j as [|j IH]; intros s out s' HI Hbd E.
  - cbn in E. injection E as <- <-. auto.
  - cbn [Nat.mul] in E. destruct (after_add _ _ _ _ _ _ _ _ _ E) as (o1 & o2 & s1 & E1 & E2 & _).
    destruct (per_stream_batch B ws0 s o1 s1 HB HI Hbd E1) as (Hb1 & I1 & _). eapply IH; eauto.
Qed.
End P.

Lemma init_weights_pos lens : lens <> [] -> Forall (fun n => 1 <= n) lens ->
  exists ws, init_weights true None lens = Ok ws /\ length ws = length lens /\ Forall (fun w => (0 < w)%Q) ws.
Proof.
  intros Hne F. unfold init_weights.
  assert (Hs : 1 <= sum lens) by (destruct F; [congruence|cbn; lia]).
  replace (sum lens =? 0) with false by lia. eexists; split; [reflexivity|]. split; [apply map_length|].
  generalize dependent (sum lens). intros t Ht. clear Hne.
  induction F as [|n lens Hn _ IH]; cbn [map]; constructor; [|exact IH].
  apply Qlt_shift_div_l.
  - unfold Qlt, inject_Z. cbn. lia.
  - rewrite Qmult_0_l. unfold Qlt, inject_Z. cbn. lia.
Qed.

Lemma qsum_div l t : (~ t == 0 -> qsum (map (fun w => w / t) l) == qsum l / t)%Q.
Proof. intros Ht. induction l as [|w l IH]; cbn [map qsum]; [field; exact Ht|]. rewrite IH. field. exact Ht. Qed.

Lemma inject_sum lens : (qsum (map (fun n => inject_Z (Z.of_nat n)) lens) == inject_Z (Z.of_nat (sum lens)))%Q.
Proof.
  induction lens as [|n lens IH]; cbn [map qsum sum]; [reflexivity|]. rewrite IH, Nat2Z.inj_add, inject_Z_plus. reflexivity.
Qed.

Lemma weights_given ws lens : ~ (qsum ws == 0)%Q -> exists out, init_weights false (Some ws) lens = Ok out /\
  Forall2 (fun w o => o * qsum ws == w)%Q ws out /\ (qsum out == 1)%Q.
Proof.
  intros H. destruct ws as [|w ws]; [exfalso; apply H; reflexivity|].
  unfold init_weights. destruct (Qeq_bool (qsum (w :: ws)) 0) eqn:E; [apply Qeq_bool_iff in E; contradiction|].
  eexists. split; [reflexivity|]. split.
  - set (t := qsum (w :: ws)) in *. clearbody t. clear E. generalize (w :: ws). intros l. induction l as [|x l IH]; cbn [map]; constructor; [field; exact H|exact IH].
  - rewrite (qsum_div _ _ H). field. exact H.
Qed.

Lemma weights_from_lengths all lens : sum lens <> 0 -> exists out, init_weights all None lens = Ok out /\
  Forall2 (fun n o => o * inject_Z (Z.of_nat (sum lens)) == inject_Z (Z.of_nat n))%Q lens out /\ (qsum out == 1)%Q.
Proof.
  intros H. unfold init_weights. destruct (Nat.eqb_spec (sum lens) 0) as [E|_]; [contradiction|].
  assert (Ht : ~ (inject_Z (Z.of_nat (sum lens)) == 0)%Q).
  { unfold Qeq, inject_Z. cbn. lia. }
  eexists. split; [reflexivity|]. split.
  - set (t := inject_Z _) in *. clearbody t. clear H. induction lens as [|x l IH]; cbn [map]; constructor; [field; exact Ht|exact IH].
  - rewrite <- (map_map (fun n => inject_Z (Z.of_nat n)) (fun w => (w / inject_Z (Z.of_nat (sum lens)))%Q)).
    rewrite (qsum_div _ _ Ht), inject_sum. field. exact Ht.
Qed.

(** ** After the end *)
Section Ended.
Context {A : Type} (rng : nat -> list nat -> list Q -> nat) (Hrng : forall n l ws, l <> [] -> In (rng n l ws) l).
Implicit Types s : cit A.

Lemma next_all_stop m B ws0 : Forall (fun w => (0 < w)%Q) ws0 -> forall fuel s s', Inv s -> length ws0 = length (c_iters s) ->
  next_all rng fuel m B ws0 s = Stop s' -> Inv s' /\ c_iters s' = c_iters s.
Proof.
  intros P. induction fuel as [|fuel IH]; intros s s' HI Hw E; [discriminate|]. cbn [next_all] in E.
  pose proof HI as (L & D & W & N & C & K).
  destruct (left_indexes (c_alive s)) as [|k0 [|k1 lf]] eqn:El; [discriminate| |].
  - destruct (get_sample k0 s) as [xs|[]]; try discriminate. injection E as <-.
    assert (Hne : c_iters s <> []).
    { intros Z. pose proof (nalive_le (c_alive s)). rewrite L, Z in H. cbn in H. lia. }
    pose proof (init_inv rng Hrng (c_iters s) ws0 Hne Hw P) as (L' & D' & W' & N' & _ & _). cbn [c_init c_iters c_alive c_wts] in *.
    split; [|reflexivity]. unfold Inv. cbn [c_iters c_alive c_wts c_counts c_cur]. auto 8.
  - destruct (get_index_ok rng Hrng m B s HI) as (k & s1 & Eq & (S1 & S2 & S3 & S4) & I1 & Hk & Hal). rewrite Eq in E.
    destruct (nth_error (c_iters s) k) as [[|x l]|] eqn:Ei; [| |apply nth_error_None in Ei; lia].
    2: { destruct (get_sample_inv rng Hrng s1 k x l I1 ltac:(rewrite S1; exact Ei)) as (s2 & E2 & _). rewrite E2 in E. discriminate. }
    unfold get_sample in E. rewrite S1, Ei in E.
    assert (Hna : 2 <= nalive (c_alive s)) by (rewrite <- left_length, El; cbn; lia).
    assert (Hn' : 1 <= nalive (upd k (fun _ => false) (c_alive s))).
    { destruct Hal as [Ha|[Ha _]]; [pose proof (nalive_kill _ _ Ha); lia|rewrite (nalive_dead _ _ Ha); lia]. }
    destruct (renormalise_ok _ _ (pos_weights_kill _ _ k W) Hn') as (ws' & Er & Wr).
    unfold exhaust in E. rewrite S3, Er in E. cbn [bind] in E.
    match type of E with next_all _ _ _ _ _ ?t = _ => set (s2 := t) in E end.
    assert (I2 : Inv s2).
    { split; [cbn; rewrite upd_length, S2, S1; exact L|]. split; [|split; [cbn; rewrite S2; exact Wr|split; [cbn; rewrite S2; exact Hn'|apply I1]]].
      cbn [c_alive c_iters s2]. rewrite S1, S2. intros i Hi. destruct (Nat.eq_dec k i) as [<-|Hne]; [exact Ei|].
      rewrite nth_error_upd_neq in Hi by exact Hne. apply D. exact Hi. }
    destruct (IH s2 s' I2) as (I' & E'); [cbn; rewrite S1; exact Hw|exact E|]. split; [exact I'|]. rewrite E'. exact S1.
Qed.

Lemma stopped_forever m B ws0 : Forall (fun w => (0 < w)%Q) ws0 -> forall n s, Inv s -> length ws0 = length (c_iters s) ->
  Forall (fun l => l = []) (c_iters s) -> only_stops (fun s s' => c_next rng true m B ws0 s = Stop s') n s.
Proof.
  intros P. induction n as [|n IH]; intros s HI Hw F; [exact I|]. cbn [only_stops].
  pose proof (c_next_all_ok rng Hrng m B ws0 s HI) as G.
  destruct (c_next rng true m B ws0 s) as [x s'|s'|e] eqn:E; cbn [step_ok] in G.
  - destruct G as (k & l & Hk & _). rewrite Forall_forall in F. apply nth_error_In in Hk. apply F in Hk. discriminate.
  - exists s'. split; [reflexivity|]. destruct (next_all_stop m B ws0 P _ s s' HI Hw E) as (I' & E'). apply IH; [exact I'| |]; rewrite E'; assumption.
  - contradiction.
Qed.

Lemma takes_members (t : list (list A)) out rest : takes t out rest -> length rest = length t.
Proof. induction 1 as [|k x l t out rest E _ IH]; [reflexivity|]. rewrite IH. apply upd_length. Qed.
End Ended.
