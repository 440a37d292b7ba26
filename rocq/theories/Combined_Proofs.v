From Verif Require Import Base Combined_Model Combined_Spec.
From Coq Require Import QArith.
Local Open Scope nat_scope.
Local Ltac Zify.zify_post_hook ::= idtac.

(** ** Indexes left *)
Lemma left_from : forall alive s i, In i (map fst (filter snd (combine (seq s (length alive)) alive))) <->
  s <= i /\ nth_error alive (i - s) = Some true.
Proof.
  induction alive as [|a alive IH]; intros s i; cbn [length seq combine filter map].
  - cbn. split; [tauto|]. intros [_ H]. destruct (i - s); discriminate.
  - assert (E : forall P : Prop, (In i (map fst (filter snd (combine (seq (S s) (length alive)) alive))) <-> S s <= i /\ nth_error alive (i - S s) = Some true)) by (intros; apply IH).
    specialize (E True). destruct a; cbn [snd map fst In].
    + rewrite E. split.
      * intros [<-|[H1 H2]]; [rewrite Nat.sub_diag; auto|]. split; [lia|]. replace (i - s) with (S (i - S s)) by lia. exact H2.
      * intros [H1 H2]. destruct (Nat.eq_dec s i) as [|Hn]; [left; assumption|right]. split; [lia|].
        replace (i - s) with (S (i - S s)) in H2 by lia. exact H2.
    + rewrite E. split.
      * intros [H1 H2]. split; [lia|]. replace (i - s) with (S (i - S s)) by lia. exact H2.
      * intros [H1 H2]. destruct (Nat.eq_dec s i) as [->|Hn]; [rewrite Nat.sub_diag in H2; discriminate|]. split; [lia|].
        replace (i - s) with (S (i - S s)) in H2 by lia. exact H2.
Qed.
Lemma left_In alive i : In i (left_indexes alive) <-> nth_error alive i = Some true.
Proof. unfold left_indexes. rewrite left_from, Nat.sub_0_r. split; [tauto|]. intros; split; [lia|assumption]. Qed.

Definition nalive (alive : list bool) : nat := length (filter (fun b => b) alive).
Lemma left_length alive : length (left_indexes alive) = nalive alive.
Proof.
  unfold left_indexes, nalive. rewrite map_length. generalize 0. induction alive as [|a alive IH]; intros s; [reflexivity|].
  cbn [length seq combine filter snd]. destruct a; cbn [length]; rewrite <- (IH (S s)); reflexivity.
Qed.
Lemma nalive_kill : forall alive k, nth_error alive k = Some true -> S (nalive (upd k (fun _ => false) alive)) = nalive alive.
Proof.
  unfold nalive. induction alive as [|a alive IH]; intros [|k] H; try discriminate; cbn in *.
  - injection H as ->. reflexivity.
  - specialize (IH k H). destruct a; cbn [length]; lia.
Qed.
Lemma nalive_dead : forall alive k, nth_error alive k = Some false -> upd k (fun _ => false) alive = alive.
Proof.
  induction alive as [|a alive IH]; intros [|k] H; try discriminate; cbn in *; [injection H as ->; reflexivity|].
  f_equal. apply IH. exact H.
Qed.
Lemma nalive_le alive : nalive alive <= length alive.
Proof. unfold nalive. induction alive as [|[] l IH]; cbn; lia. Qed.

(** ** Weights *)
Definition pos_weights (alive : list bool) (ws : list (option Q)) : Prop :=
  length ws = length alive /\
  forall i, (nth_error alive i = Some true -> exists w, nth_error ws i = Some (Some w) /\ (0 < w)%Q) /\
            (nth_error alive i = Some false -> nth_error ws i = Some None).

Lemma pos_weights_cons a alive w ws : pos_weights (a :: alive) (w :: ws) ->
  (if a then exists q, w = Some q /\ (0 < q)%Q else w = None) /\ pos_weights alive ws.
Proof.
  intros [L H]. split.
  - destruct (H 0) as [H1 H2]. destruct a; cbn in *.
    + destruct (H1 eq_refl) as (q & E & Hq). injection E as ->. exists q; auto.
    + specialize (H2 eq_refl). injection H2 as ->. reflexivity.
  - split; [cbn in L; lia|]. intros i. apply (H (S i)).
Qed.

Lemma qsum_pos : forall alive ws, pos_weights alive ws -> (0 <= qsum (some_weights ws))%Q /\ (1 <= nalive alive -> (0 < qsum (some_weights ws))%Q /\ some_weights ws <> []).
Proof.
  induction alive as [|a alive IH]; intros [|w ws] H; try (destruct H as [L _]; discriminate).
  - split; [apply Qle_refl|]. cbn. lia.
  - apply pos_weights_cons in H. destruct H as [Hw H]. destruct (IH ws H) as [I1 I2].
    destruct a; [destruct Hw as (q & -> & Hq)|subst w]; cbn [some_weights qsum].
    + assert (P : (0 < q + qsum (some_weights ws))%Q).
      { rewrite <- (Qplus_0_r 0). apply Qplus_lt_le_compat; assumption. }
      split; [apply Qlt_le_weak; exact P|]. intros _. split; [exact P|discriminate].
    + split; [exact I1|]. exact I2.
Qed.

Lemma renormalise_ok alive ws : pos_weights alive ws -> 1 <= nalive alive ->
  exists ws', renormalise ws = Ok ws' /\ pos_weights alive ws'.
Proof.
  intros H Hn. destruct (qsum_pos alive ws H) as [_ Hp]. destruct (Hp Hn) as [P _]. unfold renormalise.
  set (t := qsum (some_weights ws)) in *. clearbody t.
  assert (E : Qeq_bool t 0 = false).
  { apply not_true_is_false. intros E. apply Qeq_bool_iff in E. rewrite E in P. apply Qlt_irrefl in P. exact P. }
  rewrite E. cbn [andb]. eexists; split; [reflexivity|]. destruct H as [L H]. split; [rewrite map_length; exact L|].
  intros i. rewrite nth_error_map. destruct (H i) as [H1 H2]. split; intros Ha.
  - destruct (H1 Ha) as (w & -> & Hw). cbn. exists (w / t)%Q. split; [reflexivity|].
    apply Qlt_shift_div_l; [exact P|]. rewrite Qmult_0_l. exact Hw.
  - rewrite (H2 Ha). reflexivity.
Qed.

Lemma pos_weights_kill alive ws k : pos_weights alive ws ->
  pos_weights (upd k (fun _ => false) alive) (upd k (fun _ => None) ws).
Proof.
  intros [L H]. split; [rewrite !upd_length; exact L|]. intros i. destruct (Nat.eq_dec k i) as [->|Hn].
  - rewrite !nth_error_upd_eq. destruct (nth_error alive i) as [a|] eqn:E; cbn; split; try discriminate.
    intros _. destruct (nth_error ws i) eqn:Ew; [reflexivity|]. apply nth_error_None in Ew.
    assert (i < length alive) by (apply nth_error_Some; congruence). lia.
  - rewrite !nth_error_upd_neq by exact Hn. apply H.
Qed.

Lemma pos_weights_count : forall alive ws, pos_weights alive ws -> length (some_weights ws) = nalive alive.
Proof.
  induction alive as [|a alive IH]; intros [|w ws] H; try (destruct H as [L _]; discriminate); [reflexivity|].
  apply pos_weights_cons in H. destruct H as [Hw H]. pose proof (IH ws H) as E. unfold nalive in *.
  destruct a; [destruct Hw as (q & -> & _)|subst w]; cbn [some_weights filter length]; rewrite E; reflexivity.
Qed.

Section P.
Context {A : Type} (rng : nat -> list nat -> list Q -> nat).
Context (Hrng : forall n l ws, l <> [] -> In (rng n l ws) l).
Implicit Types s : cit A.

Definition Inv s : Prop :=
  length (c_alive s) = length (c_iters s) /\
  (forall i, nth_error (c_alive s) i = Some false -> nth_error (c_iters s) i = Some []) /\
  pos_weights (c_alive s) (c_wts s) /\
  1 <= nalive (c_alive s) /\
  (forall k, c_cur s = Some k -> k < length (c_iters s)) /\
  length (c_counts s) = length (c_iters s).

Lemma new_index_ok s : Inv s -> exists k s1, new_index rng s = Ok (k, s1) /\ In k (left_indexes (c_alive s)) /\
  s1 = set_draw s (S (c_draws s)) (c_cur s) (c_inb s).
Proof.
  intros (L & D & W & N & C & K). unfold new_index. destruct (qsum_pos _ _ W) as [_ P]. destruct (P N) as [P1 _].
  assert (E : Qle_bool (qsum (some_weights (c_wts s))) 0 = false).
  { apply not_true_is_false. intros E. apply Qle_bool_iff in E. apply (Qlt_irrefl 0). eapply Qlt_le_trans; eauto. }
  rewrite (pos_weights_count _ _ W), left_length, Nat.eqb_refl. cbn [negb].
  rewrite E. eexists _, _. split; [reflexivity|]. split; [|reflexivity]. apply Hrng.
  intros E'. apply (f_equal (@length _)) in E'. rewrite left_length in E'. cbn in E'. lia.
Qed.

Definition same_but_draw s s1 : Prop := c_iters s1 = c_iters s /\ c_alive s1 = c_alive s /\ c_wts s1 = c_wts s /\ c_counts s1 = c_counts s.

Lemma get_index_ok m B s : Inv s -> exists k s1, get_index rng m B s = Ok (k, s1) /\ same_but_draw s s1 /\ Inv s1 /\
  k < length (c_iters s) /\ (nth_error (c_alive s) k = Some true \/
    (nth_error (c_alive s) k = Some false /\ c_inb s1 = S (c_inb s) /\ c_inb s < B)).
Proof.
  intros HI. pose proof HI as (L & D & W & N & C & K). destruct m.
  - destruct (new_index_ok s HI) as (k & s1 & E & Hk & ->). cbn [get_index]. rewrite E. exists k. eexists. split; [reflexivity|].
    split; [repeat split|]. split; [exact HI|]. apply left_In in Hk. split; [|left; exact Hk].
    rewrite <- L. apply nth_error_Some. congruence.
  - cbn [get_index].
    assert (G : forall s', c_alive s' = c_alive s -> s' = s -> exists k s1,
      bind (new_index rng s') (fun ks => Ok (fst ks, set_draw (snd ks) (c_draws (snd ks)) (Some (fst ks)) 1)) = Ok (k, s1) /\
      same_but_draw s s1 /\ Inv s1 /\ k < length (c_iters s) /\ nth_error (c_alive s) k = Some true).
    { intros s' _ ->. destruct (new_index_ok s HI) as (k & s1 & E & Hk & ->). rewrite E. cbn [bind fst snd].
      apply left_In in Hk. assert (k < length (c_iters s)) by (rewrite <- L; apply nth_error_Some; congruence).
      exists k. eexists. split; [reflexivity|]. split; [repeat split|]. split; [|split; assumption].
      split; [exact L|]. split; [exact D|]. split; [exact W|]. split; [exact N|]. split; [|exact K]. intros k' E'. cbn in E'. injection E' as <-. cbn. assumption. }
    destruct (c_cur s) as [k|] eqn:Ec.
    + destruct (Nat.leb_spec B (c_inb s)) as [Hb|Hb].
      * destruct (G s eq_refl eq_refl) as (k' & s1 & E & H1 & H2 & H3 & H4). exists k', s1. auto 6.
      * exists k. eexists. split; [reflexivity|]. split; [repeat split|]. specialize (C k eq_refl).
        split; [split; [exact L|split; [exact D|split; [exact W|split; [exact N|split; [|exact K]]]]]; intros k' E'; cbn in E' |- *; congruence|]. split; [exact C|].
        destruct (nth_error (c_alive s) k) as [[]|] eqn:Ek; [left; reflexivity|right; auto|].
        apply nth_error_None in Ek. lia.
    + destruct (G s eq_refl eq_refl) as (k' & s1 & E & H1 & H2 & H3 & H4). exists k', s1. auto 6.
Qed.

Lemma get_sample_inv s k x l : Inv s -> nth_error (c_iters s) k = Some (x :: l) ->
  exists s', get_sample k s = Ok (x, s') /\ Inv s' /\ c_iters s' = upd k (fun _ => l) (c_iters s) /\ c_counts s' = upd k S (c_counts s).
Proof.
  intros (L & D & W & N & C & K) E. unfold get_sample. rewrite E.
  assert (k < length (c_iters s)) by (apply nth_error_Some; congruence).
  replace (length (c_counts s) <=? k) with false by lia. eexists. split; [reflexivity|]. split; [|split; reflexivity].
  split; [cbn; rewrite upd_length; exact L|].
  split; [|split; [exact W|split; [exact N|split; [cbn; rewrite upd_length; exact C|cbn; rewrite !upd_length; exact K]]]].
  cbn [c_iters c_alive]. intros i Hi. specialize (D i Hi). destruct (Nat.eq_dec k i) as [->|Hn]; [congruence|].
  rewrite nth_error_upd_neq by exact Hn. exact D.
Qed.

Definition step_ok s (o : outcome A) : Prop :=
  match o with
  | Yield x s' => exists k l, nth_error (c_iters s) k = Some (x :: l) /\ c_iters s' = upd k (fun _ => l) (c_iters s) /\
                    Inv s' /\ c_counts s' = upd k S (c_counts s)
  | Stop s' => Forall (fun l => l = []) (c_iters s)
  | Raise _ => False
  end.

Definition measure (B : nat) s : nat := nalive (c_alive s) * S (S B) + (B - c_inb s).

Lemma next_all_ok m B ws0 : forall fuel s, Inv s -> measure B s < fuel -> step_ok s (next_all rng fuel m B ws0 s).
Proof.
  induction fuel as [|fuel IH]; intros s HI Hf; [lia|]. cbn [next_all].
  pose proof HI as (L & D & W & N & C & K).
  destruct (left_indexes (c_alive s)) as [|k0 [|k1 lf]] eqn:El.
  - apply (f_equal (@length _)) in El. rewrite left_length in El. cbn in El. lia.
  - assert (Hk0 : nth_error (c_alive s) k0 = Some true) by (apply left_In; rewrite El; left; reflexivity).
    assert (k0 < length (c_iters s)) by (rewrite <- L; apply nth_error_Some; congruence).
    destruct (nth_error (c_iters s) k0) as [[|x l]|] eqn:Ei; [| |apply nth_error_None in Ei; lia].
    + unfold get_sample. rewrite Ei. cbn [step_ok]. apply Forall_forall. intros q Hq. apply In_nth_error in Hq.
      destruct Hq as (i & Hi). destruct (nth_error (c_alive s) i) as [[]|] eqn:Ea.
      * assert (In i (left_indexes (c_alive s))) by (apply left_In; exact Ea). rewrite El in H0. destruct H0 as [<-|[]]. congruence.
      * rewrite (D i Ea) in Hi. congruence.
      * apply nth_error_None in Ea. assert (i < length (c_iters s)) by (apply nth_error_Some; congruence). lia.
    + destruct (get_sample_inv s k0 x l HI Ei) as (s' & -> & I' & E1 & E2). cbn [fst snd step_ok]. exists k0, l. auto.
  - assert (Hna : 2 <= nalive (c_alive s)) by (rewrite <- left_length, El; cbn; lia).
    destruct (get_index_ok m B s HI) as (k & s1 & E & (S1 & S2 & S3 & S4) & I1 & Hk & Hal). rewrite E.
    destruct (nth_error (c_iters s) k) as [[|x l]|] eqn:Ei; [| |apply nth_error_None in Ei; lia].
    2: { destruct (get_sample_inv s1 k x l I1 ltac:(rewrite S1; exact Ei)) as (s' & -> & I' & E1 & E2).
         cbn [fst snd step_ok]. exists k, l. rewrite S1 in E1. rewrite S4 in E2. auto. }
    unfold get_sample. rewrite S1, Ei.
    assert (Hn' : 1 <= nalive (upd k (fun _ => false) (c_alive s))).
    { destruct Hal as [Ha|[Ha _]]; [pose proof (nalive_kill _ _ Ha); lia|rewrite (nalive_dead _ _ Ha); lia]. }
    destruct (renormalise_ok _ _ (pos_weights_kill _ _ k W) Hn') as (ws' & Er & Wr).
    unfold exhaust. rewrite S3, Er. cbn [bind].
    set (s2 := {| c_iters := c_iters s1; c_alive := _; c_wts := _; c_draws := _; c_counts := _; c_cur := _; c_inb := _ |}).
    assert (I2 : Inv s2).
    { split; [cbn; rewrite upd_length, S2, S1; exact L|]. split; [|split; [cbn; rewrite S2; exact Wr|split; [cbn; rewrite S2; exact Hn'|apply I1]]].
      cbn [c_alive c_iters s2]. rewrite S1, S2. intros i Hi. destruct (Nat.eq_dec k i) as [<-|Hne]; [exact Ei|].
      rewrite nth_error_upd_neq in Hi by exact Hne. apply D. exact Hi. }
    assert (Hm : measure B s2 < fuel).
    { unfold measure in *. cbn [c_alive c_inb s2]. rewrite S2. destruct Hal as [Ha|(Ha & Hi & Hb)].
      - pose proof (nalive_kill _ _ Ha). nia.
      - rewrite (nalive_dead _ _ Ha), Hi. nia. }
    specialize (IH s2 I2 Hm). cbn [c_iters s2] in IH.
    destruct (next_all rng fuel m B ws0 s2) as [x s'|s'|e]; cbn [step_ok] in *; cbn [s2 c_iters c_counts] in IH; rewrite ?S1, ?S4 in IH; exact IH.
Qed.

Lemma c_next_all_ok m B ws0 s : Inv s -> step_ok s (c_next rng true m B ws0 s).
Proof.
  intros HI. unfold c_next. apply next_all_ok; [exact HI|]. pose proof HI as (L & _). unfold measure.
  pose proof (nalive_le (c_alive s)). rewrite L in H. cbn [Nat.mul]. nia.
Qed.

(** ** Draining *)
Theorem drain_ok m B ws0 : forall n s, Inv s -> length (concat (c_iters s)) = n ->
  exists out s' s'' rest, after rng true m B ws0 n s = Some (out, s') /\ takes (c_iters s) out rest /\
    Forall (fun l => l = []) rest /\ c_next rng true m B ws0 s' = Stop s''.
Proof.
  induction n as [|n IH]; intros s HI Hn.
  - exists [], s. pose proof (c_next_all_ok m B ws0 s HI) as H.
    assert (Z : concat (c_iters s) = []) by (destruct (concat (c_iters s)); [reflexivity|discriminate]).
    destruct (c_next rng true m B ws0 s) as [x s'|s'|e] eqn:E; cbn [step_ok] in H.
    + destruct H as (k & l & Hk & _). apply concat_upd_take in Hk. rewrite Z in Hk. apply Permutation_sym, Permutation_nil in Hk. discriminate.
    + exists s', (c_iters s). split; [reflexivity|]. split; [constructor|]. split; [exact H|exact eq_refl].
    + contradiction.
  - pose proof (c_next_all_ok m B ws0 s HI) as H. cbn [after].
    destruct (c_next rng true m B ws0 s) as [x s1|s1|e] eqn:E; cbn [step_ok] in H.
    + destruct H as (k & l & Hk & Hi & I1 & _).
      assert (Hl : length (concat (c_iters s1)) = n).
      { rewrite Hi. pose proof (Permutation_length (concat_upd_take _ _ _ _ Hk)) as P. cbn [length] in P. lia. }
      destruct (IH s1 I1 Hl) as (out & s' & s'' & rest & E1 & T & F & St).
      exists (x :: out), s', s'', rest. rewrite E1. cbn [option_map fst snd]. split; [reflexivity|]. split; [|split; assumption].
      econstructor; [exact Hk|]. rewrite <- Hi. exact T.
    + exfalso. assert (Z : concat (c_iters s) = []).
      { clear -H. induction H as [|l q -> _ IH]; [reflexivity|exact IH]. }
      rewrite Z in Hn. discriminate.
    + contradiction.
Qed.

Lemma nalive_repeat n : nalive (repeat true n) = n.
Proof. unfold nalive. induction n; cbn; auto. Qed.
Lemma init_inv_restored (iters : list (list A)) ws restored : iters <> [] -> length ws = length iters -> Forall (fun w => (0 < w)%Q) ws ->
  (forall l, restored = Some l -> length l = length iters) ->
  Inv (c_init iters ws restored).
Proof.
  intros Hne L Hp HR. split; [apply repeat_length|]. split.
  { cbn. intros i Hi. apply nth_error_In in Hi. apply repeat_spec in Hi. discriminate. }
  split.
  { split; [cbn; rewrite map_length, repeat_length; exact L|]. intros i. cbn [c_init c_alive c_wts]. split; intros Hi.
    - assert (i < length ws) by (rewrite L, <- (repeat_length true (length iters)); apply nth_error_Some; congruence).
      destruct (nth_error ws i) as [w|] eqn:E; [|apply nth_error_None in E; lia]. exists w. rewrite nth_error_map, E.
      split; [reflexivity|]. rewrite Forall_forall in Hp. apply Hp. eapply nth_error_In; eauto.
    - apply nth_error_In in Hi. apply repeat_spec in Hi. discriminate. }
  split; [cbn [c_init c_alive]; rewrite nalive_repeat; destruct iters; [congruence|cbn; lia]|]. split; [cbn; discriminate|].
  cbn. destruct restored as [l|]; [apply HR; reflexivity|apply repeat_length].
Qed.
Lemma init_inv (iters : list (list A)) ws : iters <> [] -> length ws = length iters -> Forall (fun w => (0 < w)%Q) ws ->
  Inv (c_init iters ws None).
Proof. intros. apply init_inv_restored; auto. discriminate. Qed.

(** ** Stop at the first exhausted dataset *)
Lemma c_next_first_ok m B ws0 s : Inv s ->
  match c_next rng false m B ws0 s with
  | Yield x s' => exists k l, nth_error (c_iters s) k = Some (x :: l) /\ c_iters s' = upd k (fun _ => l) (c_iters s) /\
                    Inv s' /\ c_counts s' = upd k S (c_counts s)
  | Stop s' => exists k, option_map fst (match get_index rng m B s with Ok r => Some r | Err _ => None end) = Some k /\ nth_error (c_iters s) k = Some []
  | Raise _ => False
  end.
Proof.
  intros HI. unfold c_next. destruct (get_index_ok m B s HI) as (k & s1 & -> & (S1 & S2 & S3 & S4) & I1 & Hk & _).
  destruct (nth_error (c_iters s) k) as [[|x l]|] eqn:Ei; [| |apply nth_error_None in Ei; lia].
  - unfold get_sample. rewrite S1, Ei. exists k. auto.
  - destruct (get_sample_inv s1 k x l I1 ltac:(rewrite S1; exact Ei)) as (s' & -> & I' & E1 & E2). cbn [fst snd].
    exists k, l. rewrite S1 in E1. rewrite S4 in E2. auto.
Qed.
End P.
