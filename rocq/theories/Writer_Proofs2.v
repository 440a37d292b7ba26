(** Lemmas about the writer: additions in any order. *)
From Verif Require Import Base Dict Format_Model Writer_Model Writer_Spec Writer_Proofs.
Local Ltac Zify.zify_post_hook ::= idtac.

(** The items [run] have the consecutive indexes [j], [j+1], ... in [l]. *)
Definition run_of (l : list (nat * item)) (xs : list item) : Prop :=
  exists j, forall i x, nth_error xs i = Some x -> In (j + i, x) l.

Definition present (d : list (nat * item)) (i n : nat) : Prop := forall j, i <= j < n -> exists x, dget j d = Some x.

Lemma scan_fuel fuel c d : forall i nb ni,
  scan fuel c d i nb ni = None -> forall j, j < fuel -> In (i + j) (map fst d).
Proof.
  induction fuel as [|f IH]; intros i nb ni H j Hj; [lia|]. cbn [scan] in H.
  destruct (dget i d) as [x|] eqn:E; [|discriminate].
  destruct (it_bytes x =? 0); [discriminate|].
  destruct (over c (nb + it_bytes x) (ni + units x)); [discriminate|].
  destruct j as [|j].
  - rewrite Nat.add_0_r. apply dget_In in E. apply in_map_iff. exists (i, x). auto.
  - specialize (IH _ _ _ H j ltac:(lia)). replace (i + S j) with (S i + j) by lia. exact IH.
Qed.

Lemma scan_some c d i nb ni : exists r, scan (S (length d)) c d i nb ni = Some r.
Proof.
  destruct (scan (S (length d)) c d i nb ni) as [r|] eqn:E; [eexists; reflexivity|]. exfalso.
  pose proof (scan_fuel _ _ _ _ _ _ E) as H.
  assert (Hi : incl (seq i (S (length d))) (map fst d)).
  { intros k Hk. apply in_seq in Hk. replace k with (i + (k - i)) by lia. apply H. lia. }
  pose proof (NoDup_incl_length (seq_NoDup (S (length d)) i) Hi) as Hl. rewrite seq_length, map_length in Hl. lia.
Qed.

Lemma scan_any fuel c d : forall i nb ni a m nb' ni',
  over c nb ni = false -> scan fuel c d i nb ni = Some (a, m, nb', ni') ->
  i <= m /\ present d i m /\
  if a then (exists x, dget m d = Some x) /\ exists nb0 ni0, over c nb0 ni0 = false /\ m - i + ni <= ni0
  else over c nb' ni' = false /\ m - i + ni <= ni' /\
       match dget m d with Some x => it_bytes x = 0 | None => True end.
Proof.
  induction fuel as [|f IH]; intros i nb ni a m nb' ni' Ho H; [discriminate|]. cbn [scan] in H.
  destruct (dget i d) as [x|] eqn:E.
  - destruct (Nat.eqb_spec (it_bytes x) 0) as [Hz|Hz].
    + injection H as <- <- <- <-. split; [lia|]. split; [intros j Hj; lia|]. rewrite E. split; [exact Ho|]. split; [lia|exact Hz].
    + destruct (over c (nb + it_bytes x) (ni + units x)) eqn:Eo.
      * injection H as <- <- <- <-. split; [lia|]. split; [intros j Hj; lia|].
        split; [eexists; exact E|]. exists nb, ni. split; [exact Ho|lia].
      * apply IH in H; [|exact Eo]. destruct H as (H1 & H2 & H3). split; [lia|]. split.
        -- intros j Hj. destruct (Nat.eq_dec j i) as [->|Hn]; [eexists; exact E|]. apply H2. lia.
        -- pose proof (units_pos x). destruct a.
           ++ destruct H3 as (H3 & nb0 & ni0 & H4 & H5). split; [exact H3|]. exists nb0, ni0. split; [exact H4|lia].
           ++ destruct H3 as (H3 & H4 & H5). split; [exact H3|]. split; [lia|exact H5].
  - injection H as <- <- <- <-. split; [lia|]. split; [intros j Hj; lia|]. rewrite E. split; [exact Ho|]. split; [lia|exact I].
Qed.

Lemma pop_range_any n : forall a d,
  NoDup (map fst d) -> present d a (a + n) ->
  exists xs d', pop_range n a d = Ok (xs, d') /\ length xs = n /\ NoDup (map fst d') /\
    Permutation d (combine (seq a n) xs ++ d') /\ incl d' d.
Proof.
  induction n as [|n IH]; intros a d Hn Hp.
  - exists [], d. cbn. split; [reflexivity|]. split; [reflexivity|]. split; [exact Hn|]. split; [apply Permutation_refl|apply incl_refl].
  - destruct (Hp a ltac:(lia)) as [x Hx]. destruct (dpop_dget a d x Hx) as [r Hr].
    cbn [pop_range]. rewrite Hr.
    destruct (IH (S a) r (NoDup_dpop _ _ _ _ Hn Hr)) as (xs & d' & E & Hl & Hn' & Hperm & Hinc).
    { intros j Hj. rewrite (dget_dpop _ _ _ _ Hn Hr). replace (a =? j) with false by (symmetry; apply Nat.eqb_neq; lia).
      apply Hp. lia. }
    rewrite E. cbn [bind fst snd]. exists (x :: xs), d'. split; [reflexivity|]. split; [cbn; lia|]. split; [exact Hn'|].
    destruct (dpop_split _ _ _ _ Hr) as (d1 & d2 & -> & ->). cbn [seq combine app]. split.
    + eapply Permutation_trans; [apply Permutation_sym, Permutation_middle|]. constructor. exact Hperm.
    + intros z Hz. apply Hinc in Hz. apply in_app_iff in Hz. apply in_app_iff. cbn. tauto.
Qed.

Lemma combine_run a n xs l :
  length xs = n -> incl (combine (seq a n) xs) l -> run_of l xs.
Proof.
  intros Hl Hi. exists a. intros i x Hx. apply Hi.
  assert (Hlt : i < n) by (rewrite <- Hl; apply nth_error_Some; congruence).
  apply (nth_error_In (combine (seq a n) xs) i).
  clear Hi. revert a n i Hl Hx Hlt; induction xs as [|y xs IH]; intros a n i Hl Hx Hlt; [destruct i; discriminate|].
  destruct n as [|n]; [lia|]. destruct i as [|i]; cbn in *.
  - injection Hx as ->. rewrite Nat.add_0_r. reflexivity.
  - replace (a + S i) with (S a + i) by lia. apply IH; auto; lia.
Qed.

Lemma map_snd_combine n : forall a (xs : list item), length xs = n -> map snd (combine (seq a n) xs) = xs.
Proof.
  induction n as [|n IH]; intros a [|x xs] H; try discriminate; [reflexivity|]. cbn. rewrite IH by (cbn in H; lia). reflexivity.
Qed.

(** ** Invariant *)

Record ginv (c : wcfg) (s : wstate) (l : list (nat * item)) : Prop := GInv {
  g_keys : NoDup (map fst (w_items s));
  g_incl : incl (w_items s) l;
  g_perm : Permutation (map snd l) (stored s ++ map snd (w_items s));
  g_runs : Forall (run_of l) (map ch_items (w_chunks s));
  g_done : w_done s = false;
  g_mode : (w_min s = None /\ w_max s = None) \/
           exists mn mx, w_min s = Some mn /\ w_max s = Some mx /\ mn <= mx /\ present (w_items s) mn mx /\
             over c (w_nb s) (w_ni s) = false /\ mx - mn <= w_ni s /\
             match dget mx (w_items s) with Some x => it_bytes x = 0 | None => True end
}.

Lemma over_zero c : over c 0 0 = false.
Proof. unfold over, exceeds. destruct (c_bytes c) as [[|?]|], (c_size c) as [[|?]|]; reflexivity. Qed.

Lemma size_ok_ni c n nb ni : over c nb ni = false -> n <= ni -> truthy (c_size c) && exceeds (c_size c) n = false.
Proof.
  unfold over. intros H Hle. apply orb_false_iff in H. destruct H as [_ H].
  destruct (exceeds (c_size c) n) eqn:E; [|apply andb_false_r].
  rewrite (exceeds_mono _ _ _ Hle E) in H. discriminate.
Qed.

Lemma stored_app s ch d mn mx nb ni ix dn :
  stored (WState d mn mx nb ni (w_chunks s ++ [ch]) ix dn) = stored s ++ ch_items ch.
Proof. unfold stored. cbn [w_chunks]. rewrite map_app, concat_app. cbn. rewrite app_nil_r. reflexivity. Qed.

(** Adding to a state whose scan starts at [_max_index]. *)
Lemma write_if_full_any c s l mn mx :
  NoDup (map fst (w_items s)) -> incl (w_items s) l ->
  Permutation (map snd l) (stored s ++ map snd (w_items s)) ->
  Forall (run_of l) (map ch_items (w_chunks s)) -> w_done s = false ->
  w_min s = Some mn -> w_max s = Some mx -> mn <= mx -> present (w_items s) mn mx ->
  over c (w_nb s) (w_ni s) = false -> mx - mn <= w_ni s -> w_items s <> [] ->
  exists s', write_if_full c s = Ok s' /\ ginv c s' l.
Proof.
  intros Hk Hincl Hperm Hruns Hdone Hmin Hmax Hle Hpres Hov Hni Hne.
  unfold write_if_full, should_write. rewrite Hmax. destruct (w_items s) as [|e es] eqn:Es; [congruence|]. rewrite <- Es in *.
  destruct (scan_some c (w_items s) mx (w_nb s) (w_ni s)) as [[[[a m] nb'] ni'] Hr]. rewrite Hr.
  destruct (scan_any _ _ _ _ _ _ _ _ _ _ Hov Hr) as (Hm & Hpm & Hrest).
  assert (Hall : present (w_items s) mn m).
  { intros j Hj. destruct (Nat.lt_ge_cases j mx); [apply Hpres; lia|apply Hpm; lia]. }
  destruct a; cbn [bind fst snd].
  - destruct Hrest as ([x Hx] & nb0 & ni0 & Ho0 & Hn0).
    unfold flush, write_chunk, take_items. cbn [w_max w_min w_items].
    rewrite Hmin. destruct (Nat.eqb_spec m mn) as [->|Hneq].
    + destruct (dpop_dget _ _ _ Hx) as [r Hpop]. rewrite Hpop, Nat.sub_diag. cbn [bind fst snd pop_range app].
      rewrite size_ok by (right; reflexivity). cbn [bind]. eexists; split; [reflexivity|].
      destruct (dpop_split _ _ _ _ Hpop) as (d1 & d2 & Ed & ->).
      constructor; cbn [w_items w_min w_max w_nb w_ni w_chunks w_done].
      * eapply NoDup_dpop; eauto.
      * intros z Hz. apply Hincl. rewrite Ed. apply in_app_iff in Hz. apply in_app_iff. cbn. tauto.
      * rewrite (stored_app s). cbn [ch_items]. rewrite <- app_assoc.
        eapply Permutation_trans; [exact Hperm|]. apply Permutation_app_head. rewrite Ed, !map_app. cbn [map snd app].
        apply Permutation_sym, Permutation_middle.
      * rewrite map_app. apply Forall_app. split; [exact Hruns|]. cbn [map ch_items]. constructor; [|constructor].
        exists mn. intros i y Hy. destruct i as [|i]; [|destruct i; discriminate]. injection Hy as <-. rewrite Nat.add_0_r.
        apply Hincl, dget_In, Hx.
      * exact Hdone.
      * left. auto.
    + destruct (pop_range_any (m - mn) mn (w_items s) Hk) as (xs & d' & Hpop & Hlen & Hk' & Hp' & Hi').
      { intros j Hj. apply Hall. lia. }
      cbn [bind fst snd]. rewrite Hpop. cbn [bind fst snd app].
      destruct xs as [|y xs]; [cbn in Hlen; lia|].
      rewrite (size_ok_ni c _ nb0 ni0) by (try exact Ho0; rewrite Hlen; lia). cbn [bind].
      eexists; split; [reflexivity|].
      constructor; cbn [w_items w_min w_max w_nb w_ni w_chunks w_done].
      * exact Hk'.
      * intros z Hz. apply Hincl, Hi', Hz.
      * rewrite (stored_app s). cbn [ch_items]. rewrite <- app_assoc.
        eapply Permutation_trans; [exact Hperm|]. apply Permutation_app_head.
        apply (Permutation_map snd) in Hp'. rewrite map_app, map_snd_combine in Hp' by exact Hlen. exact Hp'.
      * rewrite map_app. apply Forall_app. split; [exact Hruns|]. cbn [map ch_items]. constructor; [|constructor].
        eapply combine_run; [exact Hlen|]. intros z Hz. apply Hincl. eapply Permutation_in; [apply Permutation_sym, Hp'|].
        apply in_app_iff. left; exact Hz.
      * exact Hdone.
      * left. auto.
  - destruct Hrest as (H1 & H2 & H3). eexists; split; [reflexivity|].
    constructor; cbn [w_items w_min w_max w_nb w_ni w_chunks w_done]; try assumption.
    right. exists mn, m. repeat split; auto; lia.
Qed.

Lemma run_of_more l l' xs : run_of l xs -> run_of (l ++ l') xs.
Proof. intros [j H]. exists j. intros i x Hx. apply in_app_iff. left. apply H, Hx. Qed.

Lemma fold_min_le k l : fold_right Nat.min k l <= k.
Proof. induction l as [|x l IH]; cbn; lia. Qed.

Lemma add_any_step c s l i x :
  ginv c s l -> ~ In i (map fst l) ->
  exists s', add_item c s i x = Ok s' /\ ginv c s' (l ++ [(i, x)]).
Proof.
  intros [Hk Hi Hp Hr Hd Hm] Hnew. unfold add_item.
  assert (Hnone : dget i (w_items s) = None).
  { apply dget_None. intros H. apply Hnew. apply in_map_iff in H. destruct H as ((k & y) & E & H). cbn in E; subst.
    apply Hi in H. apply in_map_iff. exists (i, y). auto. }
  rewrite Hnone, (dset_new _ _ _ Hnone).
  assert (Hk' : NoDup (map fst (w_items s ++ [(i, x)]))).
  { rewrite map_app. cbn [map fst]. apply dget_None in Hnone.
    apply (Permutation_NoDup (l := i :: map fst (w_items s))); [apply Permutation_cons_append|]. constructor; assumption. }
  assert (Hi' : incl (w_items s ++ [(i, x)]) (l ++ [(i, x)])).
  { intros z Hz. apply in_app_iff in Hz. apply in_app_iff. destruct Hz; [left; auto|right; auto]. }
  assert (Hp' : Permutation (map snd (l ++ [(i, x)])) (stored s ++ map snd (w_items s ++ [(i, x)]))).
  { rewrite !map_app, app_assoc. apply Permutation_app_tail, Hp. }
  assert (Hr' : Forall (run_of (l ++ [(i, x)])) (map ch_items (w_chunks s))).
  { eapply Forall_impl; [|exact Hr]. intros; apply run_of_more; assumption. }
  assert (Hne : w_items s ++ [(i, x)] <> []) by (destruct (w_items s); discriminate).
  destruct Hm as [[Hmin Hmax]|(mn & mx & Hmin & Hmax & Hle & Hpres & Hov & Hni & Hset)].
  - rewrite Hmin. match goal with |- context [write_if_full c ?s0] => apply (write_if_full_any c s0 _ (min_key i (w_items s ++ [(i, x)])) (min_key i (w_items s ++ [(i, x)]))) end;
      cbn [w_items w_min w_max w_nb w_ni w_chunks w_done]; auto.
    + intros j Hj. lia.
    + apply over_zero.
    + lia.
  - rewrite Hmin, Hmax. destruct (Nat.ltb_spec i mn) as [Hlt|Hge].
    + match goal with |- context [write_if_full c ?s0] => apply (write_if_full_any c s0 _ i i) end;
        cbn [w_items w_min w_max w_nb w_ni w_chunks w_done]; auto.
      * intros j Hj. lia.
      * apply over_zero.
      * lia.
    + assert (Hpres' : present (w_items s ++ [(i, x)]) mn mx).
      { intros j Hj. destruct (Hpres j Hj) as [y Hy]. exists y. rewrite dget_app, Hy. reflexivity. }
      destruct (Nat.eqb_spec i mx) as [->|Hneq].
      * match goal with |- context [write_if_full c ?s0] => apply (write_if_full_any c s0 _ mn mx) end;
          cbn [w_items w_min w_max w_nb w_ni w_chunks w_done]; auto.
      * eexists; split; [reflexivity|]. constructor; cbn [w_items w_min w_max w_nb w_ni w_chunks w_done]; auto.
        right. exists mn, mx. repeat split; auto.
        rewrite dget_app. destruct (dget mx (w_items s)) as [y|]; [exact Hset|]. cbn [dget].
        replace (i =? mx) with false by (symmetry; apply Nat.eqb_neq; exact Hneq). exact I.
Qed.

Lemma add_any_ok c : forall l l0 s,
  ginv c s l0 -> NoDup (map fst (l0 ++ l)) -> exists s', add_any c s l = Ok s' /\ ginv c s' (l0 ++ l).
Proof.
  induction l as [|[i x] l IH]; intros l0 s Hg Hn.
  - exists s. rewrite app_nil_r. auto.
  - cbn [add_any]. destruct (add_any_step c s l0 i x Hg) as (s1 & -> & Hg1).
    { rewrite map_app in Hn. cbn [map fst] in Hn. apply NoDup_remove_2 in Hn. intros H. apply Hn. apply in_app_iff. left; exact H. }
    cbn [bind]. destruct (IH (l0 ++ [(i, x)]) s1 Hg1) as (s2 & E & Hg2); [rewrite <- app_assoc; exact Hn|].
    exists s2. rewrite <- app_assoc in Hg2. auto.
Qed.

Lemma insert_key_perm k l : Permutation (insert_key k l) (k :: l).
Proof.
  induction l as [|a l IH]; cbn; [auto|]. destruct (k <=? a); [auto|].
  eapply Permutation_trans; [apply perm_skip, IH|apply perm_swap].
Qed.
Lemma sort_keys_perm l : Permutation (sort_keys l) l.
Proof.
  induction l as [|a l IH]; cbn; [auto|]. eapply Permutation_trans; [apply insert_key_perm|]. apply perm_skip, IH.
Qed.

Lemma pop_keys_any ks : forall d,
  NoDup (map fst d) -> NoDup ks -> Permutation ks (map fst d) ->
  exists xs, pop_keys ks d = Ok (xs, []) /\ length xs = length ks /\ Permutation d (combine ks xs).
Proof.
  induction ks as [|k ks IH]; intros d Hn Hnk Hp.
  - apply Permutation_nil in Hp. destruct d; [|discriminate]. exists []. auto.
  - cbn [pop_keys]. destruct (dget k d) as [x|] eqn:E.
    + destruct (dpop_dget _ _ _ E) as [r Hr]. rewrite Hr.
      destruct (dpop_split _ _ _ _ Hr) as (d1 & d2 & Ed & Er).
      destruct (IH r) as (xs & Hx & Hl & Hperm).
      * eapply NoDup_dpop; eauto.
      * inversion Hnk; assumption.
      * subst d r. rewrite map_app in *. cbn [map fst] in Hp. eapply Permutation_cons_inv with (a := k).
        eapply Permutation_trans; [exact Hp|]. apply Permutation_sym, Permutation_middle.
      * rewrite Hx. cbn [bind fst snd]. exists (x :: xs). split; [reflexivity|]. split; [cbn; lia|].
        subst d r. cbn [combine]. eapply Permutation_trans; [apply Permutation_sym, Permutation_middle|]. constructor. exact Hperm.
    + exfalso. apply dget_None in E. apply E. eapply Permutation_in; [exact Hp|]. left; reflexivity.
Qed.

Lemma consecutive_is_seq l : consecutive l = true -> exists b, l = seq b (length l).
Proof.
  induction l as [|k l IH]; intros H; [exists 0; reflexivity|].
  destruct l as [|k' l]; [exists k; reflexivity|].
  cbn [consecutive] in H. apply andb_true_iff in H. destruct H as [H1 H2]. apply andb_true_iff in H1. destruct H1 as [H0 H1].
  apply Nat.eqb_eq in H0. apply Nat.leb_le in H1. destruct (IH H2) as [b Hb].
  exists k. cbn [length seq]. f_equal. rewrite Hb at 1. cbn [length seq] in Hb. injection Hb as Hb1 Hb2.
  cbn [length seq]. replace (S k) with b by lia. reflexivity.
Qed.

(** Finishing either stores everything or raises an AssertionError. *)
Lemma done_any c s l :
  ginv c s l ->
  (exists s', done c false s = Ok s' /\ Permutation (stored s') (map snd l) /\ Forall (run_of l) (map ch_items (w_chunks s')) /\ w_items s' = [])
  \/ done c false s = Err AssertionError.
Proof.
  intros [Hk Hi Hp Hr Hd Hm]. unfold done. rewrite Hd. cbn [orb].
  assert (Hloop : exists s1, done_loop (S (length (w_items s))) c s = Ok s1 /\ w_items s1 = w_items s /\
                    w_chunks s1 = w_chunks s).
  { cbn [done_loop]. unfold should_write. destruct (w_items s) as [|e es] eqn:Es.
    - cbn [bind fst snd]. exists s. auto.
    - destruct Hm as [[Hmin Hmax]|(mn & mx & Hmin & Hmax & Hle & Hpres & Hov & Hni & Hset)]; rewrite Hmax.
      + cbn [bind fst snd]. exists s. auto.
      + rewrite <- Es in *.
        assert (Hs : scan (S (length (w_items s))) c (w_items s) mx (w_nb s) (w_ni s) = Some (false, mx, w_nb s, w_ni s)).
        { cbn [scan]. destruct (dget mx (w_items s)) as [y|]; [|reflexivity]. rewrite Hset. reflexivity. }
        rewrite Hs. cbn [bind fst snd]. eexists; split; [reflexivity|]. auto. }
  destruct Hloop as (s1 & -> & Hit & Hch). cbn [bind].
  assert (Hst : stored s1 = stored s) by (unfold stored; rewrite Hch; reflexivity).
  rewrite Hit. destruct (w_items s) as [|e es] eqn:Es.
  - left. cbn [bind]. eexists; split; [reflexivity|]. unfold stored. cbn [w_chunks w_items]. rewrite Hch. repeat split; auto.
    cbn [map] in Hp. rewrite app_nil_r in Hp. apply Permutation_sym, Hp.
  - unfold write_chunk, take_items. rewrite Hit, <- Es.
    destruct (consecutive (sort_keys (map fst (w_items s)))) eqn:Ec; [|right; reflexivity].
    rewrite <- Es in Hk, Hp, Hi.
    assert (Hks : NoDup (sort_keys (map fst (w_items s)))).
    { eapply Permutation_NoDup; [apply Permutation_sym, sort_keys_perm|]. exact Hk. }
    destruct (pop_keys_any _ (w_items s) Hk Hks (sort_keys_perm _)) as (xs & Hx & Hl & Hperm).
    rewrite Hx. cbn [bind fst snd].
    assert (Hlen : length xs = length (w_items s)).
    { rewrite Hl, (Permutation_length (sort_keys_perm _)), map_length. reflexivity. }
    destruct xs as [|x xs]; [rewrite Es in Hlen; discriminate|].
    destruct (truthy (c_size c) && exceeds (c_size c) (length (x :: xs))); [right; reflexivity|].
    left. cbn [bind]. eexists; split; [reflexivity|]. cbn [w_chunks w_items].
    destruct (consecutive_is_seq _ Ec) as [b Hb]. rewrite Hb in Hperm. rewrite <- Hl in Hperm.
    split; [|split; [|reflexivity]].
    + unfold stored. cbn [w_chunks]. rewrite Hch, map_app, concat_app. cbn [map ch_items concat]. rewrite app_nil_r.
      apply Permutation_sym. eapply Permutation_trans; [exact Hp|]. apply Permutation_app_head.
      apply (Permutation_map snd) in Hperm. rewrite map_snd_combine in Hperm by reflexivity. exact Hperm.
    + rewrite Hch, map_app. apply Forall_app. split; [exact Hr|]. cbn [map ch_items]. constructor; [|constructor].
      eapply combine_run; [reflexivity|]. intros z Hz. apply Hi. eapply Permutation_in; [apply Permutation_sym, Hperm|exact Hz].
Qed.

Lemma ginv_new c first : ginv c (new_writer first) [].
Proof.
  constructor; cbn; auto; try constructor; auto. intros x [].
Qed.

Theorem write_any_order c first l :
  NoDup (map fst l) ->
  exists s, add_any c (new_writer first) l = Ok s /\
  ((exists s', done c false s = Ok s' /\ Permutation (stored s') (map snd l) /\
      Forall (run_of l) (map ch_items (w_chunks s')) /\ w_items s' = [])
   \/ done c false s = Err AssertionError).
Proof.
  intros Hn. destruct (add_any_ok c l [] (new_writer first) (ginv_new c first) Hn) as (s & E & Hg).
  exists s. split; [exact E|]. apply done_any, Hg.
Qed.
