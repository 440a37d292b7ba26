From Verif Require Import Base Version_Model Version_Spec.
Local Ltac Zify.zify_post_hook ::= idtac.

Lemma same_numbers_spec a : forall b, same_numbers a b = true <-> a = b.
Proof.
  induction a as [|x a IH]; intros [|y b]; cbn [same_numbers]; split; try discriminate; try reflexivity.
  - rewrite andb_true_iff, IH, Nat.eqb_eq. intros [-> ->]. reflexivity.
  - intros E. injection E as -> ->. rewrite Nat.eqb_refl. apply IH. reflexivity.
Qed.
Lemma same_version_spec a b : same_version a b = true <-> a = b.
Proof.
  destruct a as [ra pa da], b as [rb pb db]. unfold same_version. cbn [v_release v_pre v_dev].
  rewrite !andb_true_iff, same_numbers_spec, !Bool.eqb_true_iff. split; [intros [[-> ->] ->]; reflexivity|].
  intros E. injection E as -> -> ->. auto.
Qed.
Lemma same_version_refl a : same_version a a = true. Proof. apply same_version_spec. reflexivity. Qed.
Lemma listed cur releases : existsb (same_version cur) releases = true <-> In cur releases.
Proof.
  rewrite existsb_exists. split.
  - intros (x & Hin & E). apply same_version_spec in E. subst. exact Hin.
  - intros Hin. exists cur. split; [exact Hin|apply same_version_refl].
Qed.

(** The verdict of a page. *)
Lemma ask_spec cur a : is_prerelease cur = false -> a <> Incomplete ->
  exists r, ask cur a = (Ok r, 1) /\ (forall v, r = Some v <-> announces cur a v).
Proof.
  intros Hc Ha. unfold ask. rewrite Hc. destruct a as [| |releases latest yanked]; [|congruence|].
  { exists None. split; [reflexivity|]. intros v. split; [discriminate|]. intros (rel & E & _). discriminate. }
  destruct (existsb (same_version cur) releases) eqn:E; cbn [negb].
  2: { exists None. split; [reflexivity|]. intros v. split; [discriminate|]. intros (rel & E1 & Hin & _). injection E1 as <- <- _.
       apply listed in Hin. congruence. }
  apply listed in E. eexists. split; [reflexivity|]. intros v.
  destruct (same_version cur latest) eqn:Es; cbn [orb].
  { apply same_version_spec in Es. subst latest. split; [discriminate|]. intros (rel & E1 & _ & N & _). injection E1 as _ <- _. congruence. }
  assert (Hne : latest <> cur) by (intros ->; rewrite same_version_refl in Es; discriminate).
  unfold is_devrelease, is_prerelease. destruct latest as [rl pl dl]. cbn [v_pre v_dev]. destruct yanked, pl, dl; cbn [orb];
    (split; [first [discriminate|intros Ev; injection Ev as <-; exists releases; auto]|
             intros (rel & E1 & _ & _ & P & D); injection E1; intros; subst; cbn in P, D; congruence]).
Qed.
Lemma ask_incomplete cur : is_prerelease cur = false -> ask cur Incomplete = (Err KeyError, 1).
Proof. intros H. unfold ask. rewrite H. reflexivity. Qed.

(** Once something is in the cache nothing changes, except that the version is warned of if it was not yet. *)
Definition settled (cur : version) (r : option version) (p : process) : Prop :=
  p_cache p = Some (cur, r) /\ match r with Some v => In v (p_known p) | None => True end.
Lemma settled_calls cur r l : forall p, settled cur r p -> calls cur l p = (repeat (Ok tt) (length l), p).
Proof.
  induction l as [|a l IH]; intros p [Hc Hk]; [reflexivity|]. cbn [calls length repeat]. unfold check_version, newer_version.
  rewrite Hc, same_version_refl. destruct r as [v|].
  - unfold warn. apply listed in Hk. rewrite Hk. rewrite IH; [reflexivity|]. split; [exact Hc|apply listed; exact Hk].
  - rewrite IH; [reflexivity|]. split; [exact Hc|exact I].
Qed.
Lemma prerelease_calls cur l : is_prerelease cur = true ->
  exists c, calls cur l fresh = (repeat (Ok tt) (length l), Proc c [] [] 0).
Proof.
  intros H. destruct l as [|a l]; [exists None; reflexivity|]. exists (Some (cur, None)). cbn [calls length repeat].
  unfold check_version, newer_version, ask. rewrite H. cbn [p_cache fresh p_known p_shown p_requests Nat.add].
  rewrite (settled_calls cur None); [reflexivity|]. split; [reflexivity|exact I].
Qed.
Lemma incomplete_calls cur n : forall m rest, is_prerelease cur = false ->
  calls cur (repeat Incomplete n ++ rest) (Proc None [] [] m) =
  (repeat (Err KeyError) n ++ fst (calls cur rest (Proc None [] [] (m + n))), snd (calls cur rest (Proc None [] [] (m + n)))).
Proof.
  induction n as [|n IH]; intros m rest H; cbn [repeat app].
  - rewrite Nat.add_0_r. destruct (calls cur rest (Proc None [] [] m)); reflexivity.
  - cbn [calls]. unfold check_version, newer_version. cbn [p_cache]. rewrite (ask_incomplete cur H). cbn [p_known p_shown p_requests p_cache].
    rewrite (IH (m + 1) rest H). replace (m + 1 + n) with (m + S n) by lia. reflexivity.
Qed.
Lemma verdict_calls cur a l m : is_prerelease cur = false -> a <> Incomplete ->
  exists c k shown, calls cur (a :: l) (Proc None [] [] m) = (repeat (Ok tt) (S (length l)), Proc c k shown (m + 1)) /\
    length shown <= 1 /\ (forall v, In v shown <-> announces cur a v).
Proof.
  intros Hc Ha. destruct (ask_spec cur a Hc Ha) as (r & E & Hr). cbn [calls]. unfold check_version, newer_version. cbn [p_cache]. rewrite E.
  cbn [p_known p_shown p_requests]. destruct r as [v|].
  - unfold warn. cbn [p_known existsb p_cache p_shown p_requests app]. rewrite (settled_calls cur (Some v)).
    2: { split; [reflexivity|]. cbn. left; reflexivity. }
    eexists _, _, _. split; [reflexivity|]. split; [cbn; lia|]. intros u. rewrite <- Hr. cbn [In]. split; [intros [->|[]]; reflexivity|].
    intros Eu. injection Eu as ->. left; reflexivity.
  - rewrite (settled_calls cur None). 2: { split; [reflexivity|exact I]. }
    eexists _, _, _. split; [reflexivity|]. split; [cbn; lia|]. intros u. rewrite <- Hr. cbn [In]. split; [intros []|discriminate].
Qed.

(** The order of releases. *)
Lemma not_above_nothing b : ~ older [] b -> last b 1 <> 0 -> b = [].
Proof.
  induction b as [|y b IH]; intros Ho Hl; [reflexivity|]. exfalso. cbn [older] in Ho. destruct b as [|z b].
  - cbn in Hl. apply Ho. left. lia.
  - change (last (y :: z :: b) 1) with (last (z :: b) 1) in Hl. assert (E : z :: b = []) by (apply IH; [intros H; apply Ho; right; exact H|exact Hl]). discriminate.
Qed.
Lemma last_tail x (a : list nat) : last (x :: a) 1 <> 0 -> last a 1 <> 0.
Proof. destruct a; [discriminate|exact (fun H => H)]. Qed.
Lemma same_release a : forall b, ~ older a b -> ~ older b a -> last a 1 <> 0 -> last b 1 <> 0 -> a = b.
Proof.
  induction a as [|x a IH]; intros b H1 H2 La Lb.
  - symmetry. apply not_above_nothing; assumption.
  - destruct b as [|y b]; [apply not_above_nothing; assumption|]. cbn [older] in H1, H2.
    assert (x = y) as -> by lia. f_equal. apply IH; [tauto|tauto|exact (last_tail _ _ La)|exact (last_tail _ _ Lb)].
Qed.
Lemma older_dec a : forall b, older a b \/ ~ older a b.
Proof.
  induction a as [|x a IH]; intros b.
  - induction b as [|y b IHb]; cbn [older]; [tauto|]. destruct (le_lt_dec y 0); [|left; left; lia]. destruct IHb; [left; right; assumption|]. right. intros [H'|H']; [lia|tauto].
  - destruct b as [|y b]; cbn [older]; [tauto|]. destruct (lt_eq_lt_dec x y) as [[H|H]|H]; [left; left; exact H| |right; intros [H'|[H' _]]; lia].
    destruct (IH b); [left; right; auto|]. right. intros [H'|[_ H']]; [lia|tauto].
Qed.
Lemma announced_newer cur a v : plain_release cur -> latest_is_newest a -> last (v_release v) 1 <> 0 -> announces cur a v -> older (v_release cur) (v_release v).
Proof.
  intros (P1 & P2 & P3) Hn Hl (releases & -> & Hin & Hne & V1 & V2). cbn [latest_is_newest] in Hn.
  destruct (older_dec (v_release cur) (v_release v)) as [H|H]; [exact H|]. exfalso. apply Hne.
  destruct cur as [rc pc dc], v as [rv pv dv]. cbn in *. subst. f_equal. symmetry. apply same_release; [exact H|exact (Hn _ Hin)|exact P3|exact Hl].
Qed.
