(** Weighted draws in a loop that stops at the first exhausted dataset: proofs. *)
From Verif Require Import Base Combined_Model Combined_Proofs Choices_Model Choices_Proofs.
From Coq Require Import QArith Lia Lqa.
Local Open Scope nat_scope.

Lemma left_repeat n : left_indexes (repeat true n) = seq 0 n.
Proof.
  unfold left_indexes. rewrite repeat_length. generalize 0. induction n as [|n IH]; intros s; [reflexivity|].
  cbn [seq repeat combine filter snd map fst]. rewrite IH. reflexivity.
Qed.
Lemma some_weights_map ws : some_weights (map Some ws) = ws.
Proof. induction ws as [|w ws IH]; [reflexivity|]. cbn [map some_weights]. rewrite IH. reflexivity. Qed.
Lemma seq_nth_some : forall n s i k, nth_error (seq s n) i = Some k -> k = s + i.
Proof.
  induction n as [|n IH]; intros s [|i] k H; cbn in H; try discriminate; [injection H as <-; lia|].
  apply IH in H. lia.
Qed.
Lemma firstn_sum_S : forall ws i w, nth_error ws i = Some w -> (qsum (firstn (S i) ws) == qsum (firstn i ws) + w)%Q.
Proof.
  induction ws as [|v ws IH]; intros [|i] w H; try discriminate.
  - injection H as ->. cbn. ring.
  - change (qsum (firstn (S (S i)) (v :: ws))) with (v + qsum (firstn (S i) ws))%Q. rewrite (IH i w H). cbn [firstn qsum]. ring.
Qed.

Section L.
Context {A : Type} (us : nat -> Q) (Hus : forall n, (0 <= us n < 1)%Q).
Context (ws : list Q) (F : Forall (fun w => (0 <= w)%Q) ws) (P : (0 < qsum ws)%Q).
Implicit Types s : cit A.

Definition K s : Prop :=
  length (c_iters s) = length ws /\ length (c_counts s) = length ws /\
  c_alive s = repeat true (length ws) /\ c_wts s = map Some ws /\
  (forall k, c_cur s = Some k -> exists w, nth_error ws k = Some w /\ (0 < w)%Q).

Lemma ws_ne : ws <> [].
Proof. intros E. rewrite E in P. apply Qlt_irrefl in P. exact P. Qed.

Lemma new_index_K s : K s -> exists k w, new_index (pick us) s = Ok (k, set_draw s (S (c_draws s)) (c_cur s) (c_inb s)) /\
  nth_error ws k = Some w /\ (0 < w)%Q /\
  (qsum (firstn k ws) <= us (c_draws s) * qsum ws)%Q /\ (us (c_draws s) * qsum ws < qsum (firstn (S k) ws))%Q.
Proof.
  intros (L1 & L2 & Ea & Ew & _).
  assert (Hl : left_indexes (c_alive s) = seq 0 (length ws)) by (rewrite Ea; apply left_repeat).
  assert (Hne : seq 0 (length ws) <> []). { pose proof ws_ne. destruct ws; [congruence|discriminate]. }
  rewrite new_index_choices by (rewrite Hl; exact Hne). rewrite Hl, Ew, some_weights_map.
  destruct (choices_ok (us (c_draws s)) (seq 0 (length ws)) ws) as (k & Ek & _); [rewrite seq_length; reflexivity|exact Hne|exact P|].
  destruct (choices_interval _ _ _ _ ltac:(rewrite seq_length; reflexivity) Hne P F (Hus _) Ek) as (i & Ei & Hi & I1 & I2).
  apply seq_nth_some in Ei. cbn in Ei. subst k. rewrite Ek.
  destruct (nth_error ws i) as [w|] eqn:En; [|apply nth_error_None in En; lia].
  exists i, w. split; [reflexivity|]. split; [exact En|]. split; [|auto].
  rewrite (firstn_sum_S _ _ _ En) in I2. lra.
Qed.

Lemma get_index_K m B s : K s -> exists k s1 w, get_index (pick us) m B s = Ok (k, s1) /\ K s1 /\ c_iters s1 = c_iters s /\
  nth_error ws k = Some w /\ (0 < w)%Q /\
  (m = Stratified -> c_draws s1 = S (c_draws s) /\
     (qsum (firstn k ws) <= us (c_draws s) * qsum ws)%Q /\ (us (c_draws s) * qsum ws < qsum (firstn (S k) ws))%Q).
Proof.
  intros HK. destruct (new_index_K s HK) as (k & w & En & Hw & Pw & I).
  pose proof HK as (L1 & L2 & Ea & Ew & Hc). destruct m; cbn [get_index].
  - rewrite En. exists k. eexists _, w. split; [reflexivity|]. split; [exact HK|]. split; [reflexivity|].
    split; [exact Hw|]. split; [exact Pw|]. intros _. split; [reflexivity|exact I].
  - destruct (match c_cur s with Some k => if B <=? c_inb s then None else Some k | None => None end) as [k0|] eqn:E.
    + assert (Ec : c_cur s = Some k0). { destruct (c_cur s); [destruct (B <=? c_inb s); congruence|discriminate]. }
      destruct (Hc k0 Ec) as (w0 & Hw0 & Pw0). exists k0. eexists _, w0. split; [reflexivity|].
      split; [exact HK|]. split; [reflexivity|]. split; [exact Hw0|]. split; [exact Pw0|discriminate].
    + rewrite En. cbn [bind fst snd]. exists k. eexists _, w. split; [reflexivity|].
      split; [|split; [reflexivity|split; [exact Hw|split; [exact Pw|discriminate]]]].
      repeat (split; [assumption|]). cbn [set_draw c_cur]. intros k' E'. injection E' as <-. exists w. auto.
Qed.

Lemma get_sample_K k s : K s -> k < length ws ->
  match nth_error (c_iters s) k with
  | Some (x :: l) => exists s', get_sample k s = Ok (x, s') /\ K s' /\ c_iters s' = upd k (fun _ => l) (c_iters s) /\ c_draws s' = c_draws s
  | Some [] => get_sample k s = Err StopIteration
  | None => False
  end.
Proof.
  intros (L1 & L2 & Ea & Ew & Hc) Hk. unfold get_sample. destruct (nth_error (c_iters s) k) as [[|x l]|] eqn:E.
  - reflexivity.
  - replace (length (c_counts s) <=? k) with false by (symmetry; apply Nat.leb_gt; lia).
    eexists. split; [reflexivity|]. split; [|split; reflexivity].
    unfold K. cbn [c_iters c_counts c_alive c_wts c_cur]. rewrite !upd_length. auto.
  - apply nth_error_None in E. lia.
Qed.

Lemma after_K m B ws0 : forall n s out s', K s -> after (pick us) false m B ws0 n s = Some (out, s') ->
  K s' /\ (m = Stratified -> c_draws s' = n + c_draws s) /\
  (forall k w, nth_error ws k = Some w -> (w == 0)%Q -> nth_error (c_iters s') k = nth_error (c_iters s) k).
Proof.
  induction n as [|n IH]; intros s out s' HK E; cbn [after] in E.
  { injection E as <- <-. split; [exact HK|]. split; [reflexivity|]. reflexivity. }
  unfold c_next in E. destruct (get_index_K m B s HK) as (k & s1 & w & Eg & K1 & Ei & Hw & Pw & Hm). rewrite Eg in E.
  assert (Hk : k < length ws) by (apply nth_error_Some; congruence).
  pose proof (get_sample_K k s1 K1 Hk) as G. destruct (nth_error (c_iters s1) k) as [[|x l]|] eqn:En; [|clear Eg|contradiction].
  { rewrite G in E. discriminate. }
  destruct G as (s2 & G & K2 & E2 & D2). rewrite G in E. cbn [fst snd] in E.
  destruct (after (pick us) false m B ws0 n s2) as [[out' s3]|] eqn:Ea; [|discriminate].
  injection E as <- <-. destruct (IH s2 out' s3 K2 Ea) as (K3 & D3 & Z). split; [exact K3|]. split.
  - intros Em. rewrite (D3 Em), D2. destruct (Hm Em) as [-> _]. lia.
  - intros k' w' Hw' Zw'. rewrite (Z k' w' Hw' Zw'), E2, Ei. apply nth_error_upd_neq. intros ->.
    rewrite Hw in Hw'. injection Hw' as <-. lra.
Qed.
End L.

Lemma K_init {A} (ws : list Q) (members : list (list A)) : length ws = length members -> K ws (c_init members ws None).
Proof.
  intros L. unfold K, c_init. cbn [c_iters c_counts c_alive c_wts c_cur]. rewrite repeat_length, L.
  repeat (split; [reflexivity|]). discriminate.
Qed.

(** The weights given by the user and the normalised ones. *)
Lemma init_given given lens ws : init_weights false (Some given) lens = Ok ws -> given <> [] ->
  ~ (qsum given == 0)%Q /\ ws = map (fun w => (w / qsum given)%Q) given.
Proof.
  intros E Hne. destruct given as [|g0 given']; [congruence|]. set (given := g0 :: given') in *.
  change (init_weights false (Some given) lens) with
    (if Qeq_bool (qsum given) 0 then Err ZeroDivisionError else Ok (map (fun w => (w / qsum given)%Q) given)) in E.
  destruct (Qeq_bool (qsum given) 0) eqn:E0; [discriminate|]. injection E as <-. split; [|reflexivity].
  intros H. apply Qeq_bool_iff in H. congruence.
Qed.
Lemma qsum_scaled t : forall l i, ~ (t == 0)%Q -> (qsum (firstn i (map (fun w => (w / t)%Q) l)) * t == qsum (firstn i l))%Q.
Proof.
  intros l i Ht. revert i. induction l as [|w l IH]; intros [|i]; cbn [map firstn qsum]; try ring.
  rewrite Qmult_plus_distr_l, (IH i). field. exact Ht.
Qed.
Lemma qsum_nonneg l : Forall (fun w => (0 <= w)%Q) l -> (0 <= qsum l)%Q.
Proof. induction 1 as [|w l H _ IH]; cbn [qsum]; lra. Qed.

Lemma given_ok given lens ws : init_weights false (Some given) lens = Ok ws -> given <> [] -> Forall (fun w => (0 <= w)%Q) given ->
  length ws = length given /\ (0 < qsum given)%Q /\ Forall (fun w => (0 <= w)%Q) ws /\ (qsum ws == 1)%Q /\
  (forall i, qsum (firstn i ws) * qsum given == qsum (firstn i given))%Q /\
  (forall k w, nth_error given k = Some w -> nth_error ws k = Some (w / qsum given)%Q).
Proof.
  intros E Hne Fg. destruct (init_given _ _ _ E Hne) as [H0 ->]. pose proof (qsum_nonneg _ Fg) as N.
  assert (Pg : (0 < qsum given)%Q). { apply Qnot_le_lt. intros C. apply H0. apply Qle_antisym; assumption. }
  assert (Sc : forall i, (qsum (firstn i (map (fun w => (w / qsum given)%Q) given)) * qsum given == qsum (firstn i given))%Q)
    by (intros i; apply qsum_scaled; exact H0).
  split; [apply map_length|]. split; [exact Pg|]. split; [|split; [|split; [exact Sc|]]].
  - apply Forall_forall. intros w Hw. apply in_map_iff in Hw. destruct Hw as (v & <- & Hv).
    rewrite Forall_forall in Fg. apply Qle_shift_div_l; [exact Pg|]. specialize (Fg v Hv). lra.
  - specialize (Sc (length given)). rewrite !firstn_all2 in Sc by (rewrite ?map_length; lia).
    set (a := qsum (map _ given)) in *. apply Qmult_inj_r with (qsum given); [exact H0|]. rewrite Sc. ring.
  - intros k w Hk. rewrite nth_error_map, Hk. reflexivity.
Qed.

Lemma mismatch {A} rng m B ws0 (ws : list Q) (members : list (list A)) : length ws <> length members ->
  c_next rng false m B ws0 (c_init members ws None) = Raise ValueError.
Proof.
  intros H. assert (E : new_index rng (c_init members ws None) = Err ValueError).
  { unfold new_index. cbn [c_init c_wts c_alive]. rewrite some_weights_map, left_repeat, seq_length.
    apply Nat.eqb_neq in H. rewrite H. reflexivity. }
  unfold c_next. destruct m; cbn [get_index c_init c_cur]; [rewrite E; reflexivity|].
  change {| c_iters := members; c_alive := _; c_wts := _; c_draws := _; c_counts := _; c_cur := _; c_inb := _ |} with (c_init members ws None).
  rewrite E. reflexivity.
Qed.
