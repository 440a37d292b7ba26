(** Proofs about using a StreamingDataset directly: the theorems. *)
From Verif Require Import Base Assign_Model Assign_Spec Iter_Model Iter_Spec Config_Model Object_Model Object_Spec.
From Verif Require Import Assign_Proofs Shuffle_Proofs Iter_Proofs Resume_Proofs Epoch_Proofs Object_Proofs.
Local Ltac Zify.zify_post_hook ::= idtac.

Lemma asked_repeat n : asked (repeat Next n) = n.
Proof. unfold asked. induction n as [|n IH]; [reflexivity|]. cbn [repeat filter length]. f_equal. exact IH. Qed.

Lemma answers_repeat n rs : length rs = n -> answers (repeat Next n) rs = rs.
Proof. revert rs; induction n as [|n IH]; intros [|r rs] H; cbn in H; try discriminate; [reflexivity|]. cbn. f_equal. apply IH. lia. Qed.

Lemma run_length k cs o : length (fst (o_run k cs o)) = length cs.
Proof.
  revert o; induction cs as [|c cs IH]; intros o; [reflexivity|]. cbn [o_run]. destruct (o_step k c o) as [r o1].
  specialize (IH o1). destruct (o_run k cs o1) as [rs o2]. cbn in *. lia.
Qed.

Lemma run_app k c1 c2 o : o_run k (c1 ++ c2) o =
  (fst (o_run k c1 o) ++ fst (o_run k c2 (snd (o_run k c1 o))), snd (o_run k c2 (snd (o_run k c1 o)))).
Proof.
  revert o; induction c1 as [|c c1 IH]; intros o; cbn [app o_run].
  - cbn [fst snd app]. destruct (o_run k c2 o); reflexivity.
  - destruct (o_step k c o) as [r o1]. rewrite IH. destruct (o_run k c1 o1) as [rs o2]. reflexivity.
Qed.

Lemma repeat_nexts n : Forall (fun c => c = Next \/ quiet c) (repeat Next n).
Proof. apply Forall_forall. intros c Hc. left. exact (repeat_spec _ _ _ Hc). Qed.

Section Cfg.
  Context (k : ocfg) (Hk : ocfg_ok k).

  (** A plain loop from a state in which the loop has begun. *)
  Lemma plain_loop h d o n : Looping h d o -> n <= S (length (todo (sh_call k h) (o_epoch o) d)) ->
    fst (o_run k (repeat Next n) o) = firstn n (map item (todo (sh_call k h) (o_epoch o) d) ++ [Stopped]).
  Proof.
    intros HL Hn. pose proof (quiet_loop k h (sh_call_ok k Hk h) (repeat Next n) o d HL (repeat_nexts n)) as H.
    rewrite asked_repeat in H. specialize (H Hn). rewrite answers_repeat in H by (rewrite run_length, repeat_length; reflexivity).
    exact H.
  Qed.

  Lemma whole_loop h d o : Looping h d o ->
    fst (o_run k (repeat Next (S (length (todo (sh_call k h) (o_epoch o) d)))) o) =
    map item (todo (sh_call k h) (o_epoch o) d) ++ [Stopped].
  Proof.
    intros HL. rewrite (plain_loop h d o _ HL (le_n _)).
    apply firstn_all2. rewrite app_length, map_length. cbn. lia.
  Qed.

  (** With a loaded state. *)
  Lemma iter_some o v st s : one_node k \/ v_shuffle v = false -> agree o v -> v_held v = Some st -> fits k v st ->
    epoch_samples k (v_shuffle v) (v_drop v) (v_batch v) (sd_epoch (os_main st)) s ->
    sd_samples (os_main st) < length s ->
    exists h d o', o_step k Iter o = (Done, o') /\ Looping h d o' /\ o_epoch o' = sd_epoch (os_main st) /\
      todo (sh_call k h) (o_epoch o') d = skipn (sd_samples (os_main st)) s.
  Proof.
    intros H1 (-> & Hnw & HB) Hh (F1 & F2 & F3 & F4 & F5) Hs Hlt. cbn [v_shuffle v_drop v_batch v_held] in *.
    pose proof (epoch_length k Hk _ _ _ _ _ H1 HB Hs) as Hlen.
    destruct Hs as (a & w & Ea & Ew & ->).
    set (h := Sh (o_shuffle o) (oc_seed k) (o_drop o)).
    assert (Hsh : create_shuffler k o = h) by (unfold h, create_shuffler; rewrite Hh, F3, F2; reflexivity).
    assert (Ha : assignment_ok (world_size (oc_env k) * 1) a).
    { eapply shuffle_assign_ok; [| | |exact Ea]; try lia. destruct Hk as (_ & Hr & _). lia. }
    change (shuffle_call (oc_rng k) (o_shuffle o) (oc_seed k)) with (sh_call k h) in *. set (shuf := sh_call k h) in *.
    change (sh_assign k h 1 (o_batch o) (sd_epoch (os_main st)) = Ok a) in Ea.
    destruct (resume shuf (oc_env k) 1 0 (os_main st) a) as [d|e] eqn:Er.
    2:{ exfalso.
        rewrite (resume_eq shuf (oc_env k) (world_size (oc_env k)) 1 0 (os_main st) a w) in Er; auto;
          try (destruct Hk as (_ & Hr & _); lia).
        2:{ rewrite Nat.mul_1_r, Nat.add_0_r. exact Ew. }
        rewrite turns_one in Er by exact F5.
        destruct (assignment_ok_worker _ _ _ _ Ha Ew) as [Hl _].
        rewrite stream_length in Hlt; [|apply sh_call_ok; exact Hk|exact Hl].
        destruct (replay_walk (snd w) _) as [ci off] eqn:Ewalk.
        destruct (nth_error (snd w) ci) eqn:Ei; [discriminate|].
        apply (proj2 (replay_walk_exists _ _ _ _ Ewalk) Hlt). exact Ei. }
    destruct (resume_good k Hk a w (os_main st) d shuf) as [Hg Ht]; auto; [apply sh_call_ok; exact Hk|].
    exists h, d. cbn [o_step]. unfold obj_iter. rewrite Hh, Hsh. unfold obj_validate. cbn [o_shuffle o_drop].
    rewrite F1, Bool.eqb_reflx, F4, F3, !Nat.eqb_refl, F2, Bool.eqb_reflx. cbn [negb Nat.eqb].
    destruct (obj_len_ok k Hk (Obj (o_shuffle o) (o_drop o) (o_epoch o) (o_nw o) (o_batch o) (Some st) (Some h) true (o_it o)) Hnw HB)
      as (L & h' & EL & Eh' & El). rewrite EL. cbn [o_shuffle o_drop o_epoch o_nw o_batch o_saved o_cache o_it o_shuffler] in *. subst h'.
    rewrite (sh_len_eq k Hk) in El by assumption. injection El as <-. change (sh_drop h) with (o_drop o).
    rewrite <- Hlen. replace (length (stream shuf (sd_epoch (os_main st)) w) <? sd_samples (os_main st)) with false
      by (symmetry; apply Nat.ltb_ge; lia).
    cbn [with_epoch o_batch o_epoch]. rewrite Ea. cbn [bind]. fold shuf. rewrite Er. eexists. split; [reflexivity|].
    split; [split; [reflexivity|]; split; [reflexivity|]; split; [reflexivity|exact Hg]|].
    split; [reflexivity|]. exact Ht.
  Qed.

  (** ** A loop without a loaded state *)
  Theorem loop_of_settings sh dr h o v : Forall batch_ok h -> history k sh dr h o v -> v_held v = None ->
    exists s, epoch_samples k (v_shuffle v) (v_drop v) (v_batch v) (v_epoch v) s /\
      fst (o_run k (Iter :: repeat Next (S (length s))) o) = Done :: map item s ++ [Stopped] /\
      (world_size (oc_env k) = 1 -> v_drop v = false ->
       Permutation s (dataset_samples (seq 0 (length (oc_ivs k))) (oc_ivs k))).
  Proof.
    intros Hb Hh Hv. destruct (history_agree k Hk sh dr h o v Hb Hh) as (-> & Hnw & HB). cbn [v_held v_shuffle v_drop v_batch v_epoch] in *.
    destruct (iter_none k Hk o Hv HB) as (s & d & o' & Hs & Ei & HL & Ee & Ht).
    exists s. split; [exact Hs|]. split.
    - cbn [o_run]. rewrite Ei. pose proof (whole_loop _ d o' HL) as W. rewrite Ee, Ht in W.
      destruct (o_run k (repeat Next (S (length s))) o') as [rs o2]. cbn [fst] in *. f_equal. exact W.
    - intros HW Hd. rewrite Hd in Hs. eapply epoch_whole; eauto.
  Qed.

  (** ** Calls during a loop *)
  Theorem calls_during_loop sh dr h o v cs : Forall batch_ok h -> history k sh dr h o v -> v_held v = None ->
    exists s, epoch_samples k (v_shuffle v) (v_drop v) (v_batch v) (v_epoch v) s /\
      (Forall (fun c => c = Next \/ quiet c) cs -> asked cs <= S (length s) ->
       answers cs (tl (fst (o_run k (Iter :: cs) o))) = firstn (asked cs) (map item s ++ [Stopped])) /\
      (Forall (fun c => c = Next \/ calm c) cs -> asked cs = S (length s) ->
       exists s', answers cs (tl (fst (o_run k (Iter :: cs) o))) = map item s' ++ [Stopped] /\ Permutation s' s).
  Proof.
    intros Hb Hh Hv. destruct (history_agree k Hk sh dr h o v Hb Hh) as (-> & Hnw & HB). cbn [v_held v_shuffle v_drop v_batch v_epoch] in *.
    destruct (iter_none k Hk o Hv HB) as (s & d & o' & Hs & Ei & HL & Ee & Ht).
    exists s. split; [exact Hs|]. cbn [o_run]. rewrite Ei.
    assert (Er : forall x, tl (fst (let (rs, o2) := o_run k cs x in (Done :: rs, o2))) = fst (o_run k cs x))
      by (intros x; destruct (o_run k cs x); reflexivity). rewrite Er.
    rewrite <- Ee in Ht. split; intros Hc Ha.
    - rewrite (quiet_loop k _ (sh_call_ok k Hk _) cs o' d HL Hc) by (rewrite Ht; exact Ha). rewrite Ht. reflexivity.
    - destruct (calm_loop k _ (sh_call_ok k Hk _) cs o' d HL Hc) as (s' & E1 & E2); [rewrite Ht; exact Ha|].
      exists s'. split; [exact E1|]. rewrite Ht in E2. exact E2.
  Qed.

  (** ** A loop with a loaded state *)
  Theorem loop_of_state sh dr h o v st s : one_node k \/ v_shuffle v = false -> Forall batch_ok h -> history k sh dr h o v -> v_held v = Some st -> fits k v st ->
    epoch_samples k (v_shuffle v) (v_drop v) (v_batch v) (sd_epoch (os_main st)) s ->
    sd_samples (os_main st) < length s ->
    forall cs, Forall (fun c => c = Next \/ quiet c) cs -> asked cs <= S (length s - sd_samples (os_main st)) ->
      answers cs (tl (fst (o_run k (Iter :: cs) o))) =
      firstn (asked cs) (map item (skipn (sd_samples (os_main st)) s) ++ [Stopped]).
  Proof.
    intros H1 Hb Hh Hv Hf Hs Hlt cs Hc Ha. pose proof (history_agree k Hk sh dr h o v Hb Hh) as HA.
    destruct (iter_some o v st s H1 HA Hv Hf Hs Hlt) as (h' & d & o' & Ei & HL & Ee & Ht).
    cbn [o_run]. rewrite Ei.
    assert (Er : forall x, tl (fst (let (rs, o2) := o_run k cs x in (Done :: rs, o2))) = fst (o_run k cs x))
      by (intros x; destruct (o_run k cs x); reflexivity). rewrite Er.
    rewrite (quiet_loop k _ (sh_call_ok k Hk _) cs o' d HL Hc) by (rewrite Ht, skipn_length; exact Ha). rewrite Ht. reflexivity.
  Qed.

  (** ** [len] *)
  Definition fresh_len (b : bool) (o : obj) : Prop :=
    o_saved o = None /\ (b = true -> match o_shuffler o with Some h => sh_drop h = o_drop o | None => True end).

  Lemma settled_step c cs b o : batch_ok c -> no_load c -> 1 <= o_nw o -> 1 <= o_batch o -> fresh_len b o ->
    exists b', settled (c :: cs) b = settled cs b' /\ fresh_len b' (snd (o_step k c o)).
  Proof.
    intros Hb Hn Hnw HB (Hs & Hd).
    destruct c; cbn [no_load batch_ok settled o_step snd] in *; try contradiction;
      try (eexists; split; [reflexivity|]; split; [exact Hs|exact Hd]).
    - exists false. split; [reflexivity|]. split; [exact Hs|discriminate].
    - exists b. split; [reflexivity|]. rewrite Hs. split; [exact Hs|exact Hd].
    - exists b. split; [reflexivity|]. unfold obj_len, obj_get_len. cbn [snd]. split; [exact Hs|]. intros Eb. specialize (Hd Eb).
      cbn [o_shuffler o_drop]. destruct (o_shuffler o); [exact Hd|]. unfold create_shuffler. rewrite Hs. reflexivity.
    - exists b. split; [reflexivity|]. unfold obj_get_len. cbn [snd]. split; [exact Hs|]. intros Eb. specialize (Hd Eb).
      cbn [o_shuffler o_drop]. destruct (o_shuffler o); [exact Hd|]. unfold create_shuffler. rewrite Hs. reflexivity.
    - exists b. split; [reflexivity|]. unfold obj_get. cbn [snd]. destruct (o_cache o); [split; [exact Hs|exact Hd]|].
      split; [exact Hs|]. intros _. cbn [o_shuffler o_drop]. unfold create_shuffler. rewrite Hs. reflexivity.
    - exists true. split; [reflexivity|]. unfold obj_iter. rewrite Hs.
      destruct (bind _ _); (split; [try exact Hs; reflexivity|]; intros _; cbn; unfold create_shuffler; rewrite Hs; reflexivity).
    - exists b. split; [reflexivity|]. unfold obj_next. destruct (o_it o); [|split; [exact Hs|exact Hd]].
      destruct (next _ _) as [[r| |e] d']; (split; [try exact Hs; reflexivity|exact Hd]).
    - exists b. split; [reflexivity|]. unfold obj_save. rewrite Hs. split; [exact Hs|exact Hd].
    - exists b. split; [reflexivity|]. split; [reflexivity|exact Hd].
    - exists true. split; [reflexivity|]. split; [reflexivity|]. intros _. exact I.
  Qed.

  Lemma settled_run cs : forall b o v, Forall batch_ok cs -> Forall no_load cs -> agree o v -> fresh_len b o ->
    fresh_len (settled cs b) (snd (o_run k cs o)).
  Proof.
    induction cs as [|c cs IH]; intros b o v Hb Hn HA HF; [exact HF|].
    inversion Hb as [|? ? Hb1 Hb2]; subst. inversion Hn as [|? ? Hn1 Hn2]; subst.
    pose proof HA as (_ & Hnw & HB). destruct (settled_step c cs b o Hb1 Hn1 Hnw HB HF) as (b' & E & HF').
    pose proof (step_agree k Hk c o v Hb1 HA) as HA'. cbn [o_run]. destruct (o_step k c o) as [r o1]. cbn [fst snd] in *.
    specialize (IH b' o1 _ Hb2 Hn2 HA' HF'). rewrite E. destruct (o_run k cs o1) as [rs o2]. exact IH.
  Qed.

  Theorem len_then_loop sh dr h o v : one_node k -> Forall batch_ok h -> Forall no_load h -> history k sh dr h o v -> settled h true = true ->
    exists s, epoch_samples k (v_shuffle v) (v_drop v) (v_batch v) (v_epoch v) s /\
      fst (o_run k (Len :: Iter :: repeat Next (S (length s))) o) = Length (length s) :: Done :: map item s ++ [Stopped].
  Proof.
    intros H1 Hb Hn Hh Hset. pose proof (history_agree k Hk sh dr h o v Hb Hh) as (-> & Hnw & HB).
    assert (HF : fresh_len true o).
    { destruct Hh as (rs & Er & _). pose proof (settled_run h true (new_obj sh dr) (view_new sh dr) Hb Hn) as S.
      rewrite Hset, Er in S. apply S; [split; [reflexivity|]; cbn; lia|]. split; [reflexivity|]. intros _. exact I. }
    destruct HF as (Hs & Hd). specialize (Hd eq_refl).
    cbn [v_shuffle v_drop v_batch v_epoch].
    destruct (obj_len_ok k Hk o Hnw HB) as (L & hh & EL & Ehh & El).
    set (o1 := Obj (o_shuffle o) (o_drop o) (o_epoch o) (o_nw o) (o_batch o) (o_saved o) (Some hh) (o_cache o) (o_it o)) in *.
    destruct (iter_none k Hk o1 Hs HB) as (s & d & o' & Es & Ei & HL & Ee & Ht).
    exists s. split; [exact Es|].
    assert (EL' : L = length s).
    { rewrite (epoch_length k Hk _ _ _ _ _ (or_introl H1) HB Es). rewrite (sh_len_eq k Hk _ _ _ _ (or_introl H1)) in El by assumption. injection El as <-.
      f_equal. rewrite Ehh. cbn [o1 o_drop]. destruct (o_shuffler o) as [h0|]; [exact Hd|]. unfold create_shuffler. rewrite Hs. reflexivity. }
    cbn [o_run o_step]. rewrite EL. change (obj_iter k o1) with (o_step k Iter o1). rewrite Ei.
    pose proof (whole_loop _ d o' HL) as W. rewrite Ee, Ht in W.
    destruct (o_run k (repeat Next (S (length s))) o') as [rs o2]. cbn [fst] in *. rewrite EL'. f_equal. f_equal. exact W.
  Qed.

  (** ** [reset] *)
  Definition like_new (o1 o2 : obj) : Prop :=
    o_shuffle o1 = o_shuffle o2 /\ o_drop o1 = o_drop o2 /\ o_epoch o1 = o_epoch o2 /\ o_nw o1 = o_nw o2 /\
    o_batch o1 = o_batch o2 /\ o_saved o1 = o_saved o2 /\ o_shuffler o1 = o_shuffler o2 /\ o_cache o1 = o_cache o2 /\
    (o_it o1 = o_it o2 \/ o_it o2 = None).
End Cfg.

Lemma like_step k c o1 o2 : like_new o1 o2 -> fst (o_step k c o2) <> Raised GenericException ->
  fst (o_step k c o1) = fst (o_step k c o2) /\ like_new (snd (o_step k c o1)) (snd (o_step k c o2)).
Proof.
  destruct o1 as [a1 a2 a3 a4 a5 a6 a7 a8 a9], o2 as [b1 b2 b3 b4 b5 b6 b7 b8 b9]. unfold like_new. cbn.
  intros (-> & -> & -> & -> & -> & -> & -> & -> & Hit) Hne.
  destruct c; cbn [o_step fst snd] in *;
    try (split; [reflexivity|]; cbn; repeat (split; [reflexivity|]); exact Hit).
  - destruct b6; (split; [reflexivity|]; cbn; repeat (split; [reflexivity|]); exact Hit).
  - unfold obj_get. cbn [o_cache]. destruct b8; (split; [reflexivity|]; cbn; repeat (split; [reflexivity|]); exact Hit).
  - unfold obj_iter in *. cbn [o_saved o_shuffle o_drop o_epoch o_nw o_batch o_it] in *.
    unfold create_shuffler. cbn [o_saved o_shuffle o_drop].
    destruct b6 as [s|].
    + unfold obj_validate, obj_len, obj_get_len. cbn [o_saved o_shuffle o_drop o_epoch o_nw o_batch o_it o_shuffler o_cache].
      repeat match goal with |- context [if negb ?b then _ else _] =>
        destruct (negb b); [split; [reflexivity|]; cbn; repeat (split; [reflexivity|]); exact Hit|] end.
      destruct (sh_len _ _ _ _ _) as [L|e]; [|split; [reflexivity|]; cbn; repeat (split; [reflexivity|]); exact Hit].
      destruct (L <? _); [split; [reflexivity|]; cbn; repeat (split; [reflexivity|]); exact Hit|].
      cbn [with_epoch o_batch o_epoch].
      destruct (bind _ _); (split; [reflexivity|]; cbn; repeat (split; [reflexivity|]); (exact Hit || (left; reflexivity))).
    + destruct (bind _ _); (split; [reflexivity|]; cbn; repeat (split; [reflexivity|]); (exact Hit || (left; reflexivity))).
  - unfold obj_next in *. cbn [o_it o_shuffler o_epoch] in *. destruct Hit as [->| ->]; [|exfalso; apply Hne; reflexivity].
    destruct b9 as [d|]; [|exfalso; apply Hne; reflexivity].
    destruct (next _ _) as [[r| |e] d']; (split; [reflexivity|]; cbn; repeat (split; [reflexivity|]); left; reflexivity).
  - unfold obj_save. cbn [o_saved o_epoch o_drop o_shuffle].
    destruct b6; (split; [reflexivity|]; cbn; repeat (split; [reflexivity|]); exact Hit).
  - split; [reflexivity|]. cbn. repeat (split; [reflexivity|]). destruct Hit as [->| ->]; [left; reflexivity|right; reflexivity].
Qed.

Lemma like_run k cs : forall o1 o2, like_new o1 o2 -> ~ In (Raised GenericException) (fst (o_run k cs o2)) ->
  fst (o_run k cs o1) = fst (o_run k cs o2).
Proof.
  induction cs as [|c cs IH]; intros o1 o2 HR Hin; [reflexivity|].
  pose proof (like_step k c o1 o2 HR) as S. cbn [o_run] in *.
  destruct (o_step k c o1) as [r1 p1], (o_step k c o2) as [r2 p2]. cbn [fst snd] in S.
  specialize (IH p1 p2). destruct (o_run k cs p1) as [rs1 q1], (o_run k cs p2) as [rs2 q2]. cbn [fst] in *.
  destruct S as (-> & HR').
  - intros ->. apply Hin. left. reflexivity.
  - f_equal. apply IH; [exact HR'|]. intros H. apply Hin. right. exact H.
Qed.

Theorem reset_like_new k o cs :
  ~ In (Raised GenericException) (fst (o_run k cs (new_obj (o_shuffle o) (o_drop o)))) ->
  fst (o_run k (Reset :: cs) o) = Done :: fst (o_run k cs (new_obj (o_shuffle o) (o_drop o))).
Proof.
  intros H. cbn [o_run o_step]. rewrite <- (like_run k cs (obj_reset o)); [destruct (o_run k cs (obj_reset o)); reflexivity| |exact H].
  unfold like_new, obj_reset, new_obj. cbn. repeat (split; [reflexivity|]). right. reflexivity.
Qed.

(** ** Stopping and continuing *)

Lemma view_nexts n rs v : (forall r, In r rs -> r <> Stopped) -> view_after (repeat Next n) rs v = v.
Proof.
  revert rs; induction n as [|n IH]; intros [|r rs] H; cbn [repeat view_after]; try reflexivity.
  assert (Hr : r <> Stopped) by (apply H; left; reflexivity).
  assert (Ev : view_step Next r v = v) by (destruct v; cbn [view_step]; destruct r; congruence || reflexivity).
  rewrite Ev. apply IH. intros r' Hr'; apply H; right; exact Hr'.
Qed.

Theorem stop_and_continue k sh dr h o v sh' dr' h' o' v' s n : ocfg_ok k -> one_node k \/ v_shuffle v = false ->
  Forall batch_ok h -> history k sh dr h o v -> v_held v = None ->
  Forall batch_ok h' -> history k sh' dr' h' o' v' ->
  v_shuffle v' = v_shuffle v -> v_drop v' = v_drop v -> v_batch v' = v_batch v ->
  epoch_samples k (v_shuffle v) (v_drop v) (v_batch v) (v_epoch v) s -> n < length s ->
  exists st,
    fst (o_run k (Iter :: repeat Next n ++ [Save n 1 (v_batch v)]) o) = Done :: map item (firstn n s) ++ [State st] /\
    fst (o_run k (Load st :: Iter :: repeat Next (S (length s - n))) o') =
    Done :: Done :: map item (skipn n s) ++ [Stopped].
Proof.
  intros Hk H1 Hb Hh Hv Hb' Hh' E1 E2 E3 Hs Hn.
  pose proof (history_agree k Hk sh dr h o v Hb Hh) as HA. pose proof HA as (Ev & Hnw & HB).
  pose proof (history_agree k Hk sh' dr' h' o' v' Hb' Hh') as HA'. pose proof HA' as (Ev' & Hnw' & HB').
  rewrite Ev in Hv. cbn [v_held] in Hv.
  destruct (iter_none k Hk o Hv HB) as (s0 & d & o1 & Hs0 & Ei & HL & Ee & Ht).
  assert (Es0 : s0 = s) by (rewrite Ev in Hs; eapply epoch_unique; eassumption). rewrite Es0 in *. clear Es0.
  pose proof (step_agree k Hk Iter o v I HA) as HA1. rewrite Ei in HA1. cbn [fst snd] in HA1.
  assert (Vi : view_step Iter Done v = v) by (rewrite Ev; cbn [view_step]; rewrite Hv; reflexivity). rewrite Vi in HA1.
  assert (En : fst (o_run k (repeat Next n) o1) = map item (firstn n s)).
  { rewrite (plain_loop k Hk _ d o1 n HL) by (rewrite Ee, Ht; lia). rewrite Ee, Ht.
    rewrite firstn_app, map_length. replace (n - length s) with 0 by lia. cbn [firstn]. rewrite app_nil_r. apply firstn_map. }
  pose proof (run_agree k Hk (repeat Next n) o1 v) as HA2.
  specialize (HA2 ltac:(apply Forall_forall; intros c Hc; rewrite (repeat_spec _ _ _ Hc); exact I) HA1).
  rewrite En, view_nexts in HA2.
  2:{ intros r Hr. apply in_map_iff in Hr. destruct Hr as (x & <- & _). discriminate. }
  destruct HA2 as (Ev2 & _ & _).
  eexists. split.
  - cbn [o_run]. rewrite Ei, run_app. cbn [fst]. rewrite En. f_equal. f_equal.
    set (o2 := snd (o_run k (repeat Next n) o1)) in *. cbn [o_run o_step]. unfold obj_save.
    assert (S2 : o_saved o2 = None) by (rewrite Ev in Ev2; injection Ev2; congruence).
    rewrite S2. reflexivity.
  - set (o2 := snd (o_run k (repeat Next n) o1)) in *. cbn [or_one Nat.eqb].
    pose proof (step_agree k Hk (Load (OSV (SD n 1 (v_batch v) (o_epoch o2)) (oc_seed k) (o_drop o2) (o_shuffle o2))) o' v' I HA') as HA3.
    cbn [o_step fst snd] in HA3.
    set (st := OSV (SD n 1 (v_batch v) (o_epoch o2)) (oc_seed k) (o_drop o2) (o_shuffle o2)) in *.
    assert (F : o_epoch o2 = v_epoch v /\ o_drop o2 = v_drop v /\ o_shuffle o2 = v_shuffle v) by (rewrite Ev2; auto).
    destruct F as (F1 & F2 & F3).
    cbn [o_run o_step].
    assert (H1' : one_node k \/ v_shuffle (view_step (Load st) Done v') = false) by (destruct v' as [x1 x2 x3 x4 x5 x6]; cbn [view_step v_shuffle] in *; rewrite E1; exact H1).
    destruct (iter_some k Hk (with_saved (Some st) o') (view_step (Load st) Done v') st s H1' HA3) as (h1 & d1 & o4 & Ei4 & HL4 & Ee4 & Ht4).
    + destruct v'; reflexivity.
    + unfold fits, st. cbn [os_shuffle os_drop os_seed os_main sd_workers sd_batch]. rewrite F2, F3.
      destruct v' as [x1 x2 x3 x4 x5 x6]. cbn [view_step v_shuffle v_drop v_batch] in *.
      assert (Hvb : 1 <= v_batch v) by (rewrite Ev; exact HB). auto.
    + unfold st. cbn [os_main sd_epoch]. rewrite F1. destruct v' as [x1 x2 x3 x4 x5 x6]. cbn [view_step v_shuffle v_drop v_batch] in *.
      rewrite E1, E2, E3. exact Hs.
    + exact Hn.
    + cbn [o_step] in Ei4. rewrite Ei4. cbn [fst].
      pose proof (whole_loop k Hk _ d1 o4 HL4) as W. rewrite Ht4, skipn_length in W. unfold st in W. cbn [os_main sd_samples] in W.
      destruct (o_run k (repeat Next (S (length s - n))) o4) as [rs o5]. cbn [fst] in *. rewrite W. reflexivity.
Qed.

(** * Asking after the end *)

Lemma next_stop shuf d d' : next shuf d = (Stop, d') -> d' = stop_epoch d.
Proof.
  assert (P : forall x y, pop_next x <> (Stop, y)).
  { intros x y. unfold pop_next. destruct (d_upcoming x); [discriminate|]. destruct (nth_error _ _); discriminate. }
  unfold next. destruct (d_stop d <=? d_global d); [congruence|].
  destruct (d_upcoming d) eqn:E; [|intros H; destruct (P _ _ H)].
  destruct (refill shuf d) as [[x|]|e]; [intros H; destruct (P _ _ H)|congruence|discriminate].
Qed.

Lemma next_end k o h d : shuf_ok (sh_call k h) -> Looping h d o -> todo (sh_call k h) (o_epoch o) d = [] ->
  exists o' d', o_step k Next o = (Stopped, o') /\ Looping h d' o' /\ todo (sh_call k h) (o_epoch o') d' = [].
Proof.
  intros Hs (H1 & H2 & H3 & H4) Ht. cbn [o_step]. unfold obj_next. rewrite H1, H2.
  pose proof (next_good (sh_call k h) (at_epoch (o_epoch o) d) Hs (good_at_epoch _ _ H4)) as N.
  change (d_epoch (at_epoch (o_epoch o) d)) with (o_epoch o) in N. rewrite todo_epoch in N.
  rewrite Ht in N. destruct N as (d' & N & E). rewrite N. apply next_stop in N.
  eexists; exists d'; split; [reflexivity|]. split.
  - split; [reflexivity|]. split; [exact H2|]. split; [exact H3|]. rewrite N. exact H4.
  - apply Permutation_nil. etransitivity; [|apply (todo_perm _ (o_epoch o) _ d' Hs)].
    rewrite N. change (Permutation [] (todo (sh_call k h) (o_epoch o) d)). rewrite Ht. constructor.
Qed.

Lemma end_stays k h n : shuf_ok (sh_call k h) -> forall o d, Looping h d o -> todo (sh_call k h) (o_epoch o) d = [] ->
  fst (o_run k (repeat Next n) o) = repeat Stopped n.
Proof.
  intros Hs. induction n as [|n IH]; intros o d HL Ht; [reflexivity|].
  destruct (next_end k o h d Hs HL Ht) as (o' & d' & E & HL' & Ht'). cbn [repeat o_run]. rewrite E.
  specialize (IH o' d' HL' Ht'). destruct (o_run k (repeat Next n) o'). cbn [fst] in *. rewrite IH. reflexivity.
Qed.

Lemma loop_and_more k h n : shuf_ok (sh_call k h) -> forall s o d, Looping h d o -> todo (sh_call k h) (o_epoch o) d = s ->
  fst (o_run k (repeat Next (length s + n)) o) = map item s ++ repeat Stopped n.
Proof.
  intros Hs. induction s as [|x t IH]; intros o d HL Ht; [exact (end_stays k h n Hs o d HL Ht)|].
  pose proof (next_step k o h d Hs HL) as N. rewrite Ht in N. destruct N as (o' & d' & E & HL' & Ee & Ht').
  cbn [length Nat.add repeat o_run map app]. rewrite E. rewrite <- Ee in Ht'. specialize (IH o' d' HL' Ht').
  destruct (o_run k (repeat Next (length t + n)) o'). cbn [fst] in *. rewrite IH. reflexivity.
Qed.

Theorem exhausted k sh dr h o v n : ocfg_ok k -> Forall batch_ok h -> history k sh dr h o v -> v_held v = None ->
  exists s, epoch_samples k (v_shuffle v) (v_drop v) (v_batch v) (v_epoch v) s /\
    fst (o_run k (Iter :: repeat Next (length s + n)) o) = Done :: map item s ++ repeat Stopped n.
Proof.
  intros Hk Hb Hh Hv. destruct (history_agree k Hk sh dr h o v Hb Hh) as (-> & Hnw & HB). cbn [v_held v_shuffle v_drop v_batch v_epoch] in *.
  destruct (iter_none k Hk o Hv HB) as (s & d & o' & Hs & Ei & HL & Ee & Ht).
  exists s. split; [exact Hs|]. cbn [o_run]. rewrite Ei. rewrite <- Ee in Ht.
  pose proof (loop_and_more k _ n (sh_call_ok k Hk _) s o' d HL Ht) as L.
  destruct (o_run k (repeat Next (length s + n)) o'). cbn [fst] in *. rewrite L. reflexivity.
Qed.
