(** Proofs about repeated use of a dataloader. *)
From Verif Require Import Base Assign_Model Assign_Spec Iter_Model Iter_Spec Loader_Order_Model Config_Model Passes_Model Passes_Spec.
From Verif Require Import Assign_Proofs Shuffle_Proofs Iter_Proofs Resume_Proofs Epoch_Proofs.
Local Ltac Zify.zify_post_hook ::= idtac.

Lemma drain_run shuf s reqs s' : Run shuf s reqs s' -> forall fuel, length reqs < fuel ->
  drain shuf fuel s = Ok (map req_sample reqs, s').
Proof.
  induction 1 as [s s' E|s r s1 rs s' E _ IH]; intros fuel Hf; (destruct fuel as [|f]; [lia|]); cbn [drain]; rewrite E.
  - reflexivity.
  - cbn [length] in Hf. rewrite IH by lia. reflexivity.
Qed.

Lemma map_res_nth {A B} (f : A -> res B) l m : length l = length m ->
  (forall i x y, nth_error l i = Some x -> nth_error m i = Some y -> f x = Ok y) -> map_res f l = Ok m.
Proof.
  revert m; induction l as [|x l IH]; intros [|y m] Hl H; cbn [length] in Hl; try lia; [reflexivity|].
  cbn [map_res]. rewrite (H 0 x y) by reflexivity. cbn [bind]. rewrite (IH m); [reflexivity|lia|].
  intros i x' y' H1 H2. exact (H (S i) x' y' H1 H2).
Qed.

Lemma rank_workers_length k a : global_rank (k_env k) < world_size (k_env k) ->
  assignment_ok (world_size (k_env k) * k_nw k) a ->
  length (rank_workers (k_nw k) (global_rank (k_env k)) a) = k_nw k.
Proof.
  intros Hr Ha. unfold rank_workers. rewrite firstn_length, skipn_length.
  rewrite (workers_length _ _ (proj1 Ha)). nia.
Qed.

Section Cfg.
  Context (k : pcfg) (Hk : cfg_ok k).

  Lemma k_shuf_ok : shuf_ok (shuf_of k).
  Proof. apply shuffle_call_ok, Hk. Qed.

  Lemma assign_exists e : exists a, assign_of k e = Ok a /\ assignment_ok (world_size (k_env k) * k_nw k) a.
  Proof.
    destruct Hk as (Hrng & Hnw & HB & Hr & Hs & _).
    assert (E : exists a, assign_of k e = Ok a).
    { unfold assign_of, shuffle_assign. destruct (k_shuffle k) eqn:Es.
      - destruct Hs as [Hs|Hs]; [discriminate|].
        destruct (full_shuffle_first (k_rng k) (k_env k) (k_seed k) (k_drop k) (k_nw k) (k_B k) e (k_ivs k) Hrng (or_intror Hs)) as (p & Hp & ->).
        destruct (assign_main (world_size (k_env k)) (k_nw k) (k_B k) (k_drop k) p (map (fun i => nth i (k_ivs k) dIv) p)) as (a & Ha & _);
          try lia; [rewrite map_length; reflexivity|eauto].
      - unfold no_shuffle_assign.
        destruct (assign_main (world_size (k_env k)) (k_nw k) (k_B k) (k_drop k) (seq 0 (length (k_ivs k))) (k_ivs k)) as (a & Ha & _);
          try lia; [rewrite seq_length; reflexivity|eauto]. }
    destruct E as (a & Ha). exists a. split; [exact Ha|].
    eapply shuffle_assign_ok; [| | |exact Ha]; lia.
  Qed.

  (** The streams of the rank's workers in an epoch. *)
  Definition streams_at (e : nat) (a : list (list nat) * list (list interval)) : list (list sample) :=
    map (stream (shuf_of k) e) (rank_workers (k_nw k) (global_rank (k_env k)) a).

  Lemma streams_length e a : assignment_ok (world_size (k_env k) * k_nw k) a -> length (streams_at e a) = k_nw k.
  Proof. intros Ha. unfold streams_at. rewrite map_length. apply rank_workers_length; [apply Hk|exact Ha]. Qed.

  Lemma rank_worker_nth a i w : nth_error (rank_workers (k_nw k) (global_rank (k_env k)) a) i = Some w ->
    i < k_nw k /\ nth_error (workers a) (global_rank (k_env k) * k_nw k + i) = Some w.
  Proof.
    unfold rank_workers. intros H. assert (Hi : i < k_nw k).
    { assert (i < length (firstn (k_nw k) (skipn (global_rank (k_env k) * k_nw k) (workers a)))) by (apply nth_error_Some; congruence).
      rewrite firstn_length in *. lia. }
    split; [exact Hi|]. rewrite firstn_skipn_nth in H by exact Hi. exact H.
  Qed.

  Lemma fresh_w_run e a i w : assign_of k e = Ok a -> assignment_ok (world_size (k_env k) * k_nw k) a ->
    nth_error (rank_workers (k_nw k) (global_rank (k_env k)) a) i = Some w ->
    w_run k i (e, None) = Ok (stream (shuf_of k) e w, e + 1).
  Proof.
    intros Ea Ha Hw. destruct (rank_worker_nth a i w Hw) as [Hi Hw'].
    destruct (fresh_run (shuf_of k) (k_env k) (k_nw k) i e a _ w k_shuf_ok Ha Hw') as (s0 & reqs & s' & R1 & R2 & R3 & R4 & _).
    unfold w_run, w_iter. cbn [snd fst]. rewrite Ea. cbn [bind]. rewrite R1. cbn [bind].
    assert (Es : length reqs <= d_stop s0).
    { destruct (assignment_ok_worker _ _ _ _ Ha Hw') as [Hl _].
      pose proof (f_equal (@length _) R3) as El. rewrite map_length, stream_length in El by (auto using k_shuf_ok).
      unfold iter_fresh in R1. destruct (workers_nth _ _ _ Hw') as [E1 E2]. rewrite E1, E2 in R1.
      injection R1 as <-. cbn [d_stop]. lia. }
    rewrite (drain_run _ _ _ _ R2) by lia. cbn [bind fst snd]. rewrite R3, R4. reflexivity.
  Qed.

  Lemma resumed_w_run st e0 a i w : assign_of k (sd_epoch st) = Ok a -> assignment_ok (world_size (k_env k) * k_nw k) a ->
    sd_workers st = k_nw k -> 1 <= sd_batch st ->
    nth_error (rank_workers (k_nw k) (global_rank (k_env k)) a) i = Some w ->
    turns (k_nw k) (sd_batch st) (sd_samples st) i < length (stream (shuf_of k) (sd_epoch st) w) ->
    w_run k i (e0, Some st) =
    Ok (skipn (turns (k_nw k) (sd_batch st) (sd_samples st) i) (stream (shuf_of k) (sd_epoch st) w), sd_epoch st + 1).
  Proof.
    intros Ea Ha Hnw HB Hw Ht. destruct (rank_worker_nth a i w Hw) as [Hi Hw'].
    destruct (resume_run (shuf_of k) (k_env k) (world_size (k_env k)) (k_nw k) i st a w) as (s0 & reqs & s' & R1 & R2 & R3 & R4 & _);
      auto using k_shuf_ok; [apply Hk|].
    unfold w_run, w_iter. cbn [snd fst]. rewrite Ea. cbn [bind]. rewrite R1. cbn [bind].
    assert (Es : length reqs <= d_stop s0).
    { destruct (assignment_ok_worker _ _ _ _ Ha Hw') as [Hl _].
      pose proof (f_equal (@length _) R3) as El. rewrite map_length, skipn_length, stream_length in El by (auto using k_shuf_ok).
      unfold resume in R1. destruct (workers_nth _ _ _ Hw') as [E1 E2]. rewrite E1, E2 in R1.
      destruct (replay_sampling _ _ _) as [idx|]; cbn [bind] in R1; [|discriminate].
      destruct (_ <? _) in R1; [discriminate|].
      destruct (nth_error (replay_chunks _ _) i) as [[ci off]|]; [|discriminate].
      destruct (nth_error (snd w) ci); [|discriminate]. injection R1 as <-. cbn [d_stop]. lia. }
    rewrite (drain_run _ _ _ _ R2) by lia. cbn [bind fst snd]. rewrite R3, R4. reflexivity.
  Qed.

  (** All workers of a loop in an epoch begun anew. *)
  Lemma runs_fresh e a : assign_of k e = Ok a -> assignment_ok (world_size (k_env k) * k_nw k) a ->
    map_res (fun wd => w_run k (fst wd) (snd wd)) (combine (seq 0 (k_nw k)) (repeat (e, None) (k_nw k))) =
    Ok (map (fun s => (s, e + 1)) (streams_at e a)).
  Proof.
    intros Ea Ha. apply map_res_nth.
    - rewrite combine_length, seq_length, repeat_length, map_length, streams_length by exact Ha. lia.
    - intros i [j d] y H1 H2. unfold streams_at in H2. rewrite !nth_error_map in H2.
      destruct (nth_error (rank_workers _ _ a) i) as [w|] eqn:Ew; [|discriminate]. cbn in H2. injection H2 as <-.
      destruct (rank_worker_nth a i w Ew) as [Hi _].
      rewrite (combine_nth_error _ _ i i (e, None)) in H1;
        [|rewrite nth_error_seq by exact Hi; reflexivity|rewrite nth_error_repeat by exact Hi; reflexivity].
      injection H1 as <- <-. cbn [fst snd]. exact (fresh_w_run e a i w Ea Ha Ew).
  Qed.

  (** The rest of the streams after [n] samples. *)
  Definition rest_at (n e : nat) (a : list (list nat) * list (list interval)) : list (list sample) :=
    map (fun ws => skipn (turns (k_nw k) (k_B k) n (fst ws)) (snd ws)) (combine (seq 0 (k_nw k)) (streams_at e a)).

  Lemma runs_resumed n e e0 a : assign_of k e = Ok a -> assignment_ok (world_size (k_env k) * k_nw k) a ->
    (forall w s, nth_error (streams_at e a) w = Some s -> turns (k_nw k) (k_B k) n w < length s) ->
    map_res (fun wd => w_run k (fst wd) (snd wd))
      (combine (seq 0 (k_nw k)) (repeat (e0, Some (SD n (k_nw k) (k_B k) e)) (k_nw k))) =
    Ok (map (fun s => (s, e + 1)) (rest_at n e a)).
  Proof.
    intros Ea Ha Hleft. apply map_res_nth.
    - unfold rest_at. rewrite combine_length, seq_length, repeat_length, !map_length, combine_length, seq_length,
        streams_length by exact Ha. lia.
    - intros i [j d] y H1 H2. unfold rest_at in H2. rewrite !nth_error_map in H2.
      assert (Hi : i < k_nw k).
      { assert (i < length (combine (seq 0 (k_nw k)) (repeat (e0, Some (SD n (k_nw k) (k_B k) e)) (k_nw k))))
          by (apply nth_error_Some; congruence). rewrite combine_length, seq_length, repeat_length in *. lia. }
      destruct (nth_error (rank_workers (k_nw k) (global_rank (k_env k)) a) i) as [w|] eqn:Ew.
      2: { apply nth_error_None in Ew. rewrite rank_workers_length in Ew by (auto; apply Hk). lia. }
      assert (Es : nth_error (streams_at e a) i = Some (stream (shuf_of k) e w)).
      { unfold streams_at. rewrite nth_error_map, Ew. reflexivity. }
      rewrite (combine_nth_error (seq 0 (k_nw k)) (streams_at e a) i i (stream (shuf_of k) e w)) in H2;
        [|rewrite nth_error_seq by exact Hi; reflexivity|exact Es]. cbn in H2. injection H2 as <-.
      rewrite (combine_nth_error _ _ i i (e0, Some (SD n (k_nw k) (k_B k) e))) in H1;
        [|rewrite nth_error_seq by exact Hi; reflexivity|rewrite nth_error_repeat by exact Hi; reflexivity].
      injection H1 as <- <-. cbn [fst snd].
      apply (resumed_w_run (SD n (k_nw k) (k_B k) e) e0 a i w Ea Ha eq_refl); [apply Hk|exact Ew|].
      apply Hleft. exact Es.
  Qed.
End Cfg.

(** * Serving *)

Lemma serve_perm {A} ts (qs : list (list A)) :
  Permutation (concat qs) (map snd (fst (serve ts qs)) ++ concat (snd (serve ts qs))).
Proof.
  revert qs; induction ts as [|w ts IH]; intros qs; cbn [serve]; [apply Permutation_refl|].
  destruct (nth_error qs w) as [[|b q]|] eqn:E; try apply IH.
  specialize (IH (upd w (@tl A) qs)). destruct (serve ts _) as [o q']. cbn [fst snd map] in *.
  cbn [app]. rewrite <- IH. clear -E. revert w E; induction qs as [|x qs IH]; intros [|w] E; cbn in E; try discriminate.
  - injection E as ->. cbn [upd concat tl]. apply Permutation_refl.
  - cbn [upd concat]. rewrite (IH w E). apply Permutation_sym, Permutation_middle.
Qed.

Lemma serve_drained {A} ts (qs : list (list A)) : Forall (eq []) qs -> serve ts qs = ([], qs).
Proof.
  intros H. induction ts as [|w ts IH]; [reflexivity|]. cbn [serve].
  destruct (nth_error qs w) as [q|] eqn:E; [|exact IH].
  apply nth_error_In in E. rewrite Forall_forall in H. rewrite <- (H q E). exact IH.
Qed.

Definition window (nw m n : nat) : list nat := map (fun j => (m + j) mod nw) (seq 0 n).

Lemma tasks_app nw m n : tasks nw 0 false (m + n) = tasks nw 0 false m ++ window nw m n.
Proof.
  rewrite !fresh_tasks_eq. unfold window. rewrite seq_app, map_app. f_equal. cbn [Nat.add].
  assert (H : forall j m', m' = m + j -> map (fun j => m + j) (seq j n) = seq m' n).
  { clear. induction n as [|n IH]; intros k m' H; [reflexivity|]. cbn [seq map]. f_equal; [lia|]. apply IH; lia. }
  rewrite <- (H 0 m) by lia. rewrite map_map. reflexivity.
Qed.

Lemma window_0 nw n : window nw 0 n = tasks nw 0 false n.
Proof. rewrite fresh_tasks_eq. reflexivity. Qed.

Lemma count_app w l1 l2 : count_tasks w (l1 ++ l2) = count_tasks w l1 + count_tasks w l2.
Proof. unfold count_tasks. rewrite filter_app, app_length. reflexivity. Qed.

Lemma count_window nw m y w : 1 <= nw -> w < nw -> count_tasks w (window nw m (nw * y)) = y.
Proof.
  intros Hnw Hw. pose proof (f_equal (count_tasks w) (tasks_app nw m (nw * y))) as E.
  rewrite count_app, !count_fresh_tasks in E. rewrite !turns_eq in E by lia. unfold turns_closed in E.
  rewrite !Nat.mul_1_r in E. replace (m + nw * y) with (m + y * nw) in E by lia.
  rewrite Nat.div_add, Nat.mod_add in E by lia. lia.
Qed.

Lemma drained {A} nw m (qs : list (list A)) : 1 <= nw -> length qs = nw ->
  forall y, length (concat qs) <= y -> Forall (eq []) (snd (serve (window nw m (nw * y)) qs)).
Proof.
  intros Hnw Hl y Hy. apply Forall_forall. intros q' Hq. apply In_nth_error in Hq. destruct Hq as (w & Hq).
  assert (Hw : w < nw). { rewrite <- Hl. rewrite <- (serve_lengths (window nw m (nw * y)) qs). apply nth_error_Some. congruence. }
  destruct (nth_error qs w) as [q|] eqn:E; [|apply nth_error_None in E; lia].
  pose proof (serve_queue (window nw m (nw * y)) qs w q E) as H.
  destruct (serve _ qs) as [o q2]. cbn [snd] in *. destruct H as [H _]. rewrite count_window in H by assumption.
  rewrite Hq in H. injection H as ->. symmetry. apply skipn_all2.
  assert (length q <= length (concat qs)).
  { clear -E. apply nth_error_In, in_split in E. destruct E as (l1 & l2 & ->). rewrite concat_app. cbn [concat].
    rewrite !app_length. lia. }
  lia.
Qed.

(** Once everything is delivered further tasks change nothing. *)
Lemma serve_more {A} nw m (qs : list (list A)) n1 n2 : n1 <= n2 ->
  Forall (eq []) (snd (serve (window nw m n1) qs)) -> fst (serve (window nw m n2) qs) = fst (serve (window nw m n1) qs).
Proof.
  intros Hn H. replace n2 with (n1 + (n2 - n1)) by lia. unfold window in *. rewrite seq_app, map_app, serve_app.
  destruct (serve (map _ (seq 0 n1)) qs) as [o q]. cbn [fst snd] in *. rewrite (serve_drained _ q H).
  cbn [fst]. apply app_nil_r.
Qed.

(** * Loops begun anew *)

(** A loader before its [n+1]-st loop, nothing restored. *)
Definition clean (k : pcfg) (n : nat) (st : pstate) : Prop :=
  l_epoch (p_loader st) = n /\ l_restore (p_loader st) = false /\
  (k_mode k = PersistentWorkers -> p_live st = None \/ p_live st = Some (repeat (n + 1, None) (k_nw k))).

Definition asked (k : pcfg) (v : visit) (qs : list (list (list sample))) : nat :=
  match v with Whole => k_nw k * (2 + length (concat qs)) | Part n => n end.

Lemma map_after {A} (nw : nat) (d : nat * option sdict) (runs : list (A * nat)) (f : nat -> (A * nat) -> (nat * option sdict) -> nat * option sdict) r :
  length runs = nw -> (forall i x, nth_error runs i = Some x -> f i x d = r) ->
  map (fun wdr => f (fst (fst wdr)) (snd wdr) (snd (fst wdr))) (combine (combine (seq 0 nw) (repeat d nw)) runs) = repeat r nw.
Proof.
  intros Hl H. apply nth_error_ext. intros i. rewrite nth_error_map.
  destruct (Nat.lt_ge_cases i nw) as [Hi|Hi].
  - destruct (nth_error runs i) as [x|] eqn:E; [|apply nth_error_None in E; lia].
    rewrite (combine_nth_error _ _ i (i, d) x); [|apply combine_nth_error|exact E].
    2: rewrite nth_error_seq by exact Hi; reflexivity. 2: apply nth_error_repeat; exact Hi.
    cbn [option_map fst snd]. rewrite (H i x E). rewrite nth_error_repeat by exact Hi. reflexivity.
  - rewrite (proj2 (nth_error_None _ i)) by (rewrite !combine_length, seq_length, repeat_length; lia).
    rewrite (proj2 (nth_error_None _ i)) by (rewrite repeat_length; lia). reflexivity.
Qed.

Lemma clean_copies k n st : clean k n st -> copies k (p_begin st) = repeat (n + 1, None) (k_nw k) /\
  p_loader (p_begin st) = LS (n + 1) 0 0 0 false /\ p_epoch (p_begin st) = n + 1 /\ p_saved (p_begin st) = None /\
  forall m, order k (p_begin st) m = tasks (k_nw k) 0 false m.
Proof.
  intros (H1 & H2 & H3). unfold copies, order, p_begin, l_iter. rewrite H2. cbn [p_live p_saved p_epoch p_loader l_epoch].
  rewrite H1. cbn [l_latest l_restore].
  destruct (k_mode k); auto 6.
  destruct (H3 eq_refl) as [->| ->]; auto 6.
Qed.

Lemma clean_visit k n st v : cfg_ok k -> clean k n st ->
  exists a st', assign_of k (n + 1) = Ok a /\ assignment_ok (world_size (k_env k) * k_nw k) a /\
    let qs := map (pieces (k_B k)) (streams_at k (n + 1) a) in
    let out := fst (serve (tasks (k_nw k) 0 false (asked k v qs)) qs) in
    p_visit k v st = Ok (out, st') /\
    p_loader st' = (let l := l_batches (k_nw k) (k_B k) (length out) (LS (n + 1) 0 0 0 false) in
                    match v with Whole => l_end l | Part _ => l end) /\
    p_saved st' = None /\ (k_mode k <> InProcess -> p_epoch st' = n + 1) /\
    ((k_mode k = PersistentWorkers -> v = Whole) -> clean k (n + 1) st') /\
    (k_mode k = InProcess -> forall m s, v = Part m -> nth_error (streams_at k (n + 1) a) 0 = Some s ->
       m * k_B k <= length s -> p_epoch st' = n + 1).
Proof.
  intros Hk Hc. destruct (assign_exists k Hk (n + 1)) as (a & Ea & Ha). exists a.
  destruct (clean_copies k n st Hc) as (C1 & C2 & C3 & C4 & C5).
  unfold p_visit. cbv zeta. rewrite C1, (runs_fresh k Hk (n + 1) a Ea Ha). cbn [bind].
  rewrite map_map. cbn [fst].
  change (map (fun x : list sample => pieces (k_B k) x) (streams_at k (n + 1) a)) with (map (pieces (k_B k)) (streams_at k (n + 1) a)).
  set (qs := map (pieces (k_B k)) (streams_at k (n + 1) a)).
  change (match v with Whole => k_nw k * (2 + length (concat qs)) | Part n0 => n0 end) with (asked k v qs).
  rewrite !C5, C2, C3, C4. set (out := fst (serve (tasks (k_nw k) 0 false (asked k v qs)) qs)).
  set (l := match v with Whole => l_end _ | Part _ => _ end).
  assert (Hll : l_epoch l = n + 1 /\ l_restore l = false).
  { unfold l. rewrite l_batches_eq. destruct v; split; reflexivity. }
  set (after := map _ (combine _ _)).
  assert (Haf : v = Whole -> after = repeat (n + 1 + 1, None) (k_nw k)).
  { intros ->. unfold after. unfold after_worker.
    apply (map_after (k_nw k) (n + 1, None) _ (fun i x d => (snd x, None))).
    - rewrite map_length. apply streams_length; auto.
    - intros i x Hx. rewrite nth_error_map in Hx. destruct (nth_error _ i); [|discriminate]. injection Hx as <-. reflexivity. }
  assert (Hsn : forall d, In d after -> snd d = None).
  { intros d Hd. unfold after in Hd. apply in_map_iff in Hd. destruct Hd as ([[i d0] r] & <- & Hin).
    apply in_combine_l, in_combine_r in Hin. apply repeat_spec in Hin. subst d0. cbn [fst snd].
    unfold after_worker. match goal with |- context[if ?b then _ else _] => destruct b end; reflexivity. }
  eexists. split; [exact Ea|]. split; [exact Ha|]. split; [reflexivity|].
  split; [destruct (k_mode k); [destruct after|..]; reflexivity|].
  split. { destruct (k_mode k); [|reflexivity..]. destruct after as [|d after']; [reflexivity|]. cbn [p_saved]. apply Hsn. left; reflexivity. }
  split. { intros Hm. destruct (k_mode k); [congruence|reflexivity..]. }
  split.
  { intros Hv. unfold clean. destruct (k_mode k) eqn:Em.
    - destruct after; cbn [p_loader p_live]; (split; [apply Hll|split; [apply Hll|discriminate]]).
    - cbn [p_loader p_live]; (split; [apply Hll|split; [apply Hll|discriminate]]).
    - cbn [p_loader p_live]. split; [apply Hll|split; [apply Hll|]]. intros _. right. rewrite (Haf (Hv eq_refl)). reflexivity. }
  intros Hm m s -> Hs Hle. rewrite Hm. destruct Hk as (_ & _ & _ & _ & _ & Hk1). specialize (Hk1 Hm).
  unfold after. rewrite Hk1 in *. cbn [seq repeat combine]. clearbody l. clear Haf Hsn Hll.
  clear after. clear out. cbn beta iota. clear qs.
  destruct (streams_at k (n + 1) a) as [|s0 ss]; [discriminate|]. cbn [nth_error] in Hs. injection Hs as ->.
  cbn [map combine fst snd p_epoch asked]. rewrite ?Hm.
  unfold after_worker. match goal with |- context[if ?b then _ else _] => replace b with false; [reflexivity|] end.
  symmetry. apply Nat.ltb_ge. rewrite Nat.add_0_r. fold (count_tasks 0 (tasks 1 0 false m)).
  pose proof (count_window 1 0 m 0 ltac:(lia) ltac:(lia)) as E. rewrite window_0, Nat.mul_1_l in E. rewrite E. exact Hle.
Qed.

Lemma visits_clean k vs : cfg_ok k -> history_ok k vs -> forall n st, clean k n st ->
  exists outs st', p_visits k vs st = Ok (outs, st') /\ clean k (n + length vs) st'.
Proof.
  intros Hk. induction vs as [|v vs IH]; intros Hh n st Hc.
  - exists [], st. rewrite Nat.add_0_r. auto.
  - destruct (clean_visit k n st v Hk Hc) as (a & st1 & _ & _ & E & _ & _ & _ & Hc1 & _). cbv zeta in E.
    destruct (IH ltac:(intros Hm; specialize (Hh Hm); inversion Hh; assumption) (n + 1) st1) as (outs & st' & E2 & Hc2).
    { apply Hc1. intros Hm. specialize (Hh Hm). inversion Hh; congruence. }
    cbn [p_visits]. rewrite E. cbn [bind snd fst]. rewrite E2. cbn [bind fst snd].
    eexists; exists st'. split; [reflexivity|]. cbn [length]. replace (n + S (length vs)) with (n + 1 + length vs) by lia. exact Hc2.
Qed.

Lemma clean_init k : clean k 0 p_init.
Proof. split; [reflexivity|]. split; [reflexivity|]. intros _. left. reflexivity. Qed.

Lemma concat_perm {A} (l1 l2 : list (list A)) : Permutation l1 l2 -> Permutation (concat l1) (concat l2).
Proof.
  induction 1 as [|x l l' _ IH|x y l|l l' l'' _ IH1 _ IH2]; cbn [concat]; auto.
  - apply Permutation_app_head, IH.
  - rewrite !app_assoc. apply Permutation_app_tail, Permutation_app_comm.
  - etransitivity; eauto.
Qed.

Lemma whole_delivered nw m B (ss : list (list sample)) y : 1 <= nw -> 1 <= B -> length ss = nw ->
  length (concat (map (pieces B) ss)) <= y ->
  Permutation (delivered (fst (serve (window nw m (nw * y)) (map (pieces B) ss)))) (concat ss).
Proof.
  intros Hnw HB Hl Hy. unfold delivered.
  pose proof (serve_perm (window nw m (nw * y)) (map (pieces B) ss)) as P.
  pose proof (drained nw m (map (pieces B) ss) Hnw ltac:(rewrite map_length; exact Hl) y Hy) as D.
  replace (concat (snd (serve (window nw m (nw * y)) (map (pieces B) ss)))) with (@nil (list sample)) in P.
  2: { clear P. induction D as [|q qs <- _ IH]; [reflexivity|exact IH]. }
  rewrite app_nil_r in P. apply concat_perm in P. rewrite <- P.
  replace (concat (concat (map (pieces B) ss))) with (concat ss); [apply Permutation_refl|].
  clear -HB. induction ss as [|s ss IH]; [reflexivity|]. cbn [map concat]. rewrite concat_app, <- IH, concat_pieces by exact HB. reflexivity.
Qed.

Lemma ranks_concat {A} nw (l : list A) : forall W, length l = W * nw ->
  flat_map (fun r => firstn nw (skipn (r * nw) l)) (seq 0 W) = l.
Proof.
  assert (H : forall W, W * nw <= length l -> flat_map (fun r => firstn nw (skipn (r * nw) l)) (seq 0 W) = firstn (W * nw) l).
  { induction W as [|W IH]; intros Hl; [reflexivity|]. rewrite seq_S, flat_map_app, IH by lia. cbn [Nat.add flat_map].
    rewrite app_nil_r. replace (S W * nw) with (W * nw + nw) by lia.
    rewrite <- (firstn_skipn (W * nw) l) at 3. rewrite firstn_app, firstn_firstn, firstn_length.
    replace (min (W * nw + nw) (W * nw)) with (W * nw) by lia.
    replace (W * nw + nw - min (W * nw) (length l)) with nw by lia. reflexivity. }
  intros W Hl. rewrite H by lia. apply firstn_all2. lia.
Qed.

(** The streams of all ranks are the dataset. *)
Lemma all_streams rng shuffle W nodes seed nw B ivs md pf e a :
  rng_ok rng -> 1 <= W -> 1 <= nw -> 1 <= B -> (shuffle = false \/ nodes = 1) ->
  let k r := Cfg rng shuffle (Env W r nodes) seed false nw B ivs md pf in
  assign_of (k 0) e = Ok a ->
  Permutation (concat (flat_map (fun r => streams_at (k r) e a) (seq 0 W))) (dataset_samples (seq 0 (length ivs)) ivs).
Proof.
  intros Hrng HW Hnw HB Hs k Ea.
  assert (Haok : assignment_ok (W * nw) a).
  { unfold assign_of in Ea. cbn in Ea. eapply (shuffle_assign_ok rng shuffle (Env W 0 nodes)); [| | |exact Ea]; cbn; lia. }
  assert (E : flat_map (fun r => streams_at (k r) e a) (seq 0 W) = map (stream (shuffle_call rng shuffle seed) e) (workers a)).
  { rewrite <- (ranks_concat nw (workers a) W) at 1 by (apply workers_length, Haok).
    induction (seq 0 W) as [|r rs IH]; [reflexivity|]. cbn [flat_map]. rewrite map_app, <- IH. reflexivity. }
  rewrite E, <- flat_map_concat_map. transitivity (flat_map worker_samples (workers a)); [apply Permutation_flat_map_ext; intros w _; apply stream_perm, shuffle_call_ok, Hrng|].
  unfold assign_of, shuffle_assign in Ea. cbn in Ea. destruct shuffle.
  - destruct Hs as [Hs| ->]; [discriminate|].
    destruct (full_shuffle_first rng (Env W 0 1) seed false nw B e ivs Hrng (or_intror eq_refl)) as (p & Hp & Hfs).
    cbn [world_size] in Hfs. rewrite Hfs in Ea.
    destruct (assign_no_drop W nw B p (map (fun i => nth i ivs dIv) p) HW Hnw HB) as (a' & Ha & _ & Hsam & _).
    { rewrite map_length; reflexivity. }
    rewrite Ea in Ha. injection Ha as <-. rewrite Hsam. apply dataset_samples_perm; exact Hp.
  - unfold no_shuffle_assign in Ea. cbn [world_size] in Ea.
    destruct (assign_no_drop W nw B (seq 0 (length ivs)) ivs HW Hnw HB) as (a' & Ha & _ & Hsam & _).
    { rewrite seq_length; reflexivity. }
    rewrite Ea in Ha. injection Ha as <-. rewrite Hsam. apply Permutation_refl.
Qed.

Theorem complete_loop rng shuffle W nodes seed nw B ivs md pf n (hist : nat -> list visit) :
  rng_ok rng -> 1 <= W -> 1 <= nw -> 1 <= B -> (shuffle = false \/ nodes = 1) -> (md = InProcess -> nw = 1) ->
  let k r := Cfg rng shuffle (Env W r nodes) seed false nw B ivs md pf in
  (forall r, r < W -> length (hist r) = n /\ history_ok (k r) (hist r)) ->
  exists out,
    (forall r, r < W -> exists outs st st', p_visits (k r) (hist r) p_init = Ok (outs, st) /\
                                            p_visit (k r) Whole st = Ok (out r, st')) /\
    Permutation (flat_map (fun r => delivered (out r)) (seq 0 W)) (dataset_samples (seq 0 (length ivs)) ivs).
Proof.
  intros Hrng HW Hnw HB Hs Hmd k Hh.
  assert (Hk : forall r, r < W -> cfg_ok (k r)).
  { intros r Hr. unfold cfg_ok, k. cbn. repeat split; auto. }
  destruct (assign_exists (k 0) (Hk 0 ltac:(lia)) (n + 1)) as (a & Ea & Haok).
  set (out r := fst (serve (tasks nw 0 false (asked (k r) Whole (map (pieces B) (streams_at (k r) (n + 1) a))))
                           (map (pieces B) (streams_at (k r) (n + 1) a)))).
  exists out. split.
  - intros r Hr. destruct (Hh r Hr) as [Hl Hho].
    destruct (visits_clean (k r) (hist r) (Hk r Hr) Hho 0 p_init (clean_init _)) as (outs & st & E1 & Hc).
    cbn [Nat.add] in Hc. rewrite Hl in Hc.
    destruct (clean_visit (k r) n st Whole (Hk r Hr) Hc) as (a' & st' & Ea' & _ & E & _).
    assert (a' = a) by (change (assign_of (k r) (n + 1)) with (assign_of (k 0) (n + 1)) in Ea'; congruence).
    subst a'. exists outs, st, st'. split; [exact E1|exact E].
  - etransitivity; [|exact (all_streams rng shuffle W nodes seed nw B ivs md pf (n + 1) a Hrng HW Hnw HB Hs Ea)].
    rewrite flat_map_concat_map, (flat_map_concat_map (fun r => streams_at _ _ _)).
    assert (H : forall rs, (forall r, In r rs -> r < W) ->
       Permutation (concat (map (fun r => delivered (out r)) rs))
                   (concat (concat (map (fun r => streams_at (k r) (n + 1) a) rs)))).
    { induction rs as [|r rs IH]; intros Hr; [apply Permutation_refl|]. cbn [map concat]. rewrite concat_app.
      apply Permutation_app; [|apply IH; intros; apply Hr; right; assumption].
      unfold out. cbn [asked]. rewrite <- window_0. change (k_nw (k r)) with nw.
      apply whole_delivered; auto; [|lia].
      apply (streams_length (k r) (Hk r (Hr r (or_introl eq_refl)))). exact Haok. }
    apply H. intros r Hr. apply in_seq in Hr. lia.
Qed.

(** * Loops that resume *)

Lemma same_data_facts k k' : same_data k k' ->
  k_nw k' = k_nw k /\ k_B k' = k_B k /\ k_env k' = k_env k /\ shuf_of k' = shuf_of k /\
  (forall e, assign_of k' e = assign_of k e) /\
  (forall e a, streams_at k' e a = streams_at k e a) /\ (forall n e a, rest_at k' n e a = rest_at k n e a).
Proof.
  intros (H1 & H2 & H3 & H4 & H5 & H6 & H7 & H8).
  assert (Es : shuf_of k' = shuf_of k) by (unfold shuf_of; rewrite H1, H2, H4; reflexivity).
  assert (Est : forall e a, streams_at k' e a = streams_at k e a)
    by (intros e a; unfold streams_at; rewrite Es, H6, H3; reflexivity).
  repeat split; auto.
  - intros e. unfold assign_of. rewrite H1, H2, H3, H4, H5, H6, H7, H8. reflexivity.
  - intros n e a. unfold rest_at. rewrite Est, H6, H7. reflexivity.
Qed.

(** No worker has run dry after [M] batches. *)
Definition not_dry (k : pcfg) (e M : nat) (a : list (list nat) * list (list interval)) : Prop :=
  forall w s, nth_error (streams_at k e a) w = Some s -> k_B k * turns (k_nw k) 1 M w < length s.

Lemma turns_mono nw m n w : turns nw 1 m w <= turns nw 1 (m + n) w.
Proof.
  induction n as [|n IH]; [rewrite Nat.add_0_r; lia|]. replace (m + S n) with (S (m + n)) by lia.
  rewrite turns_S. lia.
Qed.

Lemma not_dry_mono k e m n a : not_dry k e (m + n) a -> not_dry k e m a.
Proof. intros H w s Hs. specialize (H w s Hs). pose proof (turns_mono (k_nw k) m n w). nia. Qed.

Definition queues (k : pcfg) (M e : nat) (a : list (list nat) * list (list interval)) : list (list (list sample)) :=
  map (pieces (k_B k)) (rest_at k (M * k_B k) e a).

Section Resume.
  Context (k : pcfg) (Hk : cfg_ok k) (e : nat) (a : list (list nat) * list (list interval)).
  Context (Ea : assign_of k e = Ok a) (Ha : assignment_ok (world_size (k_env k) * k_nw k) a).
  Notation nw := (k_nw k).
  Notation B := (k_B k).
  Let qs := map (pieces B) (streams_at k e a).

  Lemma queues_0 : queues k 0 e a = qs.
  Proof.
    unfold queues, rest_at, qs. rewrite map_map. cbn [Nat.mul]. apply nth_error_ext. intros i. rewrite !nth_error_map.
    destruct (nth_error (streams_at k e a) i) as [s|] eqn:E.
    - assert (Hi : i < nw) by (rewrite <- (streams_length k Hk e a Ha); apply nth_error_Some; congruence).
      rewrite (combine_nth_error (seq 0 nw) (streams_at k e a) i i s); [|rewrite nth_error_seq by exact Hi; reflexivity|exact E].
      reflexivity.
    - rewrite (proj2 (nth_error_None _ i)); [reflexivity|]. apply nth_error_None in E.
      rewrite combine_length. lia.
  Qed.

  Lemma queue_nth M w s : nth_error (streams_at k e a) w = Some s ->
    nth_error (queues k M e a) w = Some (pieces B (skipn (B * turns nw 1 M w) s)).
  Proof.
    intros E. assert (Hi : w < nw) by (rewrite <- (streams_length k Hk e a Ha); apply nth_error_Some; congruence).
    unfold queues, rest_at. rewrite !nth_error_map.
    rewrite (combine_nth_error (seq 0 nw) (streams_at k e a) w w s); [|rewrite nth_error_seq by exact Hi; reflexivity|exact E].
    cbn [option_map fst snd]. rewrite turns_batches by (try apply Hk; exact Hi). reflexivity.
  Qed.

  Lemma queues_length M : length (queues k M e a) = nw.
  Proof. unfold queues, rest_at. rewrite !map_length, combine_length, seq_length, streams_length by auto. lia. Qed.

  Lemma window_count M n w : w < nw -> count_tasks w (window nw M n) = turns nw 1 (M + n) w - turns nw 1 M w.
  Proof.
    intros Hw. pose proof (f_equal (count_tasks w) (tasks_app nw M n)) as E.
    rewrite count_app, !count_fresh_tasks in E. lia.
  Qed.

  (** Serving [n] more tasks after [M] leaves the queues after [M + n]. *)
  Lemma serve_queues M n : snd (serve (window nw M n) (queues k M e a)) = queues k (M + n) e a.
  Proof.
    apply nth_error_ext. intros w. destruct (nth_error (streams_at k e a) w) as [s|] eqn:E.
    - assert (Hi : w < nw) by (rewrite <- (streams_length k Hk e a Ha); apply nth_error_Some; congruence).
      pose proof (serve_queue (window nw M n) _ w _ (queue_nth M w s E)) as H.
      destruct (serve _ _) as [o q]. cbn [snd]. destruct H as [H _]. rewrite H, (queue_nth (M + n) w s E).
      rewrite window_count by exact Hi. rewrite pieces_skipn by apply Hk. rewrite skipn_skipn.
      f_equal. f_equal. f_equal. pose proof (turns_mono nw M n w). nia.
    - apply nth_error_None in E. rewrite streams_length in E by auto.
      rewrite !(proj2 (nth_error_None _ w)); [reflexivity|rewrite queues_length; exact E|].
      rewrite serve_lengths, queues_length. exact E.
  Qed.

  Lemma served M n : not_dry k e (M + n) a -> length (fst (serve (window nw M n) (queues k M e a))) = n.
  Proof.
    intros Hd. rewrite serve_all_yield; [unfold window; rewrite map_length, seq_length; reflexivity|].
    intros w Hw. destruct (nth_error (streams_at k e a) w) as [s|] eqn:E.
    - assert (Hi : w < nw) by (rewrite <- (streams_length k Hk e a Ha); apply nth_error_Some; congruence).
      eexists. split; [exact (queue_nth M w s E)|]. rewrite window_count by exact Hi.
      rewrite pieces_length by apply Hk. specialize (Hd w s E). rewrite skipn_length.
      assert (1 <= B) by apply Hk. apply Nat.div_le_lower_bound; [lia|].
      pose proof (turns_mono nw M n w). nia.
    - exfalso. apply nth_error_None in E. rewrite streams_length in E by auto.
      unfold window in Hw. apply in_map_iff in Hw. destruct Hw as (j & <- & _).
      pose proof (Nat.mod_upper_bound (M + j) nw ltac:(destruct Hk; lia)). lia.
  Qed.

  Lemma serve_split M n : fst (serve (tasks nw 0 false (M + n)) qs) =
    fst (serve (tasks nw 0 false M) qs) ++ fst (serve (window nw M n) (queues k M e a)).
  Proof.
    rewrite tasks_app, serve_app. pose proof (serve_queues 0 M) as E. rewrite queues_0, window_0 in E. cbn [Nat.add] in E.
    destruct (serve (tasks nw 0 false M) qs) as [o q]. cbn [fst snd] in *. rewrite E.
    destruct (serve (window nw M n) _); reflexivity.
  Qed.

  Lemma serve_split_more M m n : fst (serve (window nw M (m + n)) (queues k M e a)) =
    fst (serve (window nw M m) (queues k M e a)) ++ fst (serve (window nw (M + m) n) (queues k (M + m) e a)).
  Proof.
    pose proof (serve_split M (m + n)) as E1. pose proof (serve_split M m) as E2. pose proof (serve_split (M + m) n) as E3.
    rewrite Nat.add_assoc, E3, E2, <- app_assoc in E1. apply app_inv_head in E1. symmetry. exact E1.
  Qed.

  (** What remains after [M] batches when the loop is run to its end. *)
  Definition rest_of (M : nat) : list (nat * list sample) :=
    fst (serve (window nw M (nw * (2 + length (concat (queues k M e a))))) (queues k M e a)).

  Lemma rest_more M n : nw * (2 + length (concat (queues k M e a))) <= n ->
    fst (serve (window nw M n) (queues k M e a)) = rest_of M.
  Proof.
    intros Hn. unfold rest_of. apply serve_more; [exact Hn|]. apply drained; [apply Hk|apply queues_length|lia].
  Qed.

  Lemma rest_split M m : fst (serve (window nw M m) (queues k M e a)) ++ rest_of (M + m) = rest_of M.
  Proof.
    set (x := nw * (2 + length (concat (queues k M e a)))).
    set (y := nw * (2 + length (concat (queues k (M + m) e a)))).
    rewrite <- (rest_more (M + m) (x + y)) by (fold y; lia).
    rewrite <- serve_split_more. apply rest_more. fold x. lia.
  Qed.

  Lemma full_rest : fst (serve (tasks nw 0 false (asked k Whole qs)) qs) = rest_of 0.
  Proof. unfold rest_of. rewrite queues_0, window_0. reflexivity. Qed.

  (** The saved state after [M] batches of the epoch. *)
  Definition sv (M : nat) : lsaved := LSaved e (M * B) ((M - 1) mod nw).
  Definition sd (M : nat) : sdict := SD (M * B) nw B e.

  Lemma order_resumed M st n : 1 <= M -> l_latest (p_loader st) = (M - 1) mod nw + 1 -> l_restore (p_loader st) = true ->
    (k_mode k = PersistentWorkers -> p_live st = None) -> order k st n = window nw M n.
  Proof.
    intros HM Hl Hr Hp. unfold order. assert (E : tasks nw (l_latest (p_loader st)) (l_restore (p_loader st)) n = window nw M n).
    { rewrite Hl, Hr. unfold window. apply resumed_tasks_eq; [apply Hk|exact HM]. }
    destruct (k_mode k); auto. rewrite (Hp eq_refl). exact E.
  Qed.

  (** A loop right after loading the state after [M] batches. *)
  Lemma load_visit len M used v : 1 <= M -> M * B < len -> not_dry k e M a ->
    (k_mode k = PersistentWorkers -> p_live used = None) ->
    exists st', p_visit k v (p_load len (sv M) (sd M) used) =
      Ok (match v with Whole => rest_of M | Part n => fst (serve (window nw M n) (queues k M e a)) end, st') /\
      (forall n, v = Part n -> 1 <= n -> not_dry k e (M + n) a ->
         p_loader st' = LS e ((M + n) * B) (l_cycle (p_loader used) + ((M - 1) mod nw + 1) + n)
                           ((l_cycle (p_loader used) + ((M - 1) mod nw + 1) + n - 1) mod nw) true /\
         p_saved st' = Some (sd M)).
  Proof.
    intros HM Hlen Hd Hp.
    assert (HB : 1 <= B) by apply Hk. assert (Hnw : 1 <= nw) by apply Hk.
    assert (Hrest : l_restore (l_load len (sv M) (p_loader used)) = true).
    { unfold l_load, sv. cbn [s_samples l_restore]. replace (0 <? M * B) with true by (symmetry; apply Nat.ltb_lt; nia).
      apply Nat.ltb_lt in Hlen. rewrite Hlen. reflexivity. }
    set (st0 := p_load len (sv M) (sd M) used).
    assert (B1 : p_begin st0 = PS (l_load len (sv M) (p_loader used)) (p_epoch used) (Some (sd M)) (p_live used)).
    { unfold p_begin, st0, p_load, l_iter. cbn [p_loader p_epoch p_saved p_live]. rewrite Hrest. reflexivity. }
    unfold p_visit. cbv zeta. rewrite B1.
    set (st1 := PS (l_load len (sv M) (p_loader used)) (p_epoch used) (Some (sd M)) (p_live used)).
    assert (Hc : copies k st1 = repeat (p_epoch used, Some (sd M)) nw).
    { unfold copies. destruct (k_mode k); try reflexivity. unfold st1 at 1. cbn [p_live]. rewrite (Hp eq_refl). reflexivity. }
    rewrite Hc. unfold sd. rewrite (runs_resumed k Hk (M * B) e (p_epoch used) a Ea Ha).
    2: { intros w s Hs. assert (Hi : w < nw) by (rewrite <- (streams_length k Hk e a Ha); apply nth_error_Some; congruence).
         rewrite turns_batches by assumption. apply Hd. exact Hs. }
    cbn [bind]. rewrite map_map. cbn [fst].
    change (map (fun x : list sample => pieces B x) (rest_at k (M * B) e a)) with (queues k M e a).
    rewrite !(order_resumed M st1) by (auto; reflexivity).
    set (n := match v with Whole => _ | Part _ => _ end).
    eexists. split.
    { f_equal. f_equal. unfold n. destruct v; [reflexivity|reflexivity]. }
    intros n0 -> Hn0 Hd2. cbn [p_loader] in *. unfold n. rewrite served by exact Hd2.
    assert (El : l_batches nw B n0 (p_loader st1) =
       LS e ((M + n0) * B) (l_cycle (p_loader used) + ((M - 1) mod nw + 1) + n0)
          ((l_cycle (p_loader used) + ((M - 1) mod nw + 1) + n0 - 1) mod nw) true).
    { rewrite l_batches_eq. cbn [p_loader st1]. rewrite Hrest. unfold l_load, sv.
      cbn [l_epoch l_samples l_cycle l_latest s_epoch s_samples s_latest].
      destruct n0 as [|n1]; [lia|]. f_equal; [lia|]. f_equal. lia. }
    destruct (k_mode k) eqn:Em; cbn [p_loader p_saved].
    2, 3: split; [exact El|reflexivity].
    assert (H1 : k_nw k = 1) by (apply Hk; exact Em).
    set (after := map _ (combine _ _)).
    assert (Haf : after = [(e, Some (sd M))]).
    { unfold after, rest_at. rewrite H1. cbn [repeat seq]. pose proof (streams_length k Hk e a Ha) as Hsl. rewrite H1 in Hsl.
      destruct (streams_at k e a) as [|s [|? ?]] eqn:Es; try discriminate Hsl. cbn [combine map fst snd].
      unfold after_worker. cbn [fst snd sd_epoch].
      match goal with |- context[if ?b then _ else _] => replace b with false end.
      - unfold sd. rewrite H1. reflexivity.
      - symmetry. apply Nat.ltb_ge. fold (count_tasks 0 (window 1 M (n0 + 0))). rewrite Nat.add_0_r.
        replace n0 with (1 * n0) at 1 by lia. rewrite count_window by lia.
        pose proof (turns_batches 1 B M 0 ltac:(lia) HB ltac:(lia)) as Et.
        rewrite Et. specialize (Hd2 0 s). rewrite Es, H1 in Hd2. specialize (Hd2 eq_refl).
        pose proof (count_window 1 0 (M + n0) 0 ltac:(lia) ltac:(lia)) as E1. rewrite window_0, count_fresh_tasks, Nat.mul_1_l in E1.
        pose proof (count_window 1 0 M 0 ltac:(lia) ltac:(lia)) as E2. rewrite window_0, count_fresh_tasks, Nat.mul_1_l in E2.
        rewrite E1 in Hd2. rewrite E2, skipn_length. nia. }
    rewrite Haf. cbn [p_loader p_saved fst snd]. split; [exact El|reflexivity].
  Qed.

  Lemma relay_rest len : forall ms M, 1 <= M -> Forall (fun m => 1 <= m) ms -> (M + sum ms) * B < len ->
    not_dry k e (M + sum ms) a -> relay k len ms (sv M) (sd M) = Ok (rest_of M).
  Proof.
    induction ms as [|m ms IH]; intros M HM Hms Hlen Hd; cbn [relay sum] in *.
    - rewrite Nat.add_0_r in *.
      destruct (load_visit len M p_init Whole HM Hlen Hd ltac:(reflexivity)) as (st' & E & _). rewrite E. reflexivity.
    - inversion Hms as [|? ? Hm Hms']; subst.
      assert (Hd1 : not_dry k e (M + m) a) by (apply (not_dry_mono k e (M + m) (sum ms)); rewrite <- Nat.add_assoc; exact Hd).
      assert (Hd0 : not_dry k e M a) by (apply (not_dry_mono k e M m); exact Hd1).
      destruct (load_visit len M p_init (Part m) HM ltac:(nia) Hd0 ltac:(reflexivity)) as (st' & E & F).
      destruct (F m eq_refl Hm Hd1) as [F1 F2]. rewrite E. cbn [bind snd fst].
      unfold p_save. rewrite F1, F2. cbn [l_save l_epoch l_samples l_latest h_read p_saved sd sd_workers sd_batch sd_epoch].
      assert (Hlat : (l_cycle (p_loader p_init) + ((M - 1) mod nw + 1) + m - 1) mod nw = (M + m - 1) mod nw).
      { cbn [p_init p_loader l_init l_cycle Nat.add]. replace ((M - 1) mod nw + 1 + m - 1) with ((M - 1) mod nw + m) by lia.
        assert (nw <> 0) by (destruct Hk; lia). rewrite Nat.add_mod_idemp_l by assumption. f_equal. lia. }
      rewrite Hlat. match goal with |- context[relay k len ms ?x _] => change x with (sv (M + m)) end.
      change (SD ((M + m) * B) nw B e) with (sd (M + m)).
      rewrite (IH (M + m)); [|lia|assumption|rewrite <- Nat.add_assoc; exact Hlen|rewrite <- Nat.add_assoc; exact Hd].
      cbn [bind]. rewrite rest_split. reflexivity.
  Qed.
End Resume.

(** The state saved in a loop, whatever loops came before. *)
Section Saved.
  Context (k : pcfg) (Hk : cfg_ok k) (n : nat) (st : pstate) (Hc : clean k n st).

  Lemma from_whole a w s : assignment_ok (world_size (k_env k) * k_nw k) a ->
    nth_error (streams_at k (n + 1) a) w = Some s ->
    concat (from_worker w (rest_of k (n + 1) a 0)) = s.
  Proof.
    intros Ha Hs. unfold rest_of. pose proof (queue_nth k Hk (n + 1) a Ha 0 w s Hs) as Hq.
    assert (Hi : w < k_nw k) by (rewrite <- (streams_length k Hk (n + 1) a Ha); apply nth_error_Some; congruence).
    assert (Hle : length (pieces (k_B k) (skipn (k_B k * turns (k_nw k) 1 0 w) s)) <= length (concat (queues k 0 (n + 1) a))).
    { clear -Hq. apply nth_error_In, in_split in Hq. destruct Hq as (l1 & l2 & ->). rewrite concat_app. cbn [concat].
      rewrite !app_length. lia. }
    set (y := 2 + length (concat (queues k 0 (n + 1) a))) in *.
    pose proof (serve_queue (window (k_nw k) 0 (k_nw k * y)) _ w _ Hq) as H.
    destruct (serve _ _) as [o q]. cbn [fst] in *. destruct H as [_ H]. rewrite H, count_window by (try apply Hk; exact Hi).
    rewrite firstn_all2 by lia. rewrite concat_pieces by apply Hk. rewrite Nat.mul_comm. reflexivity.
  Qed.

  Lemma from_part a N w s : assignment_ok (world_size (k_env k) * k_nw k) a ->
    nth_error (streams_at k (n + 1) a) w = Some s ->
    concat (from_worker w (fst (serve (tasks (k_nw k) 0 false N) (map (pieces (k_B k)) (streams_at k (n + 1) a))))) =
    firstn (k_B k * turns (k_nw k) 1 N w) s.
  Proof.
    intros Ha Hs.
    pose proof (serve_queue (tasks (k_nw k) 0 false N) (map (pieces (k_B k)) (streams_at k (n + 1) a)) w (pieces (k_B k) s)
                 ltac:(rewrite nth_error_map, Hs; reflexivity)) as H.
    destruct (serve _ _) as [o q]. cbn [fst] in *. destruct H as [_ H]. rewrite H, count_fresh_tasks. apply pieces_firstn, Hk.
  Qed.

  Lemma saved_in_loop N m full stf part stp :
    p_visit k Whole st = Ok (full, stf) -> p_visit k (Part N) st = Ok (part, stp) -> 1 <= m -> m <= N ->
    (forall w, w < k_nw k -> length (concat (from_worker w part)) < length (concat (from_worker w full))) ->
    exists a first st1, assign_of k (n + 1) = Ok a /\ assignment_ok (world_size (k_env k) * k_nw k) a /\
      not_dry k (n + 1) N a /\
      p_visit k (Part m) st = Ok (first, st1) /\
      p_save k st1 = ((sv k (n + 1) m, Copy (sd k (n + 1) m)), st1) /\
      first ++ rest_of k (n + 1) a m = full.
  Proof.
    intros Ef Ep Hm HmN Hleft.
    destruct (clean_visit k n st Whole Hk Hc) as (a & sf & Ea & Ha & Ef' & _). cbv zeta in Ef'.
    destruct (clean_visit k n st (Part N) Hk Hc) as (a2 & sp & Ea2 & _ & Ep' & _). cbv zeta in Ep'.
    destruct (clean_visit k n st (Part m) Hk Hc) as (a3 & s1 & Ea3 & _ & E1 & L1 & S1 & P1 & _ & I1). cbv zeta in E1, L1.
    assert (a2 = a) by congruence. assert (a3 = a) by congruence. subst a2 a3. clear Ea2 Ea3.
    rewrite Ef in Ef'. injection Ef' as Ef' _. rewrite Ep in Ep'. injection Ep' as Ep' _. cbn [asked] in *.
    assert (Fr : full = rest_of k (n + 1) a 0) by (rewrite <- (full_rest k Hk (n + 1) a Ha); exact Ef').
    clear Ef'. subst full part.
    assert (Hd : not_dry k (n + 1) N a).
    { intros w s Hs. assert (Hi : w < k_nw k) by (rewrite <- (streams_length k Hk (n + 1) a Ha); apply nth_error_Some; congruence).
      specialize (Hleft w Hi).
      change (length (concat (from_worker w (fst (serve (tasks (k_nw k) 0 false N) (map (pieces (k_B k)) (streams_at k (n + 1) a)))))) <
              length (concat (from_worker w (rest_of k (n + 1) a 0)))) in Hleft.
      rewrite (from_whole a w s Ha Hs), (from_part a N w s Ha Hs), firstn_length in Hleft. lia. }
    assert (Hdm : not_dry k (n + 1) m a).
    { apply (not_dry_mono k (n + 1) m (N - m)). replace (m + (N - m)) with N by lia. exact Hd. }
    pose proof (served k Hk (n + 1) a Ha 0 m Hdm) as Hlen. rewrite queues_0, window_0 in Hlen by auto.
    rewrite Hlen in L1.
    exists a. eexists. exists s1. split; [exact Ea|]. split; [exact Ha|]. split; [exact Hd|]. split; [exact E1|]. split.
    - unfold p_save. rewrite S1. unfold l_save, sv, sd. rewrite L1, l_batches_eq.
      cbn [l_samples l_latest l_epoch l_cycle Nat.add].
      assert (Ee : p_epoch s1 = n + 1).
      { destruct (k_mode k) eqn:Em; [|apply P1; discriminate..].
        pose proof (proj2 (proj2 (proj2 (proj2 (proj2 Hk)))) Em) as Hn1.
        destruct (nth_error (streams_at k (n + 1) a) 0) as [s|] eqn:Es.
        - apply (I1 eq_refl m s eq_refl eq_refl). specialize (Hdm 0 s Es). rewrite Hn1 in Hdm.
          pose proof (count_window 1 0 m 0 ltac:(lia) ltac:(lia)) as E2. rewrite window_0, count_fresh_tasks, Nat.mul_1_l in E2.
          rewrite E2 in Hdm. lia.
        - apply nth_error_None in Es. rewrite streams_length in Es by auto. lia. }
      rewrite Ee. destruct m as [|m']; [lia|]. cbn [Nat.sub]. rewrite Nat.sub_0_r. reflexivity.
    - pose proof (rest_split k Hk (n + 1) a Ha 0 m) as E. rewrite queues_0, window_0 in E by auto. exact E.
  Qed.
End Saved.

Lemma same_rest k k' e a M : same_data k k' -> rest_of k' e a M = rest_of k e a M /\ sv k' e M = sv k e M /\ sd k' e M = sd k e M /\
  (not_dry k e M a -> not_dry k' e M a).
Proof.
  intros H. destruct (same_data_facts k k' H) as (E1 & E2 & E3 & E4 & E5 & E6 & E7).
  unfold rest_of, sv, sd, not_dry, queues. rewrite E1, E2, E7, E6. auto.
Qed.

Theorem interrupted k k' len vs outs st full stf part stp m ms :
  cfg_ok k -> cfg_ok k' -> same_data k k' -> history_ok k vs ->
  p_visits k vs p_init = Ok (outs, st) -> p_visit k Whole st = Ok (full, stf) ->
  p_visit k (Part (m + sum ms)) st = Ok (part, stp) ->
  1 <= m -> Forall (fun m => 1 <= m) ms -> (m + sum ms) * k_B k < len ->
  (forall w, w < k_nw k -> length (concat (from_worker w part)) < length (concat (from_worker w full))) ->
  exists first st1 lv d rest, p_visit k (Part m) st = Ok (first, st1) /\ p_save k st1 = ((lv, Copy d), st1) /\
    relay k' len ms lv d = Ok rest /\ first ++ rest = full.
Proof.
  intros Hk Hk' Hsame Hh Ev Ef Ep Hm Hms Hlen Hleft.
  destruct (visits_clean k vs Hk Hh 0 p_init (clean_init k)) as (outs' & st' & Ev' & Hc).
  rewrite Ev in Ev'. injection Ev' as <- <-. set (n := 0 + length vs) in *.
  destruct (saved_in_loop k Hk n st Hc (m + sum ms) m full stf part stp Ef Ep Hm ltac:(lia) Hleft)
    as (a & first & st1 & Ea & Ha & Hd & E1 & Es & Er).
  exists first, st1, (sv k (n + 1) m), (sd k (n + 1) m), (rest_of k (n + 1) a m).
  split; [exact E1|]. split; [exact Es|]. split; [|exact Er].
  destruct (same_rest k k' (n + 1) a m Hsame) as (R1 & R2 & R3 & _). rewrite <- R1, <- R2, <- R3.
  destruct (same_data_facts k k' Hsame) as (F1 & F2 & F3 & _ & F5 & _).
  apply (relay_rest k' Hk' (n + 1) a).
  - rewrite F5. exact Ea.
  - rewrite F3, F1. exact Ha.
  - exact Hm.
  - exact Hms.
  - rewrite F2. exact Hlen.
  - apply (same_rest k k' (n + 1) a (m + sum ms) Hsame). exact Hd.
Qed.

Theorem load_into_used k k' len vs outs st full stf m part stp used :
  cfg_ok k -> cfg_ok k' -> same_data k k' -> history_ok k vs -> (k_mode k' = PersistentWorkers -> p_live used = None) ->
  p_visits k vs p_init = Ok (outs, st) -> p_visit k Whole st = Ok (full, stf) ->
  p_visit k (Part m) st = Ok (part, stp) -> 1 <= m -> m * k_B k < len ->
  (forall w, w < k_nw k -> length (concat (from_worker w part)) < length (concat (from_worker w full))) ->
  exists lv d rest st', p_save k stp = ((lv, Copy d), stp) /\
    p_visit k' Whole (p_load len lv d used) = Ok (rest, st') /\ part ++ rest = full.
Proof.
  intros Hk Hk' Hsame Hh Hu Ev Ef Ep Hm Hlen Hleft.
  destruct (visits_clean k vs Hk Hh 0 p_init (clean_init k)) as (outs' & st' & Ev' & Hc).
  rewrite Ev in Ev'. injection Ev' as <- <-. set (n := 0 + length vs) in *.
  destruct (saved_in_loop k Hk n st Hc m m full stf part stp Ef Ep Hm ltac:(lia) Hleft)
    as (a & first & st1 & Ea & Ha & Hd & E1 & Es & Er).
  rewrite Ep in E1. injection E1 as <- <-.
  destruct (same_rest k k' (n + 1) a m Hsame) as (R1 & R2 & R3 & R4).
  destruct (same_data_facts k k' Hsame) as (F1 & F2 & F3 & _ & F5 & _).
  destruct (load_visit k' Hk' (n + 1) a ltac:(rewrite F5; exact Ea) ltac:(rewrite F3, F1; exact Ha) len m used Whole Hm
              ltac:(rewrite F2; exact Hlen) (R4 Hd) Hu) as (st' & E & _).
  exists (sv k (n + 1) m), (sd k (n + 1) m), (rest_of k (n + 1) a m), st'.
  split; [exact Es|]. split; [|exact Er]. rewrite <- R1, <- R2, <- R3. exact E.
Qed.

(** Leaving a resumed loop early and beginning again. *)
Lemma window_any nw latest n : 1 <= nw -> latest < nw -> tasks nw latest true n = window nw latest n.
Proof.
  intros Hnw Hl. destruct latest as [|l].
  - rewrite window_0. reflexivity.
  - unfold window. rewrite <- resumed_tasks_eq by lia. replace (S l - 1) with l by lia.
    rewrite Nat.mod_small by lia. f_equal. lia.
Qed.

Lemma from_drained k (Hk : cfg_ok k) e a M x w s :
  assignment_ok (world_size (k_env k) * k_nw k) a -> nth_error (streams_at k e a) w = Some s ->
  concat (from_worker w (fst (serve (window (k_nw k) x (k_nw k * (2 + length (concat (queues k M e a))))) (queues k M e a)))) =
  skipn (k_B k * turns (k_nw k) 1 M w) s.
Proof.
  intros Ha Hs. pose proof (queue_nth k Hk e a Ha M w s Hs) as Hq.
  assert (Hi : w < k_nw k) by (rewrite <- (streams_length k Hk e a Ha); apply nth_error_Some; congruence).
  assert (Hle : length (pieces (k_B k) (skipn (k_B k * turns (k_nw k) 1 M w) s)) <= length (concat (queues k M e a))).
  { clear -Hq. apply nth_error_In, in_split in Hq. destruct Hq as (l1 & l2 & ->). rewrite concat_app. cbn [concat].
    rewrite !app_length. lia. }
  set (y := 2 + length (concat (queues k M e a))) in *.
  pose proof (serve_queue (window (k_nw k) x (k_nw k * y)) _ w _ Hq) as H.
  destruct (serve _ _) as [o q]. cbn [fst] in *. destruct H as [_ H]. rewrite H, count_window by (try apply Hk; exact Hi).
  rewrite firstn_all2 by lia. apply concat_pieces, Hk.
Qed.

Lemma begun_again k (Hk : cfg_ok k) e a len M used n :
  assign_of k e = Ok a -> assignment_ok (world_size (k_env k) * k_nw k) a -> k_mode k = FreshWorkers ->
  1 <= M -> M * k_B k < len -> 1 <= n -> not_dry k e (M + n) a ->
  exists part st1 again st2,
    p_visit k (Part n) (p_load len (sv k e M) (sd k e M) used) = Ok (part, st1) /\ p_visit k Whole st1 = Ok (again, st2) /\
    l_samples (p_loader st1) = (M + n) * k_B k /\
    forall w, w < k_nw k -> concat (from_worker w again) = concat (from_worker w (rest_of k e a M)).
Proof.
  intros Ea Ha Hm HM Hlen Hn Hd.
  assert (Hd0 : not_dry k e M a) by (apply (not_dry_mono k e M n); exact Hd).
  destruct (load_visit k Hk e a Ea Ha len M used (Part n) HM Hlen Hd0 ltac:(congruence)) as (st1 & E1 & F).
  destruct (F n eq_refl Hn Hd) as [F1 F2]. eexists; exists st1.
  set (lat := (l_cycle (p_loader used) + ((M - 1) mod k_nw k + 1) + n - 1) mod k_nw k) in *.
  assert (Hnw : 1 <= k_nw k) by apply Hk.
  assert (Hlat : lat < k_nw k) by (apply Nat.mod_upper_bound; lia).
  assert (E2 : exists st2, p_visit k Whole st1 =
     Ok (fst (serve (window (k_nw k) lat (k_nw k * (2 + length (concat (queues k M e a))))) (queues k M e a)), st2)).
  { unfold p_visit, p_begin, l_iter. rewrite F1, F2. cbv zeta. cbn [l_restore p_saved p_loader p_epoch p_live].
    unfold copies, order. rewrite Hm. cbn [p_epoch p_saved p_loader l_latest l_restore].
    unfold sd. rewrite (runs_resumed k Hk (M * k_B k) e (p_epoch st1) a Ea Ha).
    2: { intros w s Hs. assert (Hi : w < k_nw k) by (rewrite <- (streams_length k Hk e a Ha); apply nth_error_Some; congruence).
         rewrite turns_batches by (try assumption; apply Hk). apply Hd0. exact Hs. }
    cbn [bind]. rewrite map_map. cbn [fst].
    change (map (fun x : list sample => pieces (k_B k) x) (rest_at k (M * k_B k) e a)) with (queues k M e a).
    rewrite window_any by assumption. eexists. reflexivity. }
  destruct E2 as (st2 & E2). eexists; exists st2. split; [exact E1|]. split; [exact E2|].
  split; [rewrite F1; reflexivity|].
  intros w Hw. destruct (nth_error (streams_at k e a) w) as [s|] eqn:Es.
  - transitivity (skipn (k_B k * turns (k_nw k) 1 M w) s); [|symmetry]; apply (from_drained k Hk); assumption.
  - apply nth_error_None in Es. rewrite streams_length in Es by auto. lia.
Qed.

Theorem left_and_begun_again k k' len vs outs st full stf m n part stp :
  cfg_ok k -> cfg_ok k' -> same_data k k' -> history_ok k vs -> k_mode k' = FreshWorkers ->
  p_visits k vs p_init = Ok (outs, st) -> p_visit k Whole st = Ok (full, stf) ->
  p_visit k (Part (m + n)) st = Ok (part, stp) -> 1 <= m -> 1 <= n -> m * k_B k < len ->
  (forall w, w < k_nw k -> length (concat (from_worker w part)) < length (concat (from_worker w full))) ->
  forall used, exists first st1 lv d again st2 st3 more,
    p_visit k (Part m) st = Ok (first, st1) /\ p_save k st1 = ((lv, Copy d), st1) /\
    p_visit k' (Part n) (p_load len lv d used) = Ok (more, st2) /\ p_visit k' Whole st2 = Ok (again, st3) /\
    (forall w, w < k_nw k -> concat (from_worker w first) ++ concat (from_worker w again) = concat (from_worker w full)).
Proof.
  intros Hk Hk' Hsame Hh Hm' Ev Ef Ep Hm Hn Hlen Hleft used.
  destruct (visits_clean k vs Hk Hh 0 p_init (clean_init k)) as (outs' & st' & Ev' & Hc).
  rewrite Ev in Ev'. injection Ev' as <- <-. set (e := 0 + length vs) in *.
  destruct (saved_in_loop k Hk e st Hc (m + n) m full stf part stp Ef Ep Hm ltac:(lia) Hleft)
    as (a & first & st1 & Ea & Ha & Hd & E1 & Es & Er).
  destruct (same_rest k k' (e + 1) a m Hsame) as (R1 & R2 & R3 & _).
  destruct (same_rest k k' (e + 1) a (m + n) Hsame) as (_ & _ & _ & R4).
  destruct (same_data_facts k k' Hsame) as (F1 & F2 & F3 & _ & F5 & _).
  destruct (begun_again k' Hk' (e + 1) a len m used n) as (more & st2 & again & st3 & G1 & G2 & _ & G3); auto.
  { rewrite F5. exact Ea. } { rewrite F3, F1. exact Ha. } { rewrite F2. exact Hlen. }
  exists first, st1, (sv k (e + 1) m), (sd k (e + 1) m), again, st2, st3, more.
  split; [exact E1|]. split; [exact Es|]. split; [rewrite <- R2, <- R3; exact G1|]. split; [exact G2|].
  intros w Hw. specialize (G3 w ltac:(rewrite F1; exact Hw)). rewrite R1 in G3. rewrite <- Er.
  assert (Eapp : concat (from_worker w (first ++ rest_of k (e + 1) a m)) =
                 concat (from_worker w first) ++ concat (from_worker w (rest_of k (e + 1) a m))).
  { unfold from_worker. rewrite filter_app, map_app, concat_app. reflexivity. }
  refine (eq_trans _ (eq_sym Eapp)). f_equal. exact G3.
Qed.

Theorem save_is_copy k vs outs st m out st1 :
  cfg_ok k -> history_ok k vs -> p_visits k vs p_init = Ok (outs, st) -> p_visit k (Part m) st = Ok (out, st1) ->
  exists lv d, p_save k st1 = ((lv, Copy d), st1) /\ s_samples lv = length out * k_B k /\ sd_samples d = length out * k_B k /\
    s_epoch lv = length vs + 1 /\ (k_mode k <> InProcess -> sd_epoch d = length vs + 1) /\
    forall vs2 outs2 st2, p_visits k vs2 st1 = Ok (outs2, st2) -> h_read (Copy d) st2 = Some d.
Proof.
  intros Hk Hh Ev Ep.
  destruct (visits_clean k vs Hk Hh 0 p_init (clean_init k)) as (outs' & st' & Ev' & Hc).
  rewrite Ev in Ev'. injection Ev' as <- <-. cbn [Nat.add] in Hc.
  destruct (clean_visit k (length vs) st (Part m) Hk Hc) as (a & s1 & _ & _ & E1 & L1 & S1 & P1 & _). cbv zeta in E1, L1.
  rewrite Ep in E1. injection E1 as -> ->. unfold p_save. rewrite S1. do 2 eexists. split; [reflexivity|].
  unfold l_save. rewrite L1, l_batches_eq. cbn. repeat split; auto.
Qed.

(** Whatever was loaded and left before, once a loop ran to its end the loader is
    ready for the next epoch. *)
Lemma whole_clean k st out st' : k_mode k <> PersistentWorkers -> p_visit k Whole st = Ok (out, st') ->
  clean k (l_epoch (l_iter (p_loader st))) st'.
Proof.
  intros Hm E. unfold p_visit in E. cbv zeta in E. destruct (map_res _ _) as [runs|]; cbn [bind] in E; [|discriminate].
  injection E as _ <-. unfold clean. destruct (k_mode k); [|cbn [p_loader p_live]|congruence].
  - destruct (map _ (combine _ _)); cbn [p_loader p_live]; unfold l_end; rewrite l_batches_eq; cbn [l_epoch l_restore p_begin p_loader];
      (split; [reflexivity|split; [reflexivity|discriminate]]).
  - unfold l_end; rewrite l_batches_eq; cbn [l_epoch l_restore p_begin p_loader]. split; [reflexivity|split; [reflexivity|discriminate]].
Qed.

Theorem loop_after_loop rng shuffle W nodes seed nw B ivs md pf e (st st1 : nat -> pstate) (out1 : nat -> list (nat * list sample)) :
  rng_ok rng -> 1 <= W -> 1 <= nw -> 1 <= B -> (shuffle = false \/ nodes = 1) -> (md = InProcess -> nw = 1) ->
  md <> PersistentWorkers ->
  let k r := Cfg rng shuffle (Env W r nodes) seed false nw B ivs md pf in
  (forall r, r < W -> p_visit (k r) Whole (st r) = Ok (out1 r, st1 r) /\ s_epoch (l_save (p_loader (st1 r))) = e) ->
  exists out,
    (forall r, r < W -> exists st', p_visit (k r) Whole (st1 r) = Ok (out r, st')) /\
    Permutation (flat_map (fun r => delivered (out r)) (seq 0 W)) (dataset_samples (seq 0 (length ivs)) ivs).
Proof.
  intros Hrng HW Hnw HB Hs Hmd Hnp k Hst.
  assert (Hk : forall r, r < W -> cfg_ok (k r)).
  { intros r Hr. unfold cfg_ok, k. cbn. repeat split; auto. }
  destruct (assign_exists (k 0) (Hk 0 ltac:(lia)) (e + 1)) as (a & Ea & Haok).
  set (out r := fst (serve (tasks nw 0 false (asked (k r) Whole (map (pieces B) (streams_at (k r) (e + 1) a))))
                           (map (pieces B) (streams_at (k r) (e + 1) a)))).
  exists out. split.
  - intros r Hr. destruct (Hst r Hr) as [Hv He]. cbn [l_save s_epoch] in He.
    assert (Hc : clean (k r) e (st1 r)).
    { pose proof (whole_clean (k r) _ _ _ Hnp Hv) as Hc. pose proof (proj1 Hc) as H1. rewrite He in H1. rewrite <- H1 in Hc. exact Hc. }
    destruct (clean_visit (k r) e (st1 r) Whole (Hk r Hr) Hc) as (a' & st' & Ea' & _ & E & _).
    assert (a' = a) by (change (assign_of (k r) (e + 1)) with (assign_of (k 0) (e + 1)) in Ea'; congruence).
    subst a'. exists st'. exact E.
  - etransitivity; [|exact (all_streams rng shuffle W nodes seed nw B ivs md pf (e + 1) a Hrng HW Hnw HB Hs Ea)].
    rewrite flat_map_concat_map, (flat_map_concat_map (fun r => streams_at _ _ _)).
    assert (H : forall rs, (forall r, In r rs -> r < W) ->
       Permutation (concat (map (fun r => delivered (out r)) rs))
                   (concat (concat (map (fun r => streams_at (k r) (e + 1) a) rs)))).
    { induction rs as [|r rs IH]; intros Hr; [apply Permutation_refl|]. cbn [map concat]. rewrite concat_app.
      apply Permutation_app; [|apply IH; intros; apply Hr; right; assumption].
      unfold out. cbn [asked]. rewrite <- window_0. change (k_nw (k r)) with nw.
      apply whole_delivered; auto; [|lia].
      apply (streams_length (k r) (Hk r (Hr r (or_introl eq_refl)))). exact Haok. }
    apply H. intros r Hr. apply in_seq in Hr. lia.
Qed.
