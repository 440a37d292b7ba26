From Verif Require Import Base Assign_Model Assign_Spec Assign_Proofs Shuffle_Proofs.
From Verif Require Import Iter_Model Iter_Spec Iter_Proofs Loader_Order_Model.

Local Ltac Zify.zify_post_hook ::= idtac.

(** * Round-robin counting *)

Definition turns_closed (nw B n w : nat) : nat := n / (nw * B) * B + min B (n mod (nw * B) - w * B).

Lemma turns_S nw B n w :
  turns nw B (S n) w = turns nw B n w + (if (n / B) mod nw =? w then 1 else 0).
Proof.
  unfold turns. rewrite seq_S, filter_app, app_length. cbn [filter Nat.add].
  destruct ((n / B) mod nw =? w); reflexivity.
Qed.

Lemma turns_eq nw B n w : 1 <= nw -> 1 <= B -> w < nw -> turns nw B n w = turns_closed nw B n w.
Proof.
  intros Hnw HB Hw. unfold turns_closed.
  induction n as [|n IH].
  - unfold turns. cbn [seq filter length]. rewrite Nat.div_0_l, Nat.mod_0_l by nia. cbn. lia.
  - rewrite turns_S, IH. clear IH. assert (HP : 1 <= nw * B) by nia.
    set (P := nw * B) in *. set (d := n / P). set (r := n mod P).
    assert (Hn : n = P * d + r) by (apply Nat.div_mod; lia).
    assert (Hr : r < P) by (apply Nat.mod_upper_bound; lia).
    assert (Hq : n / B = d * nw + r / B).
    { symmetry. apply (Nat.div_unique n B (d * nw + r / B) (r mod B)); [apply Nat.mod_upper_bound; lia|].
      pose proof (Nat.div_mod r B ltac:(lia)). unfold P in Hn. nia. }
    assert (Hrb : r / B < nw) by (apply Nat.div_lt_upper_bound; unfold P in Hr; nia).
    assert (Hm : (n / B) mod nw = r / B).
    { rewrite Hq, Nat.add_comm, Nat.mod_add by lia. apply Nat.mod_small; exact Hrb. }
    rewrite Hm.
    assert (Hrw : r / B = w <-> w * B <= r < w * B + B).
    { pose proof (Nat.div_mod r B ltac:(lia)) as H. pose proof (Nat.mod_upper_bound r B ltac:(lia)).
      set (x := r / B) in *. set (y := r mod B) in *. clearbody x y. split; [intros ->; nia|].
      intros Hlo. assert (x < w \/ x = w \/ w < x) as [Hx|[Hx|Hx]] by lia; nia. }
    assert (HwP : w * B + B <= P) by (unfold P; clear -Hw; nia).
    assert (Hwl : w < nw - 1 -> w * B + B + B <= P) by (unfold P; clear -Hw; nia).
    assert (Hwe : w = nw - 1 -> w * B + B = P) by (unfold P; clear -Hw; nia).
    clear Hq Hrb Hm. clearbody d r P. generalize dependent (w * B); intros wB; intros.
    destruct (Nat.eq_dec (S r) P) as [E|E].
    + assert (Hd : S n / P = d + 1) by (symmetry; apply (Nat.div_unique (S n) P (d + 1) 0); lia).
      assert (Hmm : S n mod P = 0) by (symmetry; apply (Nat.mod_unique (S n) P (d + 1) 0); lia).
      rewrite Hd, Hmm. rewrite Nat.mul_add_distr_r, Nat.mul_1_l.
      destruct (Nat.eqb_spec (r / B) w) as [Ew|Ew].
      * apply Hrw in Ew. clear Hrw Hn Hd Hmm. generalize (d * B). lia.
      * assert (~ (wB <= r < wB + B)) by (intros H; apply Ew, Hrw, H). clear Hrw Hn Hd Hmm Ew. generalize (d * B). lia.
    + assert (Hd : S n / P = d) by (symmetry; apply (Nat.div_unique (S n) P d (S r)); lia).
      assert (Hmm : S n mod P = S r) by (symmetry; apply (Nat.mod_unique (S n) P d (S r)); lia).
      rewrite Hd, Hmm. destruct (Nat.eqb_spec (r / B) w) as [Ew|Ew].
      * apply Hrw in Ew. clear Hrw Hn Hd Hmm. generalize (d * B). lia.
      * assert (~ (wB <= r < wB + B)) by (intros H; apply Ew, Hrw, H). clear Hrw Hn Hd Hmm Ew. generalize (d * B). lia.
Qed.

Lemma turns_batches nw B m w : 1 <= nw -> 1 <= B -> w < nw -> turns nw B (m * B) w = B * turns nw 1 m w.
Proof.
  intros Hnw HB Hw. rewrite !turns_eq by lia. unfold turns_closed. rewrite !Nat.mul_1_r.
  rewrite Nat.div_mul_cancel_r, Nat.mul_mod_distr_r by lia. nia.
Qed.

(** * [_replay_sampling] *)

Lemma replay_loop_ok fuel n B nw w idx :
  1 <= B -> n < fuel -> n < (nw - w) * B -> length idx = nw ->
  exists r, replay_loop fuel n B nw w idx = Ok r /\ length r = nw /\
    forall v, nth_error r v =
      option_map (fun x => x + (if v <? w then 0 else min B (n - (v - w) * B))) (nth_error idx v).
Proof.
  intros HB. revert n w idx; induction fuel as [|f IH]; intros n w idx Hf Hn Hl; [lia|].
  cbn [replay_loop]. destruct (Nat.leb_spec B n) as [H|H].
  - assert (Hw : S w < nw) by (assert (nw - w >= 2 \/ nw - w <= 1) as [?|?] by lia; [lia|nia]).
    rewrite (Nat.mod_small (w + 1) nw) by lia.
    destruct (IH (n - B) (w + 1) (upd w (fun x => x + B) idx)) as (r & Hr & Hlr & Hv).
    { lia. } { nia. } { rewrite upd_length; exact Hl. }
    exists r. split; [exact Hr|]. split; [exact Hlr|]. intros v. rewrite Hv.
    destruct (Nat.eq_dec v w) as [->|Hvw].
    + rewrite nth_error_upd_eq. replace (w <? w + 1) with true by lia. rewrite Nat.ltb_irrefl.
      destruct (nth_error idx w); cbn [option_map]; f_equal. rewrite Nat.sub_diag. lia.
    + rewrite nth_error_upd_neq by auto. destruct (nth_error idx v); cbn [option_map]; f_equal.
      destruct (Nat.ltb_spec v (w + 1)); destruct (Nat.ltb_spec v w); try lia.
      replace (v - w) with (S (v - (w + 1))) by lia. cbn [Nat.mul]. lia.
  - assert (Hw : w < nw) by nia.
    eexists. split; [reflexivity|]. split; [rewrite upd_length; exact Hl|]. intros v.
    destruct (Nat.eq_dec v w) as [->|Hvw].
    + rewrite nth_error_upd_eq, Nat.ltb_irrefl, Nat.sub_diag.
      destruct (nth_error idx w); cbn [option_map]; f_equal. lia.
    + rewrite nth_error_upd_neq by auto. destruct (nth_error idx v); cbn [option_map]; f_equal.
      destruct (Nat.ltb_spec v w); [lia|]. replace (v - w) with (S (v - w - 1)) by lia. cbn [Nat.mul]. lia.
Qed.

Theorem replay_sampling_ok n B nw :
  1 <= nw -> 1 <= B ->
  replay_sampling n B nw = Ok (map (turns nw B n) (seq 0 nw)).
Proof.
  intros Hnw HB. unfold replay_sampling. assert (HP : 1 <= nw * B) by nia.
  replace (nw * B =? 0) with false by lia.
  replace (n - nw * (n / (nw * B)) * B) with (n mod (nw * B)).
  2:{ pose proof (Nat.div_mod n (nw * B) ltac:(lia)). nia. }
  pose proof (Nat.mod_upper_bound n (nw * B) ltac:(lia)) as Hr.
  set (d := n / (nw * B)) in *. set (r := n mod (nw * B)) in *.
  destruct (replay_loop_ok (S r) r B nw 0 (repeat (d * B) nw)) as (res & Hres & Hlen & Hv).
  { exact HB. } { lia. } { rewrite Nat.sub_0_r. exact Hr. } { apply repeat_length. }
  rewrite Hres. f_equal. apply nth_error_ext. intros v. rewrite Hv, nth_error_map.
  destruct (Nat.lt_ge_cases v nw) as [Hlt|Hge].
  - rewrite (nth_error_nth' (seq 0 nw) 0) by (rewrite seq_length; exact Hlt).
    rewrite seq_nth by exact Hlt. cbn [option_map Nat.add].
    rewrite (nth_error_repeat (d * B) Hlt). cbn [option_map]. f_equal.
    rewrite turns_eq by assumption. unfold turns_closed. fold d r. rewrite Nat.sub_0_r.
    replace (v <? 0) with false by lia. reflexivity.
  - rewrite (proj2 (nth_error_None (repeat (d * B) nw) v)) by (rewrite repeat_length; exact Hge).
    rewrite (proj2 (nth_error_None (seq 0 nw) v)) by (rewrite seq_length; exact Hge). reflexivity.
Qed.

(** * [_replay_chunks_sampling] *)

Lemma replay_walk_spec ivs i c o :
  replay_walk ivs i = (c, o) ->
  c <= length ivs /\ sum (map iv_size (firstn c ivs)) + o = i /\
  match nth_error ivs c with Some iv => o < iv_size iv | None => sum (map iv_size ivs) <= i end.
Proof.
  revert i c o; induction ivs as [|iv ivs IH]; intros i c o H; cbn [replay_walk] in H.
  - injection H as <- <-. cbn. lia.
  - destruct (Nat.leb_spec (iv_size iv) i) as [Hs|Hs].
    + destruct (replay_walk ivs (i - iv_size iv)) as [c' o'] eqn:E. injection H as <- <-.
      destruct (IH _ _ _ E) as (H1 & H2 & H3). cbn [length firstn map sum nth_error].
      split; [lia|]. split; [lia|]. destruct (nth_error ivs c'); [exact H3|lia].
    + injection H as <- <-. cbn. lia.
Qed.

Lemma replay_walk_exists ivs i c o :
  replay_walk ivs i = (c, o) -> (nth_error ivs c <> None <-> i < sum (map iv_size ivs)).
Proof.
  intros H. destruct (replay_walk_spec _ _ _ _ H) as (H1 & H2 & H3).
  destruct (nth_error ivs c) as [iv|] eqn:E.
  - split; [|discriminate]. intros _.
    rewrite <- (firstn_skipn c ivs), map_app, sum_app, (skipn_nth_cons _ _ _ E). cbn [map sum].
    rewrite <- H2. lia.
  - split; [congruence|lia].
Qed.

(** * Resuming *)

Lemma skipn_skipn {A} a b (l : list A) : skipn a (skipn b l) = skipn (b + a) l.
Proof.
  revert l; induction b as [|b IH]; intros l; [reflexivity|].
  destruct l as [|x l]; [rewrite !skipn_nil; reflexivity|]. cbn [skipn Nat.add]. apply IH.
Qed.

Lemma chunk_order_split shuf n epoch k cis c :
  (forall l n e k, length (shuf l n e k) = length l) ->
  skipn (sum (map (fun ci => iv_size (snd ci)) (firstn c cis))) (chunk_order shuf n epoch k cis) =
  chunk_order shuf n epoch (k + c) (skipn c cis).
Proof.
  intros Hs. revert k cis; induction c as [|c IH]; intros k cis.
  - cbn [firstn map sum skipn]. rewrite Nat.add_0_r. reflexivity.
  - destruct cis as [|[ch iv] cis]; [cbn; reflexivity|].
    cbn [firstn map sum snd skipn chunk_order].
    set (x := map _ (shuf _ _ _ _)).
    assert (Hx : length x = iv_size iv) by (unfold x; rewrite map_length, Hs, seq_length; reflexivity).
    rewrite <- skipn_skipn, skipn_app, <- Hx, skipn_all, Nat.sub_diag. cbn [skipn app]. rewrite IH. f_equal. lia.
Qed.

Lemma rank_ivs_nth n a nw r i :
  shape_ok n a -> i < nw ->
  nth_error (firstn nw (skipn (r * nw) (snd a))) i = nth_error (snd a) (r * nw + i).
Proof. intros _ Hi. apply firstn_skipn_nth; exact Hi. Qed.

Lemma combine_nth_error {A B} (xs : list A) (ys : list B) i x y :
  nth_error xs i = Some x -> nth_error ys i = Some y -> nth_error (combine xs ys) i = Some (x, y).
Proof.
  revert ys i; induction xs as [|x0 xs IH]; intros [|y0 ys] [|i] H1 H2; cbn in *; try discriminate.
  - congruence.
  - apply IH; assumption.
Qed.

(** What the state computed by [resume] is. *)
Lemma resume_eq shuf env W nw wrank st a w :
  assignment_ok (W * nw) a -> global_rank env < W -> wrank < nw -> 1 <= nw -> 1 <= sd_batch st ->
  sd_workers st = nw -> nth_error (workers a) (global_rank env * nw + wrank) = Some w ->
  resume shuf env nw wrank st a =
  let (ci, off) := replay_walk (snd w) (turns nw (sd_batch st) (sd_samples st) wrank) in
  match nth_error (snd w) ci with
  | None => Err IndexError
  | Some iv =>
      Ok (DS (fst w) (snd w)
             (skipn off (shuf (seq (iv_rs iv) (iv_re iv - iv_rs iv)) (length (snd w)) (sd_epoch st) ci))
             (ci + 1) (Some (length (snd w))) off (sum (map iv_size (snd w))) false (sd_epoch st) true 0)
  end.
Proof.
  intros Ha Hr Hwr Hnw HB Hst Hw. destruct (workers_nth _ _ _ Hw) as [E1 E2].
  unfold resume. rewrite E1, E2, Hst, replay_sampling_ok by assumption. cbn [bind].
  destruct Ha as [Hsh _]. pose proof Hsh as (Hl1 & Hl2 & _).
  assert (Hlr : length (firstn nw (skipn (global_rank env * nw) (snd a))) = nw).
  { rewrite firstn_length, skipn_length, Hl2. nia. }
  rewrite Hlr, Nat.ltb_irrefl. unfold replay_chunks. rewrite nth_error_map.
  rewrite (combine_nth_error _ _ wrank (snd w) (turns nw (sd_batch st) (sd_samples st) wrank)).
  - cbn [option_map fst snd]. destruct (replay_walk (snd w) _) as [ci off]. reflexivity.
  - rewrite (rank_ivs_nth _ _ _ _ _ Hsh Hwr). exact E2.
  - rewrite nth_error_map, nth_error_seq by exact Hwr. reflexivity.
Qed.

Theorem resume_run shuf env W nw wrank st a w :
  shuf_ok shuf -> assignment_ok (W * nw) a -> global_rank env < W -> wrank < nw -> 1 <= sd_batch st ->
  sd_workers st = nw -> nth_error (workers a) (global_rank env * nw + wrank) = Some w ->
  let done := turns nw (sd_batch st) (sd_samples st) wrank in
  done < length (stream shuf (sd_epoch st) w) ->
  exists s0 reqs s', resume shuf env nw wrank st a = Ok s0 /\ Run shuf s0 reqs s' /\
    map req_sample reqs = skipn done (stream shuf (sd_epoch st) w) /\
    d_epoch s' = sd_epoch st + 1 /\ d_restored s' = false /\
    map rq_last reqs = last_flags (length reqs) /\
    exists k, map rq_download reqs = first_download (skipn k (fst w)) (length reqs) /\
              map fst (map req_sample reqs) <> [] /\
              nth_error (fst w) k = nth_error (map fst (map req_sample reqs)) 0.
Proof.
  intros Hs Ha Hr Hwr HB Hst Hw done Hdone.
  destruct (assignment_ok_worker _ _ _ _ Ha Hw) as [Hl Hne].
  rewrite stream_length in Hdone by assumption.
  rewrite (resume_eq shuf env W nw wrank st a w) by (auto; lia). fold done.
  destruct (replay_walk (snd w) done) as [ci off] eqn:Ew.
  pose proof (replay_walk_exists _ _ _ _ Ew) as Hex.
  destruct (replay_walk_spec _ _ _ _ Ew) as (H1 & H2 & H3).
  destruct (nth_error (snd w) ci) as [iv|] eqn:Ei; [|exfalso; apply (proj2 Hex Hdone); reflexivity].
  destruct w as [cs ivs]; cbn [fst snd] in *.
  destruct (nth_error cs ci) as [c|] eqn:Ec.
  2:{ apply nth_error_None in Ec. assert (ci < length ivs) by (apply nth_error_Some; congruence). lia. }
  set (cur := shuf (seq (iv_rs iv) (iv_re iv - iv_rs iv)) (length ivs) (sd_epoch st) ci).
  assert (Hcur : length cur = iv_size iv) by (unfold cur; rewrite shuf_ok_length, seq_length by exact Hs; reflexivity).
  assert (Hci : ci < length ivs) by (apply nth_error_Some; congruence).
  assert (Hstop : sum (map iv_size ivs) = done - off + iv_size iv + sum (map iv_size (skipn (ci + 1) ivs))).
  { rewrite <- (firstn_skipn ci ivs) at 1. rewrite map_app, sum_app, (skipn_nth_cons _ _ _ Ei).
    replace (S ci) with (ci + 1) by lia. cbn [map sum]. lia. }
  pose proof (rest_length shuf cs ivs (sd_epoch st)) as Hrest.
  destruct (run_all shuf cs ivs (sd_epoch st) (sum (map iv_size ivs)) (shuf_ok_length _ Hs) Hl Hne
              (length (skipn off cur) + sum (map iv_size (skipn (ci + 1) ivs)))
              (skipn off cur) (ci + 1) off false true 0) as (reqs & s' & R1 & R2 & R3 & R4 & R5 & R6).
  { f_equal. apply Hrest; [exact 0|apply shuf_ok_length; exact Hs|exact Hl]. }
  { lia. } { lia. } { rewrite skipn_length. lia. }
  assert (Hnn : skipn off cur <> []).
  { intros E. apply (f_equal (@length _)) in E. rewrite skipn_length in E. cbn in E. lia. }
  eexists; exists reqs, s'. split; [reflexivity|]. split.
  { rewrite Hl in R1. exact R1. }
  assert (Hsamples : map req_sample reqs = skipn done (stream shuf (sd_epoch st) (cs, ivs))).
  { rewrite R2. replace (ci + 1 - 1) with ci by lia. rewrite (nth_error_nth _ _ 0 Ec).
    unfold stream; cbn [fst snd]. rewrite <- H2.
    rewrite <- (skipn_skipn off (sum (map iv_size (firstn ci ivs)))).
    assert (Hsz : sum (map iv_size (firstn ci ivs)) =
                  sum (map (fun ci => iv_size (snd ci)) (firstn ci (combine cs ivs)))).
    { rewrite <- (map_map (@snd nat interval) iv_size), <- (firstn_map (@snd nat interval)).
      rewrite (map_snd_combine cs ivs Hl). reflexivity. }
    rewrite Hsz, chunk_order_split by (apply shuf_ok_length; exact Hs). cbn [Nat.add].
    rewrite (skipn_nth_cons _ _ _ (combine_nth_error _ _ _ _ _ Ec Ei)). cbn [chunk_order].
    rewrite skipn_app, map_length, Hl. fold cur. rewrite Hcur.
    replace (off - iv_size iv) with 0 by lia. rewrite skipn_O, skipn_map. f_equal.
    rewrite <- (Nat.add_1_r ci). f_equal. clear -Hl. revert cs ivs Hl. generalize (ci + 1) as k.
    induction k as [|k IH]; intros cs ivs Hl; [reflexivity|].
    destruct cs as [|c cs], ivs as [|iv ivs]; cbn [length] in Hl; try lia; [reflexivity|].
    cbn [skipn combine]. apply IH; lia. }
  split; [exact Hsamples|]. split; [exact R3|]. split; [exact R4|]. split; [exact R5|].
  exists ci. split; [|split].
  - rewrite R6. destruct (skipn off cur); [congruence|]. replace (ci + 1 - 1) with ci by lia. reflexivity.
  - rewrite R2. destruct (skipn off cur); [congruence|]. discriminate.
  - rewrite R2. destruct (skipn off cur); [congruence|]. cbn [map app nth_error fst].
    replace (ci + 1 - 1) with ci by lia. rewrite Ec, (nth_error_nth _ _ 0 Ec). reflexivity.
Qed.

(** Resuming a worker that has nothing left fails, and only then. *)
Theorem resume_fails_iff shuf env W nw wrank st a w :
  shuf_ok shuf -> assignment_ok (W * nw) a -> global_rank env < W -> wrank < nw -> 1 <= sd_batch st ->
  sd_workers st = nw -> nth_error (workers a) (global_rank env * nw + wrank) = Some w ->
  (resume shuf env nw wrank st a = Err IndexError <->
   length (worker_samples w) <= turns nw (sd_batch st) (sd_samples st) wrank).
Proof.
  intros Hs Ha Hr Hwr HB Hst Hw.
  destruct (assignment_ok_worker _ _ _ _ Ha Hw) as [Hl Hne].
  rewrite (resume_eq shuf env W nw wrank st a w) by (auto; lia).
  unfold worker_samples. rewrite dataset_samples_length by exact Hl.
  destruct (replay_walk (snd w) _) as [ci off] eqn:Ew.
  pose proof (replay_walk_exists _ _ _ _ Ew) as Hex.
  destruct (nth_error (snd w) ci); split; intros H; try discriminate; auto.
  - assert (turns nw (sd_batch st) (sd_samples st) wrank < sum (map iv_size (snd w))) by (apply Hex; discriminate). lia.
  - destruct (le_lt_dec (sum (map iv_size (snd w))) (turns nw (sd_batch st) (sd_samples st) wrank)) as [L|L]; [exact L|].
    exfalso. apply (proj2 Hex L). reflexivity.
Qed.

(** * Serving batches in task order *)

Lemma serve_app {A} t1 t2 (qs : list (list A)) :
  serve (t1 ++ t2) qs =
  let (o1, q1) := serve t1 qs in let (o2, q2) := serve t2 q1 in (o1 ++ o2, q2).
Proof.
  revert qs; induction t1 as [|w t1 IH]; intros qs; cbn [app serve].
  - destruct (serve t2 qs); reflexivity.
  - destruct (nth_error qs w) as [[|b q]|]; rewrite IH; [reflexivity| |reflexivity].
    destruct (serve t1 _) as [o1 q1]. destruct (serve t2 q1) as [o2 q2]. reflexivity.
Qed.

Definition count_tasks (w : nat) (ts : list nat) : nat := length (filter (fun x => x =? w) ts).

Lemma serve_queue {A} ts (qs : list (list A)) w q :
  nth_error qs w = Some q ->
  let (o, qs') := serve ts qs in
  nth_error qs' w = Some (skipn (count_tasks w ts) q) /\
  from_worker w o = firstn (count_tasks w ts) q.
Proof.
  revert qs q; induction ts as [|v ts IH]; intros qs q Hq; cbn [serve].
  - split; [exact Hq|reflexivity].
  - unfold count_tasks; cbn [filter]. destruct (Nat.eqb_spec v w) as [->|Hvw].
    + rewrite Hq. cbn [length]. destruct q as [|b q].
      * specialize (IH qs [] Hq). destruct (serve ts qs) as [o qs'].
        rewrite skipn_nil, firstn_nil in IH. cbn [skipn firstn]. exact IH.
      * specialize (IH (upd w (@tl A) qs) q). rewrite nth_error_upd_eq, Hq in IH.
        specialize (IH eq_refl). destruct (serve ts _) as [o qs'].
        unfold from_worker in *; cbn [filter fst]. rewrite Nat.eqb_refl. cbn [map snd skipn firstn].
        destruct IH as [H1 H2]. split; [exact H1|]. f_equal. exact H2.
    + destruct (nth_error qs v) as [[|b q']|] eqn:Ev.
      * specialize (IH qs q Hq). exact IH.
      * specialize (IH (upd v (@tl A) qs) q). rewrite nth_error_upd_neq in IH by exact Hvw.
        specialize (IH Hq). destruct (serve ts _) as [o qs'].
        unfold from_worker in *; cbn [filter fst]. destruct (Nat.eqb_spec v w); [congruence|]. exact IH.
      * specialize (IH qs q Hq). exact IH.
Qed.

Lemma serve_lengths {A} ts (qs : list (list A)) : length (snd (serve ts qs)) = length qs.
Proof.
  revert qs; induction ts as [|v ts IH]; intros qs; cbn [serve]; [reflexivity|].
  destruct (nth_error qs v) as [[|b q]|]; try apply IH.
  specialize (IH (upd v (@tl A) qs)). rewrite upd_length in IH. destruct (serve ts _); exact IH.
Qed.

Lemma serve_all_yield {A} ts (qs : list (list A)) :
  (forall w, In w ts -> exists q, nth_error qs w = Some q /\ count_tasks w ts <= length q) ->
  length (fst (serve ts qs)) = length ts.
Proof.
  revert qs; induction ts as [|v ts IH]; intros qs H; cbn [serve]; [reflexivity|].
  destruct (H v (or_introl eq_refl)) as (q & Hq & Hc). unfold count_tasks in Hc; cbn [filter] in Hc.
  rewrite Nat.eqb_refl in Hc. cbn [length] in Hc. rewrite Hq. destruct q as [|b q]; [cbn in Hc; lia|].
  specialize (IH (upd v (@tl A) qs)). destruct (serve ts _) as [o qs'] eqn:E. cbn [fst length] in *.
  f_equal. apply IH. intros w Hw. destruct (H w (or_intror Hw)) as (q2 & Hq2 & Hc2).
  unfold count_tasks in Hc2; cbn [filter] in Hc2.
  destruct (Nat.eqb_spec v w) as [->|Hvw].
  - rewrite nth_error_upd_eq, Hq. exists q. split; [reflexivity|]. cbn [length] in Hc. unfold count_tasks. lia.
  - rewrite nth_error_upd_neq by exact Hvw. exists q2. split; [exact Hq2|exact Hc2].
Qed.

Lemma count_fresh_tasks nw m w : count_tasks w (tasks nw 0 false m) = turns nw 1 m w.
Proof.
  unfold count_tasks, tasks, turns. generalize 0 at 2 4 as k.
  induction m as [|m IH]; intros k; [reflexivity|]. cbn [seq map filter].
  unfold task_worker at 1. cbn [andb]. rewrite Nat.sub_0_r, Nat.div_1_r.
  destruct (k mod nw =? w); cbn [length]; rewrite IH; reflexivity.
Qed.

Lemma fresh_tasks_eq nw n : tasks nw 0 false n = map (fun j => j mod nw) (seq 0 n).
Proof. unfold tasks. apply map_ext. intros j. unfold task_worker. cbn [andb]. rewrite Nat.sub_0_r. reflexivity. Qed.

(** After [m >= 1] batches the resumed task order is the continuation. *)
Lemma resumed_tasks_eq nw m n : 1 <= nw -> 1 <= m ->
  tasks nw ((m - 1) mod nw + 1) true n = map (fun j => (m + j) mod nw) (seq 0 n).
Proof.
  intros Hnw Hm. unfold tasks. apply map_ext. intros j. unfold task_worker.
  set (L := (m - 1) mod nw). assert (HL : L < nw) by (apply Nat.mod_upper_bound; lia).
  replace (0 <? L + 1) with true by lia. rewrite seq_length. cbn [andb].
  assert (Em : m = nw * ((m - 1) / nw) + (L + 1)) by (unfold L; pose proof (Nat.div_mod (m - 1) nw ltac:(lia)); lia).
  set (d := (m - 1) / nw) in *. clearbody L d.
  destruct (Nat.ltb_spec j (nw - (L + 1))) as [H|H].
  - rewrite seq_nth by exact H.
    apply (Nat.mod_unique (m + j) nw d (L + 1 + j)); lia.
  - replace (m + j) with ((j - (nw - (L + 1))) + (d + 1) * nw) by lia.
    rewrite Nat.mod_add by lia. reflexivity.
Qed.

Lemma tasks_split nw m n : 1 <= nw -> 1 <= m ->
  tasks nw 0 false (m + n) = tasks nw 0 false m ++ tasks nw ((m - 1) mod nw + 1) true n.
Proof.
  intros Hnw Hm. rewrite resumed_tasks_eq by assumption. rewrite !fresh_tasks_eq.
  rewrite seq_app, map_app. f_equal. cbn [Nat.add].
  assert (H : forall k m', m' = m + k -> map (fun j => m + j) (seq k n) = seq m' n).
  { clear. induction n as [|n IH]; intros k m' H; [reflexivity|]. cbn [seq map]. f_equal; [lia|]. apply IH; lia. }
  rewrite <- (H 0 m) by lia. rewrite map_map. reflexivity.
Qed.

Lemma pieces_skipn {A} B (l : list A) c : 1 <= B -> skipn c (pieces B l) = pieces B (skipn (B * c) l).
Proof.
  intros HB. revert l; induction c as [|c IH]; intros l.
  - rewrite Nat.mul_0_r. reflexivity.
  - destruct l as [|x l]; [rewrite pieces_nil, !skipn_nil; reflexivity|].
    rewrite pieces_cons by (auto; discriminate). cbn [skipn]. rewrite IH.
    rewrite skipn_skipn. f_equal. f_equal. lia.
Qed.

Lemma pieces_firstn {A} B (l : list A) c : 1 <= B -> concat (firstn c (pieces B l)) = firstn (B * c) l.
Proof.
  intros HB. revert l; induction c as [|c IH]; intros l.
  - rewrite Nat.mul_0_r. reflexivity.
  - destruct l as [|x l]; [rewrite pieces_nil, !firstn_nil; reflexivity|].
    rewrite pieces_cons by (auto; discriminate). cbn [firstn concat]. rewrite IH.
    replace (B * S c) with (B + B * c) by lia. generalize (x :: l) as l0. intros l0.
    rewrite <- (firstn_skipn B l0) at 3. rewrite firstn_app, firstn_firstn, firstn_length.
    replace (min (B + B * c) B) with B by lia. f_equal.
    destruct (le_lt_dec B (length l0)) as [H|H].
    + f_equal. lia.
    + rewrite !skipn_all2 by lia. rewrite !firstn_nil. reflexivity.
Qed.

Section Loader.
  Context {A : Type} (B nw m : nat) (streams : list (list A)).
  Context (HB : 1 <= B) (Hnw : length streams = nw) (Hnw1 : 1 <= nw).
  Let qs := map (pieces B) streams.
  Let sent := fst (serve (tasks nw 0 false m) qs).
  Context (Hleft : forall w s, nth_error streams w = Some s -> length (concat (from_worker w sent)) < length s).

  Lemma loader_from w s : nth_error streams w = Some s ->
    concat (from_worker w sent) = firstn (B * turns nw 1 m w) s /\ B * turns nw 1 m w < length s /\
    nth_error (snd (serve (tasks nw 0 false m) qs)) w = Some (pieces B (skipn (B * turns nw 1 m w) s)).
  Proof.
    intros Hs. pose proof (serve_queue (tasks nw 0 false m) qs w (pieces B s)) as H.
    unfold qs in H at 1. rewrite nth_error_map, Hs in H. specialize (H eq_refl).
    specialize (Hleft w s Hs). unfold sent in *. destruct (serve (tasks nw 0 false m) qs) as [o q'].
    cbn [fst snd] in *. destruct H as [H1 H2]. rewrite count_fresh_tasks in H1, H2.
    assert (E : concat (from_worker w o) = firstn (B * turns nw 1 m w) s)
      by (rewrite H2, pieces_firstn by exact HB; reflexivity).
    split; [exact E|]. rewrite E, firstn_length in Hleft. split; [lia|].
    rewrite H1, pieces_skipn by exact HB. reflexivity.
  Qed.

  Lemma loader_sent_length : length sent = m.
  Proof.
    unfold sent. rewrite serve_all_yield; [unfold tasks; rewrite map_length, seq_length; reflexivity|].
    intros w Hw. destruct (nth_error streams w) as [s|] eqn:E.
    - exists (pieces B s). unfold qs. rewrite nth_error_map, E. split; [reflexivity|].
      destruct (loader_from w s E) as (_ & H & _). rewrite count_fresh_tasks, pieces_length by exact HB.
      apply Nat.div_le_lower_bound; lia.
    - exfalso. apply nth_error_None in E. rewrite fresh_tasks_eq in Hw. apply in_map_iff in Hw.
      destruct Hw as (j & Hj & Hin). pose proof (Nat.mod_upper_bound j nw ltac:(lia)). lia.
  Qed.

  Lemma loader_after :
    snd (serve (tasks nw 0 false m) qs) =
    map (fun ws => pieces B (skipn (B * turns nw 1 m (fst ws)) (snd ws))) (combine (seq 0 nw) streams).
  Proof.
    apply nth_error_ext. intros w. rewrite nth_error_map.
    destruct (nth_error streams w) as [s|] eqn:E.
    - destruct (loader_from w s E) as (_ & _ & H). rewrite H.
      assert (w < nw) by (rewrite <- Hnw; apply nth_error_Some; congruence).
      rewrite (combine_nth_error (seq 0 nw) streams w w s); [reflexivity| |exact E].
      rewrite nth_error_seq by assumption. reflexivity.
    - apply nth_error_None in E.
      rewrite (proj2 (nth_error_None (combine (seq 0 nw) streams) w)).
      + apply nth_error_None. rewrite serve_lengths. unfold qs. rewrite map_length. exact E.
      + rewrite combine_length, seq_length. lia.
  Qed.
End Loader.

(** What is delivered after resuming continues what was delivered before. *)
Theorem resume_continues rng shuffle env seed dl nw B epoch ivs a m :
  rng_ok rng -> 1 <= nw -> 1 <= B -> global_rank env < world_size env ->
  shuffle_assign rng shuffle env seed dl nw B epoch ivs = Ok a ->
  let shuf := shuffle_call rng shuffle seed in
  let streams := map (stream shuf epoch) (rank_workers nw (global_rank env) a) in
  let sent := fst (serve (tasks nw 0 false m) (map (pieces B) streams)) in
  (forall w s, nth_error streams w = Some s -> length (concat (from_worker w sent)) < length s) ->
  length sent = m /\
  exists resumed, length resumed = nw /\
    (forall w reqs, nth_error resumed w = Some reqs ->
       exists s0 s' s, resume shuf env nw w (SD (length sent * B) nw B epoch) a = Ok s0 /\
         Run shuf s0 reqs s' /\ d_epoch s' = epoch + 1 /\
         nth_error streams w = Some s /\ concat (from_worker w sent) ++ map req_sample reqs = s) /\
    (1 <= m -> forall n,
       fst (serve (tasks nw 0 false (m + n)) (map (pieces B) streams)) =
       sent ++ fst (serve (tasks nw ((m - 1) mod nw + 1) true n)
                          (map (fun reqs => pieces B (map req_sample reqs)) resumed))).
Proof.
  intros Hrng Hnw HB Hr Ha shuf streams sent Hleft.
  assert (Haok : assignment_ok (world_size env * nw) a) by (eapply shuffle_assign_ok; eauto; lia).
  assert (Hshuf : shuf_ok shuf) by (apply shuffle_call_ok; exact Hrng).
  set (r := global_rank env) in *. set (W := world_size env) in *.
  assert (Hwl : length (workers a) = W * nw) by (apply workers_length, Haok).
  assert (Hsl : length streams = nw).
  { unfold streams, rank_workers. rewrite map_length, firstn_length, skipn_length, Hwl. nia. }
  assert (Hm : length sent = m) by (apply (loader_sent_length B nw m streams HB Hsl Hnw Hleft)).
  split; [exact Hm|].
  assert (Hrw : r * nw + nw <= length (workers a)) by (rewrite Hwl; nia).
  destruct (list_choice (fun w reqs =>
       exists s0 s' s, resume shuf env nw w (SD (length sent * B) nw B epoch) a = Ok s0 /\
         Run shuf s0 reqs s' /\ d_epoch s' = epoch + 1 /\
         nth_error streams w = Some s /\ map req_sample reqs = skipn (B * turns nw 1 m w) s /\
         concat (from_worker w sent) ++ map req_sample reqs = s) nw) as (resumed & Hlr & Hres).
  { intros i Hi. destruct (nth_error (workers a) (r * nw + i)) as [w|] eqn:Ew; [|apply nth_error_None in Ew; lia].
    assert (Es : nth_error streams i = Some (stream shuf epoch w)).
    { unfold streams, rank_workers. rewrite nth_error_map, firstn_skipn_nth, Ew by exact Hi. reflexivity. }
    destruct (loader_from B nw m streams HB Hsl Hnw Hleft i _ Es) as (E1 & E2 & _).
    rewrite Hm.
    destruct (resume_run shuf env W nw i (SD (m * B) nw B epoch) a w) as (s0 & reqs & s' & R1 & R2 & R3 & R4 & _);
      cbn [sd_batch sd_workers sd_samples sd_epoch]; auto.
    { rewrite turns_batches by assumption. exact E2. }
    cbn [sd_batch sd_workers sd_samples sd_epoch] in *. rewrite turns_batches in R3 by assumption.
    exists reqs, s0, s', (stream shuf epoch w). split; [exact R1|]. split; [exact R2|]. split; [exact R4|].
    split; [exact Es|]. split; [exact R3|].
    fold sent in E1. rewrite E1, R3. apply firstn_skipn. }
  exists resumed. split; [exact Hlr|]. split.
  { intros w reqs E. destruct (Hres w reqs E) as (s0 & s' & s & H1 & H2 & H3 & H4 & _ & H6).
    exists s0, s', s. auto. }
  intros Hm1 n. rewrite tasks_split by assumption. rewrite serve_app.
  pose proof (loader_after B nw m streams HB Hsl Hnw Hleft) as Haf.
  unfold sent. destruct (serve (tasks nw 0 false m) _) as [o1 q1]. cbn [fst snd] in *.
  assert (Eq : map (fun reqs => pieces B (map req_sample reqs)) resumed = q1).
  { rewrite Haf. apply nth_error_ext. intros i. rewrite !nth_error_map.
    destruct (Nat.lt_ge_cases i nw) as [Hi|Hi].
    - destruct (nth_error resumed i) as [reqs|] eqn:E; [|apply nth_error_None in E; lia].
      destruct (Hres i reqs E) as (_ & _ & s & _ & _ & _ & H4 & H5 & _).
      rewrite (combine_nth_error (seq 0 nw) streams i i s); [|rewrite nth_error_seq by exact Hi; reflexivity|exact H4].
      cbn [option_map fst snd]. rewrite H5. reflexivity.
    - rewrite (proj2 (nth_error_None resumed i)) by lia.
      rewrite (proj2 (nth_error_None (combine (seq 0 nw) streams) i)) by (rewrite combine_length, seq_length; lia).
      reflexivity. }
  rewrite Eq. destruct (serve (tasks nw ((m - 1) mod nw + 1) true n) q1) as [o2 q2]. reflexivity.
Qed.

(** Restatement of the marker facts of a complete run. *)
Lemma last_flags_spec n k b : nth_error (last_flags n) k = Some b -> b = (k =? n - 1).
Proof.
  destruct n as [|n]; [destruct k; discriminate|]. cbn [last_flags]. intros H.
  replace (S n - 1) with n by lia.
  destruct (Nat.lt_ge_cases k n) as [Hk|Hk].
  - rewrite nth_error_app1 in H by (rewrite repeat_length; exact Hk).
    rewrite nth_error_repeat in H by exact Hk. injection H as <-. symmetry; apply Nat.eqb_neq; lia.
  - rewrite nth_error_app2 in H by (rewrite repeat_length; exact Hk). rewrite repeat_length in H.
    destruct (k - n) as [|j] eqn:E; [|destruct j; discriminate]. injection H as <-.
    symmetry; apply Nat.eqb_eq; lia.
Qed.

Lemma first_download_spec cs n k d :
  nth_error (first_download cs n) k = Some d -> d = if k =? 0 then Some cs else None.
Proof.
  destruct n as [|n]; [destruct k; discriminate|]. destruct k as [|k]; cbn; [congruence|].
  intros H. destruct (Nat.lt_ge_cases k n) as [Hk|Hk].
  - rewrite nth_error_repeat in H by exact Hk. congruence.
  - rewrite (proj2 (nth_error_None (repeat (@None (list nat)) n) k)) in H by (rewrite repeat_length; exact Hk). discriminate.
Qed.

Lemma fresh_markers shuf env nw wrank epoch a n w :
  shuf_ok shuf -> assignment_ok n a -> nth_error (workers a) (global_rank env * nw + wrank) = Some w ->
  exists s0 reqs s', iter_fresh env nw wrank epoch a = Ok s0 /\ Run shuf s0 reqs s' /\
    map req_sample reqs = stream shuf epoch w /\
    forall k r, nth_error reqs k = Some r ->
      rq_last r = (k =? length reqs - 1) /\ rq_download r = if k =? 0 then Some (fst w) else None.
Proof.
  intros Hs Ha Hw. destruct (fresh_run shuf env nw wrank epoch a n w Hs Ha Hw)
    as (s0 & reqs & s' & H1 & H2 & H3 & _ & _ & H5 & H6).
  exists s0, reqs, s'. split; [exact H1|]. split; [exact H2|]. split; [exact H3|]. intros k r Hk.
  apply (f_equal (fun l => nth_error l k)) in H5, H6. rewrite nth_error_map, Hk in H5, H6.
  cbn [option_map] in H5, H6. symmetry in H5, H6.
  split; [apply last_flags_spec in H5; exact H5|apply first_download_spec in H6; exact H6].
Qed.

Lemma resume_markers shuf env W nw wrank st a w :
  shuf_ok shuf -> assignment_ok (W * nw) a -> global_rank env < W -> wrank < nw -> 1 <= sd_batch st ->
  sd_workers st = nw -> nth_error (workers a) (global_rank env * nw + wrank) = Some w ->
  turns nw (sd_batch st) (sd_samples st) wrank < length (worker_samples w) ->
  exists s0 reqs s' k0 c0, resume shuf env nw wrank st a = Ok s0 /\ Run shuf s0 reqs s' /\
    option_map rq_chunk (nth_error reqs 0) = Some c0 /\ nth_error (fst w) k0 = Some c0 /\
    forall k r, nth_error reqs k = Some r ->
      rq_last r = (k =? length reqs - 1) /\ rq_download r = if k =? 0 then Some (skipn k0 (fst w)) else None.
Proof.
  intros Hs Ha Hr Hwr HB Hst Hw Hd.
  destruct (resume_run shuf env W nw wrank st a w Hs Ha Hr Hwr HB Hst Hw)
    as (s0 & reqs & s' & H1 & H2 & H3 & _ & _ & H5 & k0 & H6 & H7 & H8).
  { rewrite (Permutation_length (stream_perm shuf (sd_epoch st) w Hs)). exact Hd. }
  destruct reqs as [|r0 reqs]; [cbn in H7; congruence|]. cbn [map nth_error] in H8.
  exists s0, (r0 :: reqs), s', k0, (rq_chunk r0). split; [exact H1|]. split; [exact H2|].
  split; [reflexivity|]. split; [exact H8|]. intros k r Hk.
  apply (f_equal (fun l => nth_error l k)) in H5, H6. rewrite nth_error_map, Hk in H5, H6.
  cbn [option_map] in H5, H6. symmetry in H5, H6.
  split; [apply last_flags_spec in H5; exact H5|apply first_download_spec in H6; exact H6].
Qed.

Lemma sum_turns nw B n : 1 <= nw -> sum (map (turns nw B n) (seq 0 nw)) = n.
Proof.
  intros Hnw. induction n as [|n IH].
  - clear. assert (H : forall l, sum (map (turns nw B 0) l) = 0) by (induction l as [|x l IH]; [reflexivity|exact IH]).
    apply H.
  - rewrite <- IH at 2. rewrite (map_ext _ _ (turns_S nw B n)).
    rewrite sum_map_add. 
    assert (Hm : (n / B) mod nw < nw) by (apply Nat.mod_upper_bound; lia).
    generalize dependent ((n / B) mod nw). clear. intros v Hv.
    assert (H : forall k n, sum (map (fun x => if v =? x then 1 else 0) (seq k n)) =
                            if (k <=? v) && (v <? k + n) then 1 else 0).
    { intros k m; revert k; induction m as [|m IH]; intros k; cbn [seq map sum].
      - destruct (Nat.leb_spec k v), (Nat.ltb_spec v (k + 0)); cbn; lia.
      - rewrite IH. destruct (Nat.eqb_spec v k), (Nat.leb_spec (S k) v), (Nat.leb_spec k v),
          (Nat.ltb_spec v (S k + m)), (Nat.ltb_spec v (k + S m)); cbn; lia. }
    rewrite H. replace ((0 <=? v) && (v <? 0 + nw)) with true; [lia|].
    symmetry. apply andb_true_intro. split; [apply Nat.leb_le|apply Nat.ltb_lt]; lia.
Qed.

Lemma replay_accounts n B nw : 1 <= nw -> 1 <= B ->
  exists idx, replay_sampling n B nw = Ok idx /\ length idx = nw /\ sum idx = n /\
    forall w x, nth_error idx w = Some x -> x = turns nw B n w.
Proof.
  intros Hnw HB. exists (map (turns nw B n) (seq 0 nw)).
  split; [apply replay_sampling_ok; assumption|]. split; [rewrite map_length, seq_length; reflexivity|].
  split; [apply sum_turns; exact Hnw|]. intros w x H. rewrite nth_error_map in H.
  destruct (Nat.lt_ge_cases w nw) as [Hw|Hw].
  - rewrite nth_error_seq in H by exact Hw. cbn in H. congruence.
  - rewrite (proj2 (nth_error_None (seq 0 nw) w)) in H by (rewrite seq_length; exact Hw). discriminate.
Qed.

Lemma replay_position ivs i c o :
  replay_walk ivs i = (c, o) -> i <= sum (map iv_size ivs) ->
  sum (map iv_size (firstn c ivs)) + o = i /\
  (i < sum (map iv_size ivs) -> exists iv, nth_error ivs c = Some iv /\ o < iv_size iv).
Proof.
  intros H Hi. pose proof (replay_walk_exists _ _ _ _ H) as Hex.
  destruct (replay_walk_spec _ _ _ _ H) as (_ & H2 & H3). split; [exact H2|]. intros Hlt.
  destruct (nth_error ivs c) as [iv|]; [eauto|]. exfalso. apply (proj2 Hex Hlt). reflexivity.
Qed.
