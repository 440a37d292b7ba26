(** Lemmas about the assignment model. *)
From Verif Require Import Base Assign_Model Assign_Spec.

(** * Quotas *)

Lemma sum_indicator_from k r n :
  sum (map (fun i => if i <? r then 1 else 0) (seq k n)) = min (r - k) n.
Proof.
  revert k; induction n as [|n IH]; intros k; cbn [seq map sum]; [lia|].
  rewrite IH. destruct (Nat.ltb_spec k r); lia.
Qed.

Lemma sum_map_add {A} (f g : A -> nat) l :
  sum (map (fun x => f x + g x) l) = sum (map f l) + sum (map g l).
Proof. induction l as [|x l IH]; simpl; lia. Qed.

Lemma batches_of_rank_length mb W nw : length (batches_of_rank mb W nw) = nw.
Proof. unfold batches_of_rank; rewrite map_length, seq_length; reflexivity. Qed.

Lemma batches_of_rank_sum mb W nw : 1 <= nw -> sum (batches_of_rank mb W nw) = mb / W.
Proof.
  intros Hnw; unfold batches_of_rank. rewrite sum_map_add, sum_map_const, sum_indicator_from, seq_length.
  set (q := mb / W). pose proof (Nat.div_mod q nw ltac:(lia)). pose proof (Nat.mod_upper_bound q nw ltac:(lia)).
  nia.
Qed.

Lemma nth_batches_of_rank mb W nw i :
  i < nw -> nth_error (batches_of_rank mb W nw) i =
            Some ((mb / W) / nw + (if i <? (mb / W) mod nw then 1 else 0)).
Proof.
  intros Hi; unfold batches_of_rank. rewrite nth_error_map.
  rewrite (nth_error_nth' (seq 0 nw) 0) by (rewrite seq_length; exact Hi).
  rewrite seq_nth by exact Hi. reflexivity.
Qed.

(** The batches of one rank, times the batch size. *)
Definition rank_quota (W nw B N : nat) : list nat := map (fun x => x * B) (batches_of_rank (N / B) W nw).
Definition left_items (W B N : nat) : nat := N - B * (W * (N / B / W)).

Definition last_quota (W nw B N : nat) (drop_last : bool) : list nat :=
  if negb drop_last && (0 <? left_items W B N)
  then upd ((N / B / W) mod nw) (fun x => x + left_items W B N) (rank_quota W nw B N)
  else rank_quota W nw B N.

Lemma quota_loop_middle k n W nw B dl N acc :
  k + n < W ->
  quota_loop (seq k n ++ seq (k + n) (W - (k + n))) W nw B dl N acc =
  quota_loop (seq (k + n) (W - (k + n))) W nw B dl N
             (acc ++ concat (repeat (batches_of_rank (N / B) W nw) n)).
Proof.
  revert k acc; induction n as [|n IH]; intros k acc H.
  - cbn [seq app repeat concat]. rewrite app_nil_r. reflexivity.
  - cbn [seq app quota_loop].
    replace (k =? W - 1) with false by lia.
    replace (k + S n) with (S k + n) in * by lia.
    rewrite IH by lia. cbn [repeat concat]. rewrite app_assoc. reflexivity.
Qed.

Lemma sum_concat_repeat l n : sum (concat (repeat l n)) = n * sum l.
Proof. induction n as [|n IH]; simpl; [reflexivity|]. rewrite sum_app; lia. Qed.

Lemma map_concat_repeat {A B} (f : A -> B) l n :
  map f (concat (repeat l n)) = concat (repeat (map f l) n).
Proof. induction n as [|n IH]; simpl; [reflexivity|]. rewrite map_app, IH; reflexivity. Qed.

Lemma quotas_eq W nw B dl N :
  1 <= W -> 1 <= nw -> 1 <= B ->
  quotas W nw B dl N = concat (repeat (rank_quota W nw B N) (W - 1)) ++ last_quota W nw B N dl.
Proof.
  intros HW Hnw HB. unfold quotas.
  replace (seq 0 W) with (seq 0 (W - 1) ++ seq (0 + (W - 1)) (W - (0 + (W - 1)))).
  2:{ rewrite <- seq_app. f_equal; lia. }
  rewrite quota_loop_middle by lia. cbn [app Nat.add].
  replace (W - (W - 1)) with 1 by lia. cbn [seq quota_loop].
  rewrite Nat.eqb_refl.
  rewrite sum_concat_repeat, !batches_of_rank_sum by exact Hnw.
  replace (W - 1) with (pred W) by lia.
  assert (Hl : N - B * (pred W * (N / B / W) + N / B / W) = left_items W B N).
  { unfold left_items. generalize (N / B / W) as y; intros y.
    replace (pred W * y + y) with (W * y) by (destruct W; cbn [pred]; lia). reflexivity. }
  rewrite Hl. rewrite Nat.mod_mod by lia.
  unfold last_quota, rank_quota.
  destruct (Nat.ltb_spec 1 B) as [H1|H1].
  - rewrite map_concat_repeat. reflexivity.
  - assert (B = 1) by lia; subst B.
    assert (Hid : forall l, map (fun x => x * 1) l = l)
      by (induction l as [|y l IHl]; cbn [map]; [reflexivity|]; rewrite IHl, Nat.mul_1_r; reflexivity).
    rewrite !Hid. reflexivity.
Qed.

Lemma rank_quota_length W nw B N : length (rank_quota W nw B N) = nw.
Proof. unfold rank_quota; rewrite map_length; apply batches_of_rank_length. Qed.

Lemma last_quota_length W nw B N dl : length (last_quota W nw B N dl) = nw.
Proof.
  unfold last_quota; destruct (negb dl && (0 <? left_items W B N));
    rewrite ?upd_length; apply rank_quota_length.
Qed.

Lemma rank_quota_sum W nw B N : 1 <= nw -> sum (rank_quota W nw B N) = B * (N / B / W).
Proof.
  intros H; unfold rank_quota. rewrite (sum_map_mul (fun x => x)), map_id, batches_of_rank_sum by exact H. lia.
Qed.

Lemma left_items_le W B N : 1 <= W -> 1 <= B ->
  B * (W * (N / B / W)) <= N /\ left_items W B N < W * B.
Proof.
  intros HW HB. unfold left_items.
  pose proof (Nat.div_mod N B ltac:(lia)). pose proof (Nat.mod_upper_bound N B ltac:(lia)).
  pose proof (Nat.div_mod (N / B) W ltac:(lia)). pose proof (Nat.mod_upper_bound (N / B) W ltac:(lia)).
  set (x := N / B) in *. set (y := x / W) in *. set (m := x mod W) in *. set (r := N mod B) in *.
  assert (B * (W * y) + B * m + r = N) by nia.
  assert (B * m <= B * (W - 1)) by nia.
  nia.
Qed.

Lemma last_quota_sum W nw B N dl : 1 <= W -> 1 <= nw -> 1 <= B ->
  sum (last_quota W nw B N dl) = B * (N / B / W) + (if dl then 0 else left_items W B N).
Proof.
  intros HW Hnw HB. unfold last_quota.
  destruct dl; cbn [negb andb]; [rewrite rank_quota_sum by exact Hnw; lia|].
  destruct (Nat.ltb_spec 0 (left_items W B N)) as [H|H].
  - rewrite sum_upd by (rewrite rank_quota_length; apply Nat.mod_upper_bound; lia).
    rewrite rank_quota_sum by exact Hnw. lia.
  - rewrite rank_quota_sum by exact Hnw. lia.
Qed.

Lemma quotas_sum W nw B N dl : 1 <= W -> 1 <= nw -> 1 <= B ->
  sum (quotas W nw B dl N) = if dl then W * (B * (N / B / W)) else N.
Proof.
  intros HW Hnw HB. rewrite quotas_eq by assumption.
  rewrite sum_app, sum_concat_repeat, rank_quota_sum, last_quota_sum by assumption.
  destruct (left_items_le W B N HW HB) as [H1 H2]. unfold left_items in *.
  destruct dl; nia.
Qed.

Lemma length_concat_repeat {A} (l : list A) n : length (concat (repeat l n)) = n * length l.
Proof. induction n as [|n IH]; simpl; [reflexivity|]. rewrite app_length; lia. Qed.

Lemma quotas_length W nw B N dl : 1 <= W -> 1 <= nw -> 1 <= B -> length (quotas W nw B dl N) = W * nw.
Proof.
  intros HW Hnw HB. rewrite quotas_eq by assumption.
  rewrite app_length, length_concat_repeat, rank_quota_length, last_quota_length. nia.
Qed.

(** Slice of one rank out of the quotas. *)
Lemma skipn_concat_repeat {A} (l : list A) n k t :
  k <= n -> skipn (k * length l) (concat (repeat l n) ++ t) = concat (repeat l (n - k)) ++ t.
Proof.
  revert k; induction n as [|n IH]; intros [|k] H; try lia; cbn [Nat.mul skipn]; try reflexivity.
  cbn [repeat concat Nat.sub]. rewrite <- app_assoc.
  rewrite skipn_app. rewrite skipn_all2 by lia. cbn [app].
  replace (length l + k * length l - length l) with (k * length l) by lia.
  apply IH; lia.
Qed.

Lemma rank_slice_quotas W nw B N dl r : 1 <= W -> 1 <= nw -> 1 <= B -> r < W ->
  firstn nw (skipn (r * nw) (quotas W nw B dl N)) =
  if r =? W - 1 then last_quota W nw B N dl else rank_quota W nw B N.
Proof.
  intros HW Hnw HB Hr. rewrite quotas_eq by assumption.
  rewrite <- (rank_quota_length W nw B N) at 2.
  rewrite skipn_concat_repeat by lia.
  destruct (Nat.eqb_spec r (W - 1)) as [E|E].
  - replace (W - 1 - r) with 0 by lia. cbn [repeat concat app].
    apply firstn_all2. rewrite last_quota_length; lia.
  - replace (W - 1 - r) with (S (W - 2 - r)) by lia. cbn [repeat concat]. rewrite <- app_assoc.
    rewrite firstn_app, rank_quota_length, Nat.sub_diag. cbn [firstn]. rewrite app_nil_r.
    apply firstn_all2. rewrite rank_quota_length; lia.
Qed.

(** * The splitting loop *)

Definition wst_samples (w : wst) : list sample := dataset_samples (w_chunks w) (w_ivs w).
Definition ws_samples (ws : list wst) : list sample := flat_map wst_samples ws.
Definition w_ok (w : wst) : Prop := length (w_chunks w) = length (w_ivs w).

Fixpoint Inv (ws : list wst) : Prop :=
  match ws with
  | [] => True
  | w :: ws' => if w_left w =? 0 then Inv ws' else Forall (fun v => w_chunks v = [] /\ w_ivs v = []) ws'
  end.

Lemma dataset_samples_snoc cs ivs c iv :
  length cs = length ivs ->
  dataset_samples (cs ++ [c]) (ivs ++ [iv]) = dataset_samples cs ivs ++ samples_of (c, iv).
Proof.
  intros H. unfold dataset_samples. rewrite combine_app by exact H.
  rewrite flat_map_app. cbn [combine flat_map]. rewrite app_nil_r. reflexivity.
Qed.

Lemma samples_of_length ci : length (samples_of ci) = iv_size (snd ci).
Proof. unfold samples_of, iv_size; rewrite map_length, seq_length; reflexivity. Qed.

Lemma samples_of_split c s rs re e q :
  q <= re - rs ->
  samples_of (c, Iv s rs re e) =
  samples_of (c, Iv s rs (rs + q) e) ++ samples_of (c, Iv s (rs + q) re e).
Proof.
  intros H. unfold samples_of; cbn [fst snd iv_rs iv_re]. rewrite <- map_app. f_equal.
  replace (rs + q - rs) with q by lia. rewrite <- seq_app. f_equal; lia.
Qed.

Lemma ws_samples_empty ws :
  Forall (fun v => w_chunks v = [] /\ w_ivs v = []) ws -> ws_samples ws = [].
Proof.
  induction 1 as [|v ws [H1 H2] _ IH]; [reflexivity|].
  unfold ws_samples in *; cbn [flat_map]. unfold wst_samples at 1. rewrite H1, H2. exact IH.
Qed.

Lemma Inv_empty ws : Forall (fun v => w_chunks v = [] /\ w_ivs v = []) ws -> Inv ws.
Proof.
  induction 1 as [|v ws Hv Hf IH]; [exact I|]. cbn [Inv].
  destruct (w_left v =? 0); auto.
Qed.

Lemma samples_of_empty ci : iv_size (snd ci) = 0 -> samples_of ci = [].
Proof. intros H. unfold samples_of. unfold iv_size in H. rewrite H. reflexivity. Qed.

Lemma give_spec c iv ws :
  Inv ws -> Forall w_ok ws ->
  ws_samples (give c iv ws) = ws_samples ws ++ firstn (sum (map w_left ws)) (samples_of (c, iv)) /\
  Inv (give c iv ws) /\ Forall w_ok (give c iv ws) /\
  sum (map w_left (give c iv ws)) = sum (map w_left ws) - iv_size iv.
Proof.
  revert iv; induction ws as [|w ws IH]; intros iv HI Hok.
  { cbn. repeat split; auto. }
  cbn [Inv] in HI. inversion Hok as [|? ? Hw Hws]; subst. cbn [give map sum].
  destruct (Nat.eqb_spec (w_left w) 0) as [E|E].
  { destruct (IH iv HI Hws) as (A1 & A2 & A3 & A4).
    repeat split.
    - change (ws_samples (w :: give c iv ws)) with (wst_samples w ++ ws_samples (give c iv ws)).
      rewrite A1, E. cbn [Nat.add]. rewrite app_assoc. reflexivity.
    - cbn [Inv]. rewrite E. exact A2.
    - constructor; assumption.
    - cbn [map sum]. rewrite A4. lia. }
  destruct (Nat.eqb_spec (iv_size iv) 0) as [Z0|Z0].
  { rewrite (samples_of_empty (c, iv)) by exact Z0. rewrite firstn_nil, app_nil_r.
    repeat split; auto.
    - cbn [Inv]. destruct (Nat.eqb_spec (w_left w) 0); [lia|exact HI].
    - rewrite Z0. cbn [map sum]. lia. }
  destruct iv as [s rs re e]. cbn [iv_start iv_rs iv_re iv_end] in *. unfold iv_size in *; cbn [iv_rs iv_re] in *.
  assert (Hrest : ws_samples ws = []) by (apply ws_samples_empty; exact HI).
  destruct (Nat.ltb_spec (w_left w) (re - rs)) as [L|L].
  - destruct (IH (Iv s (rs + w_left w) re e) (Inv_empty _ HI) Hws) as (A1 & A2 & A3 & A4).
    cbn [iv_rs iv_re] in A4.
    repeat split.
    + match goal with |- ws_samples (?x :: ?y) = _ =>
        change (ws_samples (x :: y)) with (wst_samples x ++ ws_samples y) end.
      unfold wst_samples at 1. cbn [w_chunks w_ivs].
      rewrite dataset_samples_snoc by exact Hw.
      rewrite A1, Hrest. cbn [app].
      change (ws_samples (w :: ws)) with (wst_samples w ++ ws_samples ws). rewrite Hrest, app_nil_r.
      rewrite <- app_assoc. f_equal.
      rewrite (samples_of_split c s rs re e (w_left w)) by lia.
      rewrite firstn_app, samples_of_length. unfold iv_size; cbn [snd iv_rs iv_re].
      rewrite (firstn_all2 (samples_of (c, Iv s rs (rs + w_left w) e)))
        by (rewrite samples_of_length; unfold iv_size; cbn [snd iv_rs iv_re]; lia).
      f_equal. f_equal. lia.
    + cbn [Inv w_left]. exact A2.
    + constructor; [|exact A3]. unfold w_ok in *; cbn [w_chunks w_ivs]. rewrite !app_length; cbn [length]; lia.
    + cbn [map sum w_left]. rewrite A4. lia.
  - repeat split.
    + match goal with |- ws_samples (?x :: ?y) = _ =>
        change (ws_samples (x :: y)) with (wst_samples x ++ ws_samples y) end.
      unfold wst_samples at 1. cbn [w_chunks w_ivs].
      rewrite dataset_samples_snoc by exact Hw. rewrite Hrest, app_nil_r.
      change (ws_samples (w :: ws)) with (wst_samples w ++ ws_samples ws). rewrite Hrest, app_nil_r.
      f_equal. symmetry; apply firstn_all2. rewrite samples_of_length; unfold iv_size; cbn [snd iv_rs iv_re]; lia.
    + cbn [Inv w_left]. destruct (w_left w - (re - rs) =? 0); [apply Inv_empty|]; exact HI.
    + constructor; [|exact Hws]. unfold w_ok in *; cbn [w_chunks w_ivs]. rewrite !app_length; cbn [length]; lia.
    + cbn [map sum w_left]. lia.
Qed.

(** Per-worker accounting: items given so far plus items left is constant. *)
Definition given (w : wst) : nat := sum (map iv_size (w_ivs w)).

Lemma give_given c iv ws :
  map (fun w => given w + w_left w) (give c iv ws) = map (fun w => given w + w_left w) ws.
Proof.
  revert iv; induction ws as [|w ws IH]; intros iv; [reflexivity|].
  cbn [give]. destruct (Nat.eqb_spec (w_left w) 0) as [E|E]; [cbn [map]; rewrite IH; reflexivity|].
  destruct (Nat.eqb_spec (iv_size iv) 0); [reflexivity|].
  unfold iv_size in *.
  destruct (Nat.ltb_spec (w_left w) (iv_re iv - iv_rs iv)).
  - cbn [map]. rewrite IH. f_equal. unfold given; cbn [w_ivs w_left].
    rewrite map_app, sum_app. cbn [map sum]. unfold iv_size; cbn [iv_rs iv_re]. lia.
  - cbn [map]. f_equal. unfold given; cbn [w_ivs w_left].
    rewrite map_app, sum_app. cbn [map sum]. unfold iv_size; cbn [iv_rs iv_re]. lia.
Qed.

(** Provenance: every assigned piece is a non-empty part of an input interval of the same chunk. *)
Definition prov (src : list (nat * interval)) (w : wst) : Prop :=
  Forall (fun ci => exists iv, In (fst ci, iv) src /\ sub_interval (snd ci) iv)
         (combine (w_chunks w) (w_ivs w)).

Lemma give_prov src c iv iv0 ws :
  In (c, iv0) src ->
  iv_start iv = iv_start iv0 -> iv_end iv = iv_end iv0 -> iv_rs iv0 <= iv_rs iv -> iv_re iv = iv_re iv0 ->
  Forall w_ok ws -> Forall (prov src) ws -> Forall (prov src) (give c iv ws).
Proof.
  intros Hin; revert iv; induction ws as [|w ws IH]; intros iv Hs He Hr1 Hr2 Hok Hp; [constructor|].
  inversion Hok as [|? ? Hw Hws]; inversion Hp as [|? ? Hpw Hpws]; subst.
  cbn [give]. destruct (Nat.eqb_spec (w_left w) 0) as [E|E]; [constructor; auto|].
  destruct (Nat.eqb_spec (iv_size iv) 0) as [Z0|Z0]; [exact Hp|].
  unfold iv_size in *.
  assert (Hadd : forall iv', sub_interval iv' iv0 ->
            Forall (fun ci => exists iv, In (fst ci, iv) src /\ sub_interval (snd ci) iv)
                   (combine (w_chunks w ++ [c]) (w_ivs w ++ [iv']))).
  { intros iv' Hiv'. rewrite combine_app by exact Hw. apply Forall_app; split; [exact Hpw|].
    constructor; [|constructor]. exists iv0; split; assumption. }
  destruct (Nat.ltb_spec (w_left w) (iv_re iv - iv_rs iv)).
  - constructor.
    + unfold prov; cbn [w_chunks w_ivs]. apply Hadd.
      unfold sub_interval; cbn [iv_start iv_rs iv_re iv_end]. lia.
    + apply IH; cbn [iv_start iv_rs iv_re iv_end]; auto; lia.
  - constructor; [|exact Hpws]. unfold prov; cbn [w_chunks w_ivs]. apply Hadd.
    unfold sub_interval. lia.
Qed.

Definition assign_fold (l : list (nat * interval)) (ws : list wst) : list wst :=
  fold_left (fun ws ci => give (fst ci) (snd ci) ws) l ws.

Lemma firstn_firstn_app {A} n (l1 l2 : list A) :
  firstn n (l1 ++ l2) = firstn n l1 ++ firstn (n - length l1) l2.
Proof. apply firstn_app. Qed.

Lemma assign_fold_spec src l ws :
  incl l src -> Inv ws -> Forall w_ok ws -> Forall (prov src) ws ->
  let ws' := assign_fold l ws in
  ws_samples ws' = ws_samples ws ++ firstn (sum (map w_left ws)) (flat_map samples_of l) /\
  Forall w_ok ws' /\ Forall (prov src) ws' /\
  map (fun w => given w + w_left w) ws' = map (fun w => given w + w_left w) ws /\
  sum (map w_left ws') = sum (map w_left ws) - sum (map (fun ci => iv_size (snd ci)) l).
Proof.
  revert ws; induction l as [|[c iv] l IH]; intros ws Hincl HI Hok Hp; cbn zeta.
  { cbn. rewrite firstn_nil, app_nil_r. repeat split; auto. lia. }
  cbn [assign_fold fold_left fst snd].
  destruct (give_spec c iv ws HI Hok) as (A1 & A2 & A3 & A4).
  assert (A5 : Forall (prov src) (give c iv ws)).
  { apply (give_prov src c iv iv); auto. apply Hincl; left; reflexivity. }
  specialize (IH (give c iv ws) (fun x Hx => Hincl x (or_intror Hx)) A2 A3 A5). cbn zeta in IH.
  destruct IH as (B1 & B2 & B3 & B4 & B5). fold (assign_fold l (give c iv ws)).
  repeat split; auto.
  - rewrite B1, A1, A4. rewrite <- app_assoc. f_equal.
    cbn [flat_map]. rewrite firstn_app, samples_of_length. reflexivity.
  - rewrite B4. apply give_given.
  - rewrite B5, A4. cbn [map sum snd]. lia.
Qed.

Lemma ws_samples_init qs : ws_samples (map (fun q => Wst q [] []) qs) = [].
Proof. induction qs as [|q qs IH]; [reflexivity|exact IH]. Qed.

Lemma init_empty qs :
  Forall (fun v => w_chunks v = [] /\ w_ivs v = []) (map (fun q => Wst q [] []) qs).
Proof. induction qs as [|q qs IH]; constructor; auto. Qed.

Lemma combine_map_map {A B C} (f : A -> B) (g : A -> C) l :
  combine (map f l) (map g l) = map (fun x => (f x, g x)) l.
Proof. induction l as [|x l IH]; simpl; [reflexivity|]. f_equal; exact IH. Qed.

Lemma assign_eq W nw B dl idx ivs :
  1 <= nw -> 1 <= B ->
  assign W nw B dl idx ivs =
  let ws := assign_fold (combine idx ivs)
              (map (fun q => Wst q [] []) (quotas W nw B dl (sum (map iv_size ivs)))) in
  Ok (map w_chunks ws, map w_ivs ws).
Proof.
  intros Hnw HB. unfold assign.
  replace (B =? 0) with false by lia. replace (nw =? 0) with false by lia.
  rewrite andb_false_r. reflexivity.
Qed.

Lemma map_iv_size_combine (idx : list nat) ivs :
  length idx = length ivs ->
  map (fun ci : nat * interval => iv_size (snd ci)) (combine idx ivs) = map iv_size ivs.
Proof.
  revert ivs; induction idx as [|x idx IH]; intros [|iv ivs] H; simpl in *; try discriminate; [reflexivity|].
  f_equal; apply IH; lia.
Qed.

Lemma sum_zero_all l : sum l = 0 -> Forall (fun x => x = 0) l.
Proof. induction l as [|x l IH]; simpl; intros H; constructor; [lia|apply IH; lia]. Qed.

Lemma dataset_samples_length idx ivs :
  length idx = length ivs -> length (dataset_samples idx ivs) = sum (map iv_size ivs).
Proof.
  intros H. unfold dataset_samples. rewrite length_flat_map.
  rewrite <- (map_iv_size_combine idx ivs H). f_equal. apply map_ext. intros ci; apply samples_of_length.
Qed.

(** The main theorem on [assign]: every worker gets exactly its quota, the
    concatenation of all workers is the prefix of the dataset. *)
Theorem assign_main W nw B dl idx ivs :
  1 <= W -> 1 <= nw -> 1 <= B -> length idx = length ivs ->
  let N := sum (map iv_size ivs) in
  exists a, assign W nw B dl idx ivs = Ok a /\
    shape_ok (W * nw) a /\
    flat_map worker_samples (workers a) =
      firstn (if dl then W * (B * (N / B / W)) else N) (dataset_samples idx ivs) /\
    map (fun w => length (worker_samples w)) (workers a) = quotas W nw B dl N /\
    Forall (fun w => Forall (fun ci => exists iv, In (fst ci, iv) (combine idx ivs) /\ sub_interval (snd ci) iv)
                            (combine (fst w) (snd w))) (workers a).
Proof.
  intros HW Hnw HB Hlen N. rewrite assign_eq by assumption. cbn zeta.
  set (qs := quotas W nw B dl N).
  set (ws0 := map (fun q => Wst q [] []) qs).
  assert (Hws0 : Forall (fun v => w_chunks v = [] /\ w_ivs v = []) ws0) by apply init_empty.
  destruct (assign_fold_spec (combine idx ivs) (combine idx ivs) ws0) as (A1 & A2 & A3 & A4 & A5).
  { apply incl_refl. }
  { apply Inv_empty; exact Hws0. }
  { eapply Forall_impl; [|exact Hws0]. intros v [H1 H2]. unfold w_ok. rewrite H1, H2; reflexivity. }
  { eapply Forall_impl; [|exact Hws0]. intros v [H1 H2]. unfold prov. rewrite H1, H2; constructor. }
  set (ws := assign_fold (combine idx ivs) ws0) in *.
  assert (Hleft0 : map w_left ws0 = qs).
  { unfold ws0. rewrite map_map. cbn [w_left]. apply map_id. }
  assert (Hqs : sum qs = if dl then W * (B * (N / B / W)) else N) by (apply quotas_sum; assumption).
  assert (HqsN : sum qs <= N).
  { rewrite Hqs. destruct dl; [|lia]. destruct (left_items_le W B N HW HB). nia. }
  assert (Hleft : Forall (fun x => x = 0) (map w_left ws)).
  { apply sum_zero_all. rewrite A5, Hleft0, map_iv_size_combine by exact Hlen. fold N. lia. }
  assert (Hgiv : map given ws = qs).
  { assert (H0 : map (fun w => given w + w_left w) ws0 = qs).
    { unfold ws0. rewrite map_map. cbn. apply map_id. }
    rewrite H0 in A4. rewrite <- A4. clear -Hleft. induction ws as [|w ws IH]; [reflexivity|].
    cbn [map] in *. inversion Hleft as [|? ? H1 H2]; subst. f_equal; [lia|apply IH; exact H2]. }
  exists (map w_chunks ws, map w_ivs ws). split; [reflexivity|].
  assert (Hwk : workers (map w_chunks ws, map w_ivs ws) = map (fun w => (w_chunks w, w_ivs w)) ws).
  { unfold workers; cbn [fst snd]. apply combine_map_map. }
  assert (Hlws : length ws = W * nw).
  { rewrite <- (map_length given), Hgiv. apply quotas_length; assumption. }
  split; [|split; [|split]].
  - unfold shape_ok. rewrite Hwk. cbn [fst snd]. rewrite !map_length.
    repeat split; auto. apply Forall_map. exact A2.
  - rewrite Hwk, <- Hqs, <- Hleft0.
    rewrite flat_map_concat_map, map_map, <- flat_map_concat_map.
    change (ws_samples ws = firstn (sum (map w_left ws0)) (dataset_samples idx ivs)).
    rewrite A1. unfold ws0 at 1. rewrite ws_samples_init. reflexivity.
  - rewrite Hwk, map_map. rewrite <- Hgiv. apply map_ext_in. intros w Hw.
    unfold worker_samples; cbn [fst snd]. rewrite dataset_samples_length; [reflexivity|].
    rewrite Forall_forall in A2. apply A2; exact Hw.
  - rewrite Hwk. apply Forall_map. exact A3.
Qed.

(** * Consequences per rank and per worker *)

Lemma rank_workers_count nw r a :
  length (flat_map worker_samples (rank_workers nw r a)) =
  sum (firstn nw (skipn (r * nw) (map (fun w => length (worker_samples w)) (workers a)))).
Proof.
  unfold rank_workers. rewrite length_flat_map, skipn_map, firstn_map. reflexivity.
Qed.

Lemma firstn_skipn_nth {A} (l : list A) n k i :
  i < n -> nth_error (firstn n (skipn k l)) i = nth_error l (k + i).
Proof.
  intros Hi. revert n i Hi; induction k as [|k IH] in l |- *; intros n i Hi.
  - cbn [skipn Nat.add]. revert n i Hi. induction l as [|x l IHl]; intros n i Hi.
    + rewrite firstn_nil. reflexivity.
    + destruct n as [|n]; [lia|]. destruct i as [|i]; [reflexivity|]. cbn. apply IHl; lia.
  - destruct l as [|x l]; [rewrite skipn_nil, firstn_nil; destruct i; reflexivity|].
    cbn [skipn Nat.add nth_error]. apply IH; exact Hi.
Qed.

Lemma quotas_nth W nw B N dl r i : 1 <= W -> 1 <= nw -> 1 <= B -> r < W -> i < nw ->
  nth_error (quotas W nw B dl N) (r * nw + i) =
  Some (B * ((N / B / W) / nw + (if i <? (N / B / W) mod nw then 1 else 0)) +
        (if negb dl && (r =? W - 1) && (i =? (N / B / W) mod nw) then left_items W B N else 0)).
Proof.
  intros HW Hnw HB Hr Hi.
  rewrite <- (firstn_skipn_nth _ nw (r * nw) i Hi).
  rewrite rank_slice_quotas by assumption.
  assert (Hrq : nth_error (rank_quota W nw B N) i =
                Some (B * ((N / B / W) / nw + (if i <? (N / B / W) mod nw then 1 else 0)))).
  { unfold rank_quota. rewrite nth_error_map, nth_batches_of_rank by exact Hi.
    cbn [option_map]. f_equal. lia. }
  destruct (Nat.eqb_spec r (W - 1)) as [E|E].
  2:{ rewrite Hrq. rewrite andb_false_r. cbn [andb]. rewrite Nat.add_0_r. reflexivity. }
  unfold last_quota. rewrite andb_true_r.
  destruct dl; cbn [negb andb]; [rewrite Hrq, Nat.add_0_r; reflexivity|].
  destruct (Nat.ltb_spec 0 (left_items W B N)) as [L|L].
  - destruct (Nat.eqb_spec i ((N / B / W) mod nw)) as [Ei|Ei].
    + rewrite <- Ei, nth_error_upd_eq, Hrq. rewrite Ei at 2. cbn [option_map]. rewrite <- Ei. reflexivity.
    + rewrite nth_error_upd_neq by auto. rewrite Hrq, Nat.add_0_r. reflexivity.
  - rewrite Hrq. replace (left_items W B N) with 0 by lia.
    destruct (i =? _); rewrite Nat.add_0_r; reflexivity.
Qed.

Lemma samples_of_NoDup ci : NoDup (samples_of ci).
Proof.
  unfold samples_of. apply FinFun.Injective_map_NoDup; [|apply seq_NoDup].
  intros x y H. injection H as H. exact H.
Qed.

Lemma dataset_samples_NoDup idx ivs :
  NoDup idx -> length idx = length ivs -> NoDup (dataset_samples idx ivs).
Proof.
  revert ivs; induction idx as [|c idx IH]; intros [|iv ivs] Hnd Hl; cbn [length] in *; try discriminate.
  { constructor. }
  unfold dataset_samples; cbn [combine flat_map].
  inversion Hnd as [|? ? Hc Hnd']; subst.
  assert (H1 := samples_of_NoDup (c, iv)).
  assert (H2 := IH ivs Hnd' ltac:(lia)). fold (dataset_samples idx ivs).
  assert (H3 : forall x, In x (samples_of (c, iv)) -> ~ In x (dataset_samples idx ivs)).
  { intros x Hx Hx'. unfold samples_of in Hx. apply in_map_iff in Hx. destruct Hx as (j & Hj & _).
    unfold dataset_samples in Hx'. apply in_flat_map in Hx'. destruct Hx' as ([c' iv'] & Hc' & Hs').
    unfold samples_of in Hs'. apply in_map_iff in Hs'. destruct Hs' as (k & Hk & _).
    cbn [fst] in *. subst x. injection Hk as -> _. apply in_combine_l in Hc'. contradiction. }
  clear -H1 H2 H3. induction (samples_of (c, iv)) as [|x l IH]; [exact H2|].
  cbn [app]. inversion H1; subst. constructor.
  - intros H. apply in_app_iff in H. destruct H as [H|H]; [contradiction|].
    exact (H3 x (or_introl eq_refl) H).
  - apply IH; [assumption|]. intros y Hy; apply H3; right; exact Hy.
Qed.

Lemma NoDup_firstn {A} n (l : list A) : NoDup l -> NoDup (firstn n l).
Proof.
  intros H. rewrite <- (firstn_skipn n l) in H. revert H. generalize (skipn n l) as t.
  induction (firstn n l) as [|x f IH]; intros t H; [constructor|].
  inversion H as [|? ? Hx Hn]; subst. constructor; [|eapply IH; exact Hn].
  intros Hi; apply Hx, in_app_iff; left; exact Hi.
Qed.

Lemma assign_no_drop W nw B idx ivs :
  1 <= W -> 1 <= nw -> 1 <= B -> length idx = length ivs ->
  exists a, assign W nw B false idx ivs = Ok a /\ shape_ok (W * nw) a /\
    flat_map worker_samples (workers a) = dataset_samples idx ivs /\
    Forall (fun w => Forall (fun ci => exists iv, In (fst ci, iv) (combine idx ivs) /\ sub_interval (snd ci) iv)
                            (combine (fst w) (snd w))) (workers a).
Proof.
  intros HW Hnw HB Hl.
  destruct (assign_main W nw B false idx ivs HW Hnw HB Hl) as (a & H1 & H2 & H3 & _ & H5).
  exists a. repeat split; auto; try apply H2.
  rewrite H3. apply firstn_all2. rewrite dataset_samples_length by exact Hl. lia.
Qed.

Lemma assign_drop W nw B idx ivs :
  1 <= W -> 1 <= nw -> 1 <= B -> length idx = length ivs -> NoDup idx ->
  let N := length (dataset_samples idx ivs) in
  exists a, assign W nw B true idx ivs = Ok a /\ shape_ok (W * nw) a /\
    (forall r, r < W -> length (flat_map worker_samples (rank_workers nw r a)) = B * ((N / B) / W)) /\
    NoDup (flat_map worker_samples (workers a)) /\
    exists dropped, flat_map worker_samples (workers a) ++ dropped = dataset_samples idx ivs /\
                    length dropped < W * B.
Proof.
  intros HW Hnw HB Hl Hnd N.
  assert (HN : N = sum (map iv_size ivs)) by (apply dataset_samples_length; exact Hl).
  destruct (assign_main W nw B true idx ivs HW Hnw HB Hl) as (a & H1 & H2 & H3 & H4 & H5).
  rewrite <- HN in *.
  exists a. split; [exact H1|]. split; [exact H2|]. split; [|split].
  - intros r Hr. rewrite rank_workers_count, H4, rank_slice_quotas by assumption.
    destruct (r =? W - 1); [rewrite last_quota_sum by assumption; lia|apply rank_quota_sum; exact Hnw].
  - rewrite H3. apply NoDup_firstn, dataset_samples_NoDup; assumption.
  - rewrite H3. eexists; split; [apply firstn_skipn|].
    rewrite skipn_length. fold N.
    destruct (left_items_le W B N HW HB) as [L1 L2]. unfold left_items in L2. nia.
Qed.

Lemma assign_counts W nw B dl idx ivs :
  1 <= W -> 1 <= nw -> 1 <= B -> length idx = length ivs ->
  let N := length (dataset_samples idx ivs) in
  let q := (N / B) / W in
  exists a extra, assign W nw B dl idx ivs = Ok a /\ extra < W * B /\ (dl = true -> extra = 0) /\
    forall r i, r < W -> i < nw ->
      exists w, nth_error (workers a) (r * nw + i) = Some w /\
        length (worker_samples w) =
        B * (q / nw + (if i <? q mod nw then 1 else 0)) +
        (if (r =? W - 1) && (i =? q mod nw) then extra else 0).
Proof.
  intros HW Hnw HB Hl N q.
  assert (HN : N = sum (map iv_size ivs)) by (apply dataset_samples_length; exact Hl).
  destruct (assign_main W nw B dl idx ivs HW Hnw HB Hl) as (a & H1 & H2 & H3 & H4 & H5).
  rewrite <- HN in *.
  exists a, (if dl then 0 else left_items W B N).
  destruct (left_items_le W B N HW HB) as [L1 L2].
  split; [exact H1|]. split; [destruct dl; lia|]. split; [intros ->; reflexivity|].
  intros r i Hr Hi.
  assert (Hq := quotas_nth W nw B N dl r i HW Hnw HB Hr Hi).
  rewrite <- H4, nth_error_map in Hq.
  destruct (nth_error (workers a) (r * nw + i)) as [w|]; [|discriminate].
  exists w. split; [reflexivity|]. cbn [option_map] in Hq. injection Hq as Hq. rewrite Hq.
  fold q. destruct dl; cbn [negb andb]; [|reflexivity].
  destruct ((r =? W - 1) && (i =? q mod nw)); reflexivity.
Qed.
