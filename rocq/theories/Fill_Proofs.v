(** Proofs about the cache dataloader. *)
From Coq Require Import String NArith ZArith Lia Permutation Sorted.
From Verif Require Import Base Names_Model Names_Proofs Format_Model Format_Proofs Writer_Model Writer_Spec Writer_Proofs Writer_Proofs3
  Assign_Model Config_Model Config_Proofs Sampler_Model Sampler_Spec Sampler_Proofs Sampler_Proofs2 Merge_Model Merge_Spec Merge_Proofs
  Fill_Model Fill_Spec.
Local Open Scope list_scope.
Local Open Scope nat_scope.
Local Ltac Zify.zify_post_hook ::= idtac.

(** ** Comparison *)
Lemma tensor_equal_refl a : tensor_equal a a = Ok true.
Proof.
  assert (G : forall l : list Z, forallb (fun p => (fst p =? snd p)%Z) (combine l l) = true).
  { induction l as [|x l IH]; [reflexivity|]. cbn. rewrite Z.eqb_refl. exact IH. }
  destruct a as [|x [|y a]]; cbn [tensor_equal].
  - reflexivity.
  - cbn. rewrite Z.eqb_refl. reflexivity.
  - rewrite Nat.eqb_refl, G. reflexivity.
Qed.
Lemma equal_item_refl v : plain v -> equal_item v v = Ok true.
Proof.
  destruct v as [b|z|[f|]|s|l|l]; cbn [plain equal_item]; intros H; try contradiction.
  - destruct b; reflexivity.
  - rewrite Z.eqb_refl. reflexivity.
  - rewrite Z.eqb_refl. reflexivity.
  - destruct (list_eq_dec N.eq_dec s s); congruence.
  - apply tensor_equal_refl.
Qed.
Lemma equal_items_refl l : Forall plain l -> equal_items l l = Ok true.
Proof.
  intros H. unfold equal_items. rewrite Nat.eqb_refl. induction H as [|v l Hv _ IH]; [reflexivity|].
  cbn [combine equal_all]. rewrite equal_item_refl by exact Hv. exact IH.
Qed.

Lemma pairs_equal : forall a b : list Z, length a = length b -> forallb (fun p => (fst p =? snd p)%Z) (combine a b) = true -> a = b.
Proof.
  induction a as [|x a IH]; intros [|y b] L H; try discriminate; [reflexivity|]. cbn in H. apply andb_prop in H. destruct H as [H1 H2].
  f_equal; [lia|]. apply IH; [cbn in L; lia|exact H2].
Qed.
Lemma tensor_equal_eq a b : length a = length b -> tensor_equal a b = Ok true -> a = b.
Proof.
  intros L. destruct a as [|x [|y a]].
  - destruct b; [reflexivity|discriminate].
  - destruct b as [|z [|? ?]]; try discriminate. cbn. intros E. injection E as E. rewrite andb_true_r in E. f_equal. lia.
  - destruct b as [|z [|t b]]; try discriminate. cbn [tensor_equal]. rewrite L, Nat.eqb_refl. intros E. injection E as E.
    apply pairs_equal; assumption.
Qed.
Lemma equal_item_eq v1 v2 : distinguishable v1 v2 -> equal_item v1 v2 = Ok true -> v1 = v2.
Proof.
  destruct v1 as [b|z|[f|]|s|l|l], v2 as [b'|z'|[f'|]|s'|l'|l']; cbn [distinguishable equal_item]; intros H E; try contradiction; try discriminate.
  - destruct b, b'; try reflexivity; discriminate.
  - injection E as E. f_equal. lia.
  - injection E as E. do 2 f_equal. lia.
  - destruct (list_eq_dec N.eq_dec s s'); [subst; reflexivity|discriminate].
  - f_equal. apply tensor_equal_eq; assumption.
Qed.
Lemma equal_items_eq l1 l2 : Forall (fun p => distinguishable (fst p) (snd p)) (combine l1 l2) -> equal_items l1 l2 = Ok true -> l1 = l2.
Proof.
  unfold equal_items. intros F E. destruct (Nat.eqb_spec (length l1) (length l2)) as [L|]; [|discriminate].
  revert l2 L F E. induction l1 as [|x l1 IH]; intros [|y l2] L F E; try discriminate; [reflexivity|].
  cbn [combine] in F. inversion F as [|? ? F1 F2]; subst. cbn [combine equal_all] in E.
  destruct (equal_item x y) as [[|]|] eqn:Ex; try discriminate. cbn [bind] in E.
  f_equal; [apply equal_item_eq; assumption|]. apply IH; [cbn in L; lia|exact F2|exact E].
Qed.

(** ** One worker *)
Section Worker.
Context (c : wcfg) (ser : list value -> item) (ds : nat -> nat -> nat -> list value) (data : nat -> list value).
Hypothesis det : deterministic ds data.

Lemma fetch_det p t d w i : d = true \/ Forall plain (data i) -> exists t',
  fetch c ser ds p (t, d, w) i = bind (add_item c w i (ser (data i))) (fun w => Ok (data i, (t', true, w))).
Proof.
  intros H. unfold fetch. rewrite !det. destruct d; [exists (S t); reflexivity|]. destruct H as [H|H]; [discriminate|].
  rewrite equal_items_refl by exact H. exists (S (S t)). reflexivity.
Qed.
Lemma fetches_det p : forall k s t d w, d = true \/ (forall i, s <= i < s + k -> Forall plain (data i)) -> exists t' d',
  fetches c ser ds p (t, d, w) (seq s k) =
    bind (add_all c w s (map (fun i => ser (data i)) (seq s k))) (fun w => Ok (map data (seq s k), (t', d', w))).
Proof.
  induction k as [|k IH]; intros s t d w H; [exists t, d; reflexivity|]. cbn [seq fetches map add_all].
  destruct (fetch_det p t d w s) as (t1 & ->). { destruct H as [H|H]; [left; exact H|right; apply H; lia]. }
  destruct (add_item c w s (ser (data s))) as [w1|e]; cbn [bind fst snd]; [|exists t, d; reflexivity].
  destruct (IH (S s) t1 true w1 (or_introl eq_refl)) as (t2 & d2 & ->). exists t2, d2.
  destruct (add_all c w1 (S s) _); reflexivity.
Qed.
Lemma run_worker_det p s k : (forall i, s <= i < s + k -> Forall plain (data i)) ->
  run_worker c ser ds p (seq s k) =
    bind (bind (add_all c (new_writer 0) s (map (fun i => ser (data i)) (seq s k))) (done c false)) (fun w => Ok (map data (seq s k), w)).
Proof.
  intros H. unfold run_worker. destruct (fetches_det p k s 0 false (new_writer 0) (or_intror H)) as (t' & d' & ->).
  destruct (add_all c (new_writer 0) s _) as [w|e]; cbn [bind fst snd]; [|reflexivity]. reflexivity.
Qed.

(** What the rest of the proof needs to know about a worker. *)
Definition good decompress (is : list nat) (w : wstate) : Prop :=
  stored w = map (fun i => ser (data i)) is /\
  Forall (fun ch => ch_items ch <> [] /\ ch_size ch = length (ch_items ch) /\
    ((N.of_nat (ch_bytes ch) < two32)%N -> forall i x begin, nth_error (ch_items ch) i = Some x ->
       load_item (decompress (ch_file ch)) (begin + i) begin = Ok (it_data x))) (Writer_Model.w_chunks w).
Lemma run_worker_good decompress p s k : readable c decompress ->
  (forall i, s <= i < s + k -> Forall plain (data i) /\ 1 <= it_bytes (ser (data i))) ->
  exists w, run_worker c ser ds p (seq s k) = Ok (map data (seq s k), w) /\ good decompress (seq s k) w.
Proof.
  intros [Hs Hc] H. rewrite run_worker_det by (intros i Hi; apply H; exact Hi).
  assert (F : Forall (fun x => 1 <= it_bytes x) (map (fun i => ser (data i)) (seq s k))).
  { apply Forall_forall. intros x Hx. apply in_map_iff in Hx. destruct Hx as (i & <- & Hi). apply in_seq in Hi. apply H. exact Hi. }
  destruct (write_in_order c 0 s _ F) as (w & E & _ & _ & Hof & Hst & Hne & _). rewrite E. exists w. split; [reflexivity|].
  split; [exact Hst|]. apply Forall_forall. intros ch Hin. rewrite Forall_forall in Hne. split; [apply Hne, in_map, Hin|].
  split.
  - apply In_nth_error in Hin. destruct Hin as (j & Hj). destruct (Hof j ch Hj) as (_ & _ & _ & Hz & _). exact Hz.
  - intros Hb. apply (read_written c 0 s _ w decompress ch F E Hs Hc Hin Hb).
Qed.
End Worker.

(** ** Which samples a worker gets *)
Definition share (n replicas nw r w : nat) : list nat :=
  nth w (worker_slices nw (n / (replicas * nw)) (replica_share n replicas r)) [].

Lemma non_distributed_one n nw b : iter_non_distributed n nw b = iter_distributed n 1 0 nw b.
Proof.
  unfold iter_non_distributed, iter_distributed. cbv zeta. change (1 <=? 0) with false. change (0 =? 1 - 1) with true. cbn iota.
  rewrite Nat.mul_0_l, Nat.sub_0_r, Nat.mul_1_l. cbn [skipn]. rewrite (firstn_all2 (n := n)) by (rewrite seq_length; lia).
  rewrite seq_length. reflexivity.
Qed.

Lemma share_eq n replicas nw r w : w < nw ->
  nth_error (worker_slices nw (n / (replicas * nw)) (replica_share n replicas r)) w = Some (share n replicas nw r w).
Proof. intros H. unfold share. apply nth_error_nth'. rewrite worker_slices_length. exact H. Qed.

Lemma share_seq n replicas nw r w : w < nw -> exists s k, share n replicas nw r w = seq s k.
Proof.
  intros H. destruct (slice_seq ((if r =? replicas - 1 then n else (r + 1) * (n / replicas)) - r * (n / replicas)) (r * (n / replicas)) 0 n) as (s & k & E).
  assert (E' : replica_share n replicas r = seq s k) by exact E.
  pose proof (share_eq n replicas nw r w H) as Hn. rewrite E' in Hn. eapply worker_slices_seq; eauto.
Qed.

Lemma mine_enough n replicas nw r : 1 <= nw -> r < replicas -> nw * (n / (replicas * nw)) <= length (replica_share n replicas r).
Proof.
  intros Hw Hr. pose proof (replica_share_length n replicas r Hr). rewrite <- Nat.div_div by lia.
  pose proof (Nat.mul_div_le (n / replicas) nw ltac:(lia)). lia.
Qed.

Lemma share_nonempty n replicas nw r w : r < replicas -> w < nw -> replicas * nw <= n -> 1 <= length (share n replicas nw r w).
Proof.
  intros Hr Hw Hn. pose proof (mine_enough n replicas nw r ltac:(lia) Hr) as M.
  assert (Q : 1 <= n / (replicas * nw)) by (apply Nat.div_le_lower_bound; nia).
  unfold share, worker_slices. set (l := replica_share n replicas r) in *. set (q := n / (replicas * nw)) in *. clearbody l q.
  set (f := fun w => _). rewrite (nth_indep _ [] (f 0)) by (rewrite map_length, seq_length; exact Hw).
  rewrite map_nth, seq_nth by exact Hw. unfold f. cbv zeta. rewrite firstn_length, skipn_length, Nat.add_0_l.
  assert ((w + 1) * q <= nw * q) by (apply Nat.mul_le_mono_r; lia). destruct (w =? nw - 1); nia.
Qed.

Lemma indices_ok n replicas nw b taken r w : 1 <= b -> r < replicas -> w < nw -> replicas * nw <= n ->
  exists batches, indices_of n replicas nw b taken r w = Ok (concat (match taken r w with None => batches | Some k => firstn k batches end)) /\
    concat batches = share n replicas nw r w /\ full_but_last b batches.
Proof.
  intros Hb Hr Hw Hn.
  assert (D : exists o, iter_distributed n replicas r nw b = Ok o /\
    forall w s, nth_error (worker_slices nw (n / (replicas * nw)) (replica_share n replicas r)) w = Some s ->
      concat (received nw w o) = s /\ full_but_last b (received nw w o)).
  { unfold iter_distributed. fold (replica_share n replicas r). cbv zeta. replace (replicas <=? r) with false by lia.
    assert (C : concat (worker_slices nw (n / (replicas * nw)) (replica_share n replicas r)) = replica_share n replicas r)
      by (apply worker_slices_concat; [lia|apply mine_enough; lia]).
    rewrite sum_lengths_concat, C, Nat.eqb_refl. cbn [negb].
    destruct (batches_ok nw b (worker_slices nw (n / (replicas * nw)) (replica_share n replicas r))) as (o & E & _ & F);
      [lia|exact Hb|apply worker_slices_length| |exists o; split; assumption].
    rewrite C. pose proof (replica_share_length n replicas r Hr).
    assert (1 <= n / replicas) by (apply Nat.div_le_lower_bound; nia). destruct (replica_share n replicas r); [cbn in *; lia|discriminate]. }
  destruct D as (o & E & F). destruct (F w _ (share_eq n replicas nw r w Hw)) as [F1 F2].
  exists (received nw w o). split; [|split; assumption]. unfold indices_of.
  replace (if replicas =? 1 then iter_non_distributed n nw b else iter_distributed n replicas r nw b) with (Ok o).
  - cbn [bind]. rewrite deal_every by exact Hw. reflexivity.
  - destruct (Nat.eqb_spec replicas 1) as [->|_]; [|symmetry; exact E]. assert (r = 0) as -> by lia. rewrite non_distributed_one. symmetry. exact E.
Qed.

(** All of them, worker by worker, are all samples in order. *)
Lemma seq_mul nw : forall replicas, seq 0 (replicas * nw) = flat_map (fun r => map (fun w => r * nw + w) (seq 0 nw)) (seq 0 replicas).
Proof.
  induction replicas as [|r IH]; [reflexivity|]. rewrite seq_S, flat_map_app. cbn [flat_map Nat.add]. rewrite app_nil_r, <- IH.
  replace (S r * nw) with (r * nw + nw) by lia. rewrite seq_app. f_equal. cbn [Nat.add].
  generalize (r * nw) as a. intros a. clear. assert (G : forall s, seq (a + s) nw = map (fun w => a + w) (seq s nw)).
  { induction nw as [|m IH]; intros s; [reflexivity|]. cbn [seq map]. f_equal. rewrite <- IH. f_equal. lia. }
  rewrite <- G. f_equal. lia.
Qed.
Lemma shares_all n replicas nw : 1 <= replicas -> 1 <= nw ->
  flat_map (fun p => share n replicas nw (p / nw) (p mod nw)) (seq 0 (replicas * nw)) = seq 0 n.
Proof.
  intros Hr Hw. rewrite seq_mul, <- (replica_shares n replicas Hr). 
  assert (G : forall l, (forall r, In r l -> r < replicas) ->
    flat_map (fun p => share n replicas nw (p / nw) (p mod nw)) (flat_map (fun r => map (fun w => r * nw + w) (seq 0 nw)) l) =
    flat_map (replica_share n replicas) l).
  { induction l as [|r l IH]; intros H; [reflexivity|]. cbn [flat_map]. rewrite flat_map_app, IH by (intros; apply H; right; assumption).
    f_equal. assert (Hlt : r < replicas) by (apply H; left; reflexivity).
    rewrite <- (worker_slices_concat nw (n / (replicas * nw)) (replica_share n replicas r)) by (try lia; apply mine_enough; lia).
    rewrite flat_map_concat_map, map_map. f_equal.
    rewrite (map_ext_in _ (share n replicas nw r)).
    - apply nth_error_ext. intros i. rewrite nth_error_map.
      destruct (Nat.lt_ge_cases i nw) as [Hi|Hi].
      + rewrite (nth_error_nth' (seq 0 nw) 0) by (rewrite seq_length; exact Hi). rewrite seq_nth by exact Hi. cbn [option_map Nat.add].
        symmetry. apply share_eq. exact Hi.
      + replace (nth_error (seq 0 nw) i) with (@None nat) by (symmetry; apply nth_error_None; rewrite seq_length; lia).
        symmetry. apply nth_error_None. rewrite worker_slices_length. lia.
    - intros w Hin. apply in_seq in Hin. rewrite (Nat.mul_comm r nw).
      rewrite Nat.add_comm, (Nat.mul_comm nw r), Nat.div_add, Nat.div_small, Nat.add_0_l, Nat.mod_add, Nat.mod_small by lia. reflexivity. }
  apply G. intros r Hin. apply in_seq in Hin. lia.
Qed.

(** ** Reading *)
Fixpoint ivs_from (b : nat) (sizes : list nat) : list interval :=
  match sizes with [] => [] | n :: sizes' => Iv b b (b + n) (b + n) :: ivs_from (b + n) sizes' end.
Lemma intervals_from : forall sizes idx b, intervals_loop idx b sizes None = Ok (ivs_from b sizes).
Proof.
  induction sizes as [|n sizes IH]; intros idx b; [reflexivity|]. cbn [intervals_loop ivs_from bind fst snd]. rewrite IH. reflexivity.
Qed.

Definition its (x : nat * chunk) : list item := ch_items (snd x).
Definition ok_chunk decompress (x : nat * chunk) : Prop :=
  its x <> [] /\ ch_size (snd x) = length (its x) /\
  forall i y begin, nth_error (its x) i = Some y -> load_item (decompress (ch_file (snd x))) (begin + i) begin = Ok (it_data y).
Definition sz (x : nat * chunk) : nat := ch_size (snd x).

Lemma search_in decompress : forall chunks b k j y, Forall (ok_chunk decompress) chunks -> nth_error (flat_map its chunks) j = Some y ->
  exists m x iv, search k (zero_based b (ivs_from b (map sz chunks))) (ivs_from b (map sz chunks)) (Z.of_nat (b + j)) = Ok (b + j, k + m) /\
    nth_error chunks m = Some x /\ nth_error (ivs_from b (map sz chunks)) m = Some iv /\
    load_item (decompress (ch_file (snd x))) (b + j) (iv_start iv) = Ok (it_data y).
Proof.
  induction chunks as [|x chunks IH]; intros b k j y F H; [destruct j; discriminate|].
  inversion F as [|? ? (Hne & Hsz & Hl) F']; subst. cbn [map ivs_from zero_based flat_map search fst snd iv_rs iv_re] in *.
  replace (b + sz x - b) with (sz x) by lia. unfold sz at 3 in IH. unfold sz in *.
  destruct (Nat.lt_ge_cases j (length (its x))) as [Hj|Hj].
  - rewrite nth_error_app1 in H by exact Hj. exists 0, x. eexists. split; [|split; [reflexivity|split; [reflexivity|]]].
    + replace (Z.of_nat b <=? Z.of_nat (b + j))%Z with true by lia. replace (Z.of_nat (b + j) <? Z.of_nat (b + ch_size (snd x)))%Z with true by lia.
      cbn [andb]. do 2 f_equal; lia.
    + cbn [iv_start]. apply Hl. exact H.
  - rewrite nth_error_app2 in H by exact Hj.
    replace (Z.of_nat (b + j) <? Z.of_nat (b + ch_size (snd x)))%Z with false by lia. rewrite andb_false_r.
    destruct (IH (b + ch_size (snd x)) (S k) (j - length (its x)) y F' H) as (m & x' & iv & E1 & E2 & E3 & E4).
    replace (b + ch_size (snd x) + (j - length (its x))) with (b + j) in E1, E4 by lia.
    exists (S m), x', iv. split; [rewrite E1; do 2 f_equal; lia|]. split; [exact E2|]. split; [exact E3|exact E4].
Qed.
Lemma search_out : forall sizes b k (z : Z), (z < Z.of_nat b \/ Z.of_nat (b + sum sizes) <= z)%Z ->
  search k (zero_based b (ivs_from b sizes)) (ivs_from b sizes) z = Err ValueError.
Proof.
  induction sizes as [|n sizes IH]; intros b k z H; [reflexivity|]. cbn [ivs_from zero_based search fst snd iv_rs iv_re].
  replace (b + n - b) with n by lia. cbn [sum fold_right] in H. change (fold_right Nat.add 0 sizes) with (sum sizes) in H.
  replace ((Z.of_nat b <=? z) && (z <? Z.of_nat (b + n)))%Z with false by lia. apply IH. lia.
Qed.
Lemma size_all decompress chunks : Forall (ok_chunk decompress) chunks -> sum (map sz chunks) = length (flat_map its chunks).
Proof.
  induction 1 as [|x l (_ & H & _) _ IH]; [reflexivity|]. cbn [map sum fold_right flat_map]. rewrite app_length, <- IH. unfold sz at 1. rewrite H. reflexivity.
Qed.
Lemma holds_ok decompress chunks : Forall (ok_chunk decompress) chunks -> holds decompress chunks (map it_data (flat_map its chunks)).
Proof.
  intros F. unfold holds, cache_get, cache_intervals, generate_intervals. rewrite map_length.
  split; [exact (size_all decompress chunks F)|]. split.
  - intros i x H. rewrite nth_error_map in H. destruct (nth_error (flat_map its chunks) i) as [y|] eqn:Ey; [|discriminate]. injection H as <-.
    rewrite intervals_from. cbn [bind]. unfold get_chunk_index.
    destruct (search_in decompress chunks 0 0 i y F Ey) as (m & x & iv & E1 & E2 & E3 & E4). change (fun x => ch_size (snd x)) with sz.
    rewrite Nat.add_0_l in E1. rewrite E1. cbn [bind fst snd]. unfold read_at. rewrite !Nat.add_0_l, E2, E3. exact E4.
  - intros i H. rewrite intervals_from. cbn [bind]. unfold get_chunk_index. change (fun x => ch_size (snd x)) with sz.
    rewrite search_out; [reflexivity|]. cbn [Z.of_nat]. rewrite Nat.add_0_l, (size_all decompress chunks F). exact H.
Qed.

(** ** A pass *)
Section Pass.
Context (c : wcfg) (ser : list value -> item) (ds : nat -> nat -> nat -> list value) (data : nat -> list value) (decompress : bytes -> bytes).
Hypothesis det : deterministic ds data.
Hypothesis rd : readable c decompress.

Lemma fill_ok n replicas nw b taken : 1 <= b -> 1 <= nw -> replicas * nw <= n ->
  (forall i, i < n -> Forall plain (data i) /\ 1 <= it_bytes (ser (data i))) ->
  exists procs iss, fill c ser ds n replicas nw b taken = Ok procs /\
    map fst procs = seq 0 (replicas * nw) /\
    Forall2 (fun x is => fst (snd x) = map data is /\ good ser data decompress is (snd (snd x))) procs iss /\
    Forall2 (fun p is => exists batches, full_but_last b batches /\ concat batches = share n replicas nw (p / nw) (p mod nw) /\
      is = concat (match taken (p / nw) (p mod nw) with None => batches | Some k => firstn k batches end)) (seq 0 (replicas * nw)) iss.
Proof.
  intros Hb Hw Hn Hd. unfold fill.
  assert (G : forall l, (forall p, In p l -> p < replicas * nw) -> exists procs iss,
    map_res (run_rank c ser ds n replicas nw b taken) l = Ok procs /\ map fst procs = l /\
    Forall2 (fun x is => fst (snd x) = map data is /\ good ser data decompress is (snd (snd x))) procs iss /\
    Forall2 (fun p is => exists batches, full_but_last b batches /\ concat batches = share n replicas nw (p / nw) (p mod nw) /\
      is = concat (match taken (p / nw) (p mod nw) with None => batches | Some k => firstn k batches end)) l iss).
  { induction l as [|p l IH]; intros Hp; [exists [], []; repeat split; constructor|].
    destruct IH as (procs & iss & E & E1 & E2 & E3); [intros; apply Hp; right; assumption|].
    assert (Hlt : p < replicas * nw) by (apply Hp; left; reflexivity).
    assert (Hr : p / nw < replicas) by (apply Nat.div_lt_upper_bound; lia).
    assert (Hm : p mod nw < nw) by (apply Nat.mod_upper_bound; lia).
    destruct (indices_ok n replicas nw b taken (p / nw) (p mod nw) Hb Hr Hm Hn) as (batches & Ei & Es & Ef).
    set (is := concat (match taken (p / nw) (p mod nw) with None => batches | Some k => firstn k batches end)) in *.
    assert (Hpre : exists rest, share n replicas nw (p / nw) (p mod nw) = is ++ rest).
    { rewrite <- Es. unfold is. destruct (taken (p / nw) (p mod nw)) as [k|]; [|exists []; symmetry; apply app_nil_r].
      exists (concat (skipn k batches)). rewrite <- concat_app, firstn_skipn. reflexivity. }
    destruct Hpre as (rest & Hpre). destruct (share_seq n replicas nw (p / nw) (p mod nw) Hm) as (s & k & Eseq).
    assert (His : is = seq s (length is)).
    { assert (X : firstn (length is) (seq s k) = is) by (rewrite <- Eseq, Hpre, firstn_app, Nat.sub_diag, firstn_all, app_nil_r; reflexivity).
      assert (Y : length is <= k). { rewrite <- (seq_length k s), <- Eseq, Hpre, app_length. lia. }
      rewrite <- X at 1. clear -Y. generalize dependent (length is). intros m. revert s m. induction k as [|k IH]; intros s [|m] Y; cbn; try reflexivity; [lia|].
      f_equal. apply IH. lia. }
    assert (Hin : forall i, In i is -> i < n).
    { intros i Hi. assert (In i (seq 0 n)); [|apply in_seq in H; lia]. rewrite <- (shares_all n replicas nw) by lia.
      apply in_flat_map. exists p. split; [apply in_seq; lia|]. rewrite Hpre. apply in_or_app. left. exact Hi. }
    destruct (run_worker_good c ser ds data det decompress p s (length is) rd) as (w & Ew & Gw).
    { intros i Hi. apply Hd, Hin. rewrite His. apply in_seq. exact Hi. }
    rewrite <- His in Ew, Gw. cbn [map_res]. unfold run_rank at 1. rewrite Ei. cbn [bind]. rewrite Ew. cbn [bind]. rewrite E. cbn [bind].
    exists ((p, (map data is, w)) :: procs), (is :: iss). split; [reflexivity|]. split; [cbn; f_equal; exact E1|].
    split; constructor; try assumption; cbn [fst snd]; [split; [reflexivity|exact Gw]|].
    exists batches. split; [exact Ef|]. split; [exact Es|]. reflexivity. }
  apply G. intros p Hp. apply in_seq in Hp. lia.
Qed.

Definition entry {conf} (k : conf) (x : nat * (list (list value) * wstate)) : nat * index (nat * chunk) conf :=
  (fst x, Index (map (pair (fst x)) (Writer_Model.w_chunks (snd (snd x)))) (Some k)).
Definition chunks_in (procs : list (nat * (list (list value) * wstate))) : list (nat * chunk) :=
  flat_map (fun x => map (pair (fst x)) (Writer_Model.w_chunks (snd (snd x)))) procs.

Lemma dec_short r : r < 10 -> length (dec r) = 1.
Proof. intros H. do 10 (destruct r as [|r]; [reflexivity|]). lia. Qed.

Lemma merge_ok {conf} (same : conf -> conf -> bool) (k : conf) procs iss nprocs files early later :
  (forall a b, same a b = true <-> a = b) ->
  1 <= nprocs <= 10 -> map fst procs = seq 0 nprocs ->
  Forall2 (fun x is => fst (snd x) = map data is /\ good ser data decompress is (snd (snd x))) procs iss ->
  Forall (fun is => is <> []) iss ->
  Permutation files (flat_map (worker_file k) procs) ->
  Forall (fun look => length look < nprocs /\ ~ In index_json (map fst look)) early ->
  merge_wait same nprocs (early ++ files :: later) = Some (Ok [(index_json, Index (chunks_in procs) (Some k))]).
Proof.
  intros Hs Hn Hp F Hne P Fe.
  assert (EF : flat_map (worker_file k) procs = map (fun w => (worker_index (fst w), snd w)) (map (entry k) procs)).
  { clear -F Hne. revert Hne. induction F as [|x is procs iss (_ & Hst & _) _ IH]; intros Hne; [reflexivity|]. inversion Hne as [|? ? H1 H2]; subst.
    cbn [flat_map map]. rewrite IH by exact H2. unfold worker_file, index_file, entry. cbn [i_chunks fst snd].
    destruct (Writer_Model.w_chunks (snd (snd x))) as [|ch chs] eqn:E; [|reflexivity].
    unfold stored in Hst. rewrite E in Hst. destruct is; [congruence|discriminate]. }
  assert (EM : map fst (map (entry k) procs) = seq 0 nprocs) by (rewrite map_map; exact Hp).
  assert (EL : length (map (entry k) procs) = nprocs) by (rewrite <- (map_length fst), EM; apply seq_length).
  pose proof (merge_waited same Hs (map (entry k) procs) early files later k) as M. rewrite EL in M.
  rewrite M; try assumption.
  - do 3 f_equal. f_equal. unfold in_order, chunks_in. rewrite flat_map_concat_map, map_map, <- flat_map_concat_map. reflexivity.
  - unfold by_rank. rewrite EM. apply seq_sorted.
  - unfold same_width. rewrite EM. intros r r' H H'. apply in_seq in H, H'. rewrite !dec_short by lia. reflexivity.
  - unfold listing. rewrite <- EF. exact P.
  - intros E. rewrite E in EL. cbn in EL. lia.
  - apply Forall_forall. intros w Hin. apply in_map_iff in Hin. destruct Hin as (x & <- & _). reflexivity.
Qed.

Lemma chunks_ok procs iss :
  Forall2 (fun x is => fst (snd x) = map data is /\ good ser data decompress is (snd (snd x))) procs iss ->
  small_chunks (chunks_in procs) ->
  Forall (ok_chunk decompress) (chunks_in procs) /\ map it_data (flat_map its (chunks_in procs)) = map (fun i => it_data (ser (data i))) (concat iss).
Proof.
  induction 1 as [|x is procs iss (_ & Hst & Hg) _ IH]; intros S; [split; [constructor|reflexivity]|].
  unfold small_chunks, chunks_in in S. cbn [flat_map] in S. apply Forall_app in S. destruct S as [S1 S2]. destruct (IH S2) as [I1 I2].
  unfold chunks_in. cbn [flat_map]. fold (chunks_in procs). split.
  - apply Forall_app. split; [|exact I1]. apply Forall_forall. intros y Hy. rewrite Forall_forall in S1. specialize (S1 y Hy).
    apply in_map_iff in Hy. destruct Hy as (ch & <- & Hin). cbn [snd] in S1. rewrite Forall_forall in Hg. destruct (Hg ch Hin) as (G1 & G2 & G3).
    split; [exact G1|]. split; [exact G2|]. apply G3. exact S1.
  - rewrite flat_map_app, map_app, I2. cbn [concat]. rewrite map_app. f_equal.
    replace (flat_map its (map (pair (fst x)) (Writer_Model.w_chunks (snd (snd x))))) with (stored (snd (snd x))); [rewrite Hst, map_map; reflexivity|].
    unfold stored. rewrite flat_map_concat_map, map_map. reflexivity.
Qed.
Lemma chunks_many procs iss :
  Forall2 (fun x is => fst (snd x) = map data is /\ good ser data decompress is (snd (snd x))) procs iss ->
  Forall (fun is => is <> []) iss -> length procs <= length (chunks_in procs).
Proof.
  induction 1 as [|x is procs iss (_ & Hst & Hg) _ IH]; intros S; [cbn; lia|]. inversion S as [|? ? S1 S2]; subst. specialize (IH S2).
  unfold chunks_in. cbn [flat_map length]. fold (chunks_in procs). rewrite app_length, map_length.
  destruct (Writer_Model.w_chunks (snd (snd x))) eqn:E; [|cbn [length]; lia]. unfold stored in Hst. rewrite E in Hst. destruct is; [congruence|discriminate].
Qed.
End Pass.

(** ** Later passes *)
Lemma map_res_perm {A B} (f : A -> res B) l l' : Permutation l l' -> forall m, map_res f l = Ok m -> exists m', map_res f l' = Ok m' /\ Permutation m m'.
Proof.
  induction 1 as [|x l l' _ IH|x y l|l1 l2 l3 _ IH1 _ IH2]; intros m E.
  - exists m. split; [exact E|reflexivity].
  - cbn [map_res] in *. destruct (f x) as [v|]; [|discriminate]. cbn [bind] in *. destruct (map_res f l) as [r|]; [|discriminate].
    injection E as <-. destruct (IH r eq_refl) as (m' & -> & P). exists (v :: m'). split; [reflexivity|constructor; exact P].
  - cbn [map_res] in *. destruct (f x) as [vx|], (f y) as [vy|]; try discriminate; cbn [bind] in *. destruct (map_res f l) as [r|]; [|discriminate].
    injection E as <-. exists (vx :: vy :: r). split; [reflexivity|apply perm_swap].
  - destruct (IH1 m E) as (m1 & E1 & P1). destruct (IH2 m1 E1) as (m2 & E2 & P2). exists m2. split; [exact E2|]. transitivity m1; assumption.
Qed.
Lemma map_res_app {A B} (f : A -> res B) : forall l1 l2 m, map_res f (l1 ++ l2) = Ok m ->
  exists m1 m2, map_res f l1 = Ok m1 /\ map_res f l2 = Ok m2 /\ m = m1 ++ m2.
Proof.
  induction l1 as [|x l1 IH]; intros l2 m E; [exists [], m; auto|]. cbn [app map_res] in *. destruct (f x) as [v|]; [|discriminate]. cbn [bind] in *.
  destruct (map_res f (l1 ++ l2)) as [r|] eqn:Er; [|discriminate]. injection E as <-. destruct (IH l2 r Er) as (m1 & m2 & -> & -> & ->).
  exists (v :: m1), m2. auto.
Qed.
Lemma map_res_map {A B C} (f : B -> res C) (g : A -> B) l : map_res f (map g l) = map_res (fun x => f (g x)) l.
Proof. induction l as [|x l IH]; [reflexivity|]. cbn. rewrite IH. reflexivity. Qed.
Lemma map_res_app_ok {A B} (f : A -> res B) : forall l1 l2 m1 m2, map_res f l1 = Ok m1 -> map_res f l2 = Ok m2 -> map_res f (l1 ++ l2) = Ok (m1 ++ m2).
Proof.
  induction l1 as [|x l1 IH]; intros l2 m1 m2 E1 E2; [injection E1 as <-; exact E2|]. cbn [app map_res] in *. destruct (f x); [|discriminate]. cbn [bind] in *.
  destruct (map_res f l1) as [r|] eqn:Er; [|discriminate]. injection E1 as <-. rewrite (IH l2 r m2 eq_refl E2). reflexivity.
Qed.

Definition range_of (iv : interval) : nat * nat := (iv_rs iv, iv_re iv).
Lemma read_all decompress chunks : Forall (ok_chunk decompress) chunks ->
  map_res (fun s => read_at decompress chunks (ivs_from 0 (map sz chunks)) (fst s) (snd s)) (all_samples (map range_of (ivs_from 0 (map sz chunks)))) =
    Ok (map it_data (flat_map its chunks)).
Proof.
  intros F. unfold all_samples. rewrite map_length.
  assert (G : forall pre suf, chunks = pre ++ suf ->
    map_res (fun s => read_at decompress chunks (ivs_from 0 (map sz chunks)) (fst s) (snd s))
      (flat_map (fun p => chunk_samples (fst p) (snd p))
         (combine (seq (length pre) (length suf)) (map range_of (ivs_from (sum (map sz pre)) (map sz suf))))) = Ok (map it_data (flat_map its suf))).
  { intros pre suf; revert pre; induction suf as [|x suf IH]; intros pre E; [reflexivity|].
    cbn [length seq map ivs_from combine flat_map]. rewrite map_app. apply map_res_app_ok.
    - assert (Ex : nth_error chunks (length pre) = Some x) by (rewrite E, nth_error_app2, Nat.sub_diag by lia; reflexivity).
      assert (Ei : nth_error (ivs_from 0 (map sz chunks)) (length pre) = Some (Iv (sum (map sz pre)) (sum (map sz pre)) (sum (map sz pre) + sz x) (sum (map sz pre) + sz x))).
      { rewrite E, map_app. cbn [map]. clear. change (sum (map sz pre)) with (0 + sum (map sz pre)). generalize 0 as b.
        induction pre as [|y pre IH]; intros b; cbn [map app ivs_from length nth_error sum fold_right]; [rewrite Nat.add_0_r; reflexivity|].
        rewrite IH. do 2 f_equal; change (fold_right Nat.add 0 (map sz pre)) with (sum (map sz pre)); lia. }
      assert (Hx : ok_chunk decompress x) by (rewrite E in F; apply Forall_app in F; destruct F as [_ F]; inversion F; assumption).
      destruct Hx as (_ & Hz & Hl). unfold chunk_samples, range_of. cbn [fst snd iv_rs iv_re]. replace (sum (map sz pre) + sz x - sum (map sz pre)) with (sz x) by lia.
      rewrite map_res_map. cbn [fst snd]. unfold read_at. rewrite Ex, Ei. cbn [iv_start].
      change (ch_size (snd x)) with (sz x) in Hz. rewrite Hz. clear -Hl. set (b := sum (map sz pre)). clearbody b.
      assert (G : forall done rest, its x = done ++ rest ->
        map_res (fun i => load_item (decompress (ch_file (snd x))) i b) (seq (b + length done) (length rest)) = Ok (map it_data rest)).
      { intros done rest; revert done; induction rest as [|y rest IH]; intros done E; [reflexivity|]. cbn [length seq map_res map].
        rewrite (Hl (length done) y b) by (rewrite E, nth_error_app2, Nat.sub_diag by lia; reflexivity). cbn [bind].
        specialize (IH (done ++ [y])). rewrite app_length in IH. cbn [length] in IH. replace (S (b + length done)) with (b + (length done + 1)) by lia.
        rewrite IH by (rewrite E, <- app_assoc; reflexivity). reflexivity. }
      specialize (G [] (its x) eq_refl). cbn [length] in G. rewrite Nat.add_0_r in G. exact G.
    - specialize (IH (pre ++ [x])). rewrite app_length, map_app, sum_app in IH. cbn [length map sum fold_right] in IH. rewrite Nat.add_1_r, Nat.add_0_r in IH.
      apply IH. rewrite E, <- app_assoc. reflexivity. }
  specialize (G [] chunks eq_refl). cbn [length map sum fold_right] in G.
  replace (length (ivs_from 0 (map sz chunks))) with (length chunks); [exact G|].
  clear. generalize 0 as b. induction chunks as [|x l IH]; intros b; cbn; [reflexivity|]. f_equal. apply IH.
Qed.

Lemma ivs_length : forall sizes b, length (ivs_from b sizes) = length sizes.
Proof. induction sizes as [|n sizes IH]; intros b; cbn; [reflexivity|]. f_equal. apply IH. Qed.
Lemma ivs_pos decompress : forall chunks b, Forall (ok_chunk decompress) chunks -> Forall (fun iv => fst iv < snd iv) (map range_of (ivs_from b (map sz chunks))).
Proof.
  induction chunks as [|x chunks IH]; intros b F; [constructor|]. inversion F as [|? ? (Hne & Hz & _) F']; subst.
  cbn [map ivs_from]. constructor; [|apply IH; exact F']. unfold range_of, sz. cbn. rewrite Hz. destruct (its x); [congruence|cbn; lia].
Qed.

Lemma passes_ok decompress chunks cp sp replicas nw b : Forall (ok_chunk decompress) chunks ->
  Permutation cp (seq 0 (length chunks)) -> (forall rank i n, Permutation (sp rank i n) (seq 0 n)) ->
  1 <= replicas -> replicas <= length chunks -> 1 <= nw -> 1 <= b ->
  exists out, (forall r, r < replicas -> read_pass decompress chunks cp (sp r) replicas r nw b = Ok (out r)) /\
    Permutation (flat_map out (seq 0 replicas)) (map it_data (flat_map its chunks)).
Proof.
  intros F Hcp Hsp Hr Hle Hw Hb. set (ivs := ivs_from 0 (map sz chunks)).
  assert (L : length (map range_of ivs) = length chunks) by (unfold ivs; rewrite map_length, ivs_length, map_length; reflexivity).
  destruct (chunks_all_ok cp sp replicas nw b (map range_of ivs)) as (o & E & P); try assumption.
  { rewrite L. exact Hcp. } { rewrite L. exact Hle. } { apply (ivs_pos decompress). exact F. }
  pose proof (read_all decompress chunks F) as R. fold ivs in R.
  destruct (map_res_perm _ _ _ (Permutation_sym P) _ R) as (m & Em & Pm). clear R.
  assert (G : forall l m, map_res (fun s => read_at decompress chunks ivs (fst s) (snd s)) (map key (concat (flat_map o l))) = Ok m ->
    exists out, (forall r, In r l -> map_res (fun s => read_at decompress chunks ivs (ci_index s) (ci_chunk s)) (concat (o r)) = Ok (out r)) /\ flat_map out l = m).
  { intros l m0 E0. exists (fun r => match map_res (fun s => read_at decompress chunks ivs (ci_index s) (ci_chunk s)) (concat (o r)) with Ok x => x | Err _ => [] end).
    revert m0 E0. induction l as [|r l IH]; intros m0 E0; [injection E0 as <-; split; [intros ? []|reflexivity]|].
    cbn [flat_map] in E0. rewrite concat_app, map_app in E0. apply map_res_app in E0. destruct E0 as (m1 & m2 & E1 & E2 & ->).
    destruct (IH m2 E2) as [H1 H2]. rewrite map_res_map in E1. unfold key in E1. cbn [fst snd] in E1. split.
    - intros r' [<-|Hin]; [rewrite E1; reflexivity|apply H1; exact Hin].
    - cbn [flat_map]. rewrite E1, H2. reflexivity. }
  destruct (G (seq 0 replicas) m Em) as (out & H1 & H2). exists out. split; [|rewrite H2; apply Permutation_sym; exact Pm].
  intros r Hlt. unfold read_pass, cache_intervals, generate_intervals. rewrite intervals_from. change (fun x => ch_size (snd x)) with sz. fold ivs. cbn [bind].
  change (fun iv => (iv_rs iv, iv_re iv)) with range_of.
  replace (if replicas =? 1 then iter_chunks_non_distributed cp (sp r) nw b (map range_of ivs) else iter_chunks_distributed cp (sp r) replicas r nw b (map range_of ivs)) with (Ok (o r)).
  - cbn [bind]. apply H1. apply in_seq. lia.
  - destruct (Nat.eqb_spec replicas 1) as [->|_]; [|symmetry; apply E; exact Hlt]. assert (r = 0) as -> by lia. rewrite non_distributed_is_one_replica. symmetry. apply E. lia.
Qed.
