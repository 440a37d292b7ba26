From Verif Require Import Base Assign_Model Config_Model Config_Spec.
Local Ltac Zify.zify_post_hook ::= idtac.

(** The (index to read, chunk index) pairs of the regions, in order. *)
Fixpoint addresses (k : nat) (ivs : list interval) : list (nat * nat) :=
  match ivs with
  | [] => []
  | iv :: ivs' => map (fun i => (i, k)) (seq (iv_rs iv) (iv_re iv - iv_rs iv)) ++ addresses (S k) ivs'
  end.

Lemma search_ok ivs : forall k s i,
  (0 <= i)%Z ->
  search k (zero_based s ivs) ivs (Z.of_nat s + i) =
  match nth_error (addresses k ivs) (Z.to_nat i) with Some x => Ok x | None => Err ValueError end.
Proof.
  induction ivs as [|iv ivs IH]; intros k s i Hi; cbn [zero_based search addresses].
  - destruct (Z.to_nat i); reflexivity.
  - cbn [fst snd]. set (d := iv_re iv - iv_rs iv).
    destruct (Z.lt_ge_cases i (Z.of_nat d)) as [H|H].
    + replace ((Z.of_nat s <=? Z.of_nat s + i)%Z && (Z.of_nat s + i <? Z.of_nat (s + d))%Z) with true by lia.
      rewrite nth_error_app1 by (rewrite map_length, seq_length; lia).
      rewrite nth_error_map, nth_error_seq by lia. cbn [option_map].
      repeat f_equal; lia.
    + replace ((Z.of_nat s <=? Z.of_nat s + i)%Z && (Z.of_nat s + i <? Z.of_nat (s + d))%Z) with false by lia.
      rewrite nth_error_app2 by (rewrite map_length, seq_length; lia).
      rewrite map_length, seq_length.
      replace (Z.of_nat s + i)%Z with (Z.of_nat (s + d) + (i - Z.of_nat d))%Z by lia.
      rewrite IH by lia. fold d. replace (Z.to_nat (i - Z.of_nat d)) with (Z.to_nat i - d) by lia. reflexivity.
Qed.

Lemma search_neg ivs : forall k s i, (i < 0)%Z -> search k (zero_based s ivs) ivs i = Err ValueError.
Proof.
  induction ivs as [|iv ivs IH]; intros k s i Hi; cbn [zero_based search]; [reflexivity|].
  cbn [fst snd]. replace (Z.of_nat s <=? i)%Z with false by lia. cbn [andb]. apply IH; exact Hi.
Qed.

Lemma get_chunk_index_spec ivs i :
  get_chunk_index ivs i =
  match at_index (addresses 0 ivs) i with Some x => Ok x | None => Err ValueError end.
Proof.
  unfold get_chunk_index, at_index. destruct (Z.ltb_spec i 0).
  - apply search_neg; assumption.
  - rewrite <- (search_ok ivs 0 0 i) by assumption. f_equal.
Qed.

Lemma intervals_loop_none : forall sizes idx b, exists ivs,
  intervals_loop idx b sizes None = Ok ivs /\ length ivs = length sizes /\
  forall j n, nth_error sizes j = Some n ->
    nth_error ivs j = Some (Iv (b + sum (firstn j sizes)) (b + sum (firstn j sizes))
                               (b + sum (firstn j sizes) + n) (b + sum (firstn j sizes) + n)).
Proof.
  induction sizes as [|n sizes IH]; intros idx b; cbn [intervals_loop].
  - exists []. repeat split; auto. intros [|j] n H; discriminate.
  - destruct (IH (S idx) (b + n)) as (ivs & E & L & H). cbn [bind]. rewrite E. cbn [bind].
    eexists; split; [reflexivity|]. split; [cbn; lia|].
    intros [|j] m Hm; cbn [nth_error firstn sum fst snd] in *.
    + injection Hm as <-. rewrite Nat.add_0_r. reflexivity.
    + rewrite (H j m Hm). rewrite !Nat.add_assoc. reflexivity.
Qed.

Lemma intervals_loop_some : forall sizes idx b rs, length sizes + idx <= length rs -> exists ivs,
  intervals_loop idx b sizes (Some rs) = Ok ivs /\ length ivs = length sizes /\
  forall j n r, nth_error sizes j = Some n -> nth_error rs (idx + j) = Some r ->
    nth_error ivs j = Some (Iv (b + sum (firstn j sizes)) (b + sum (firstn j sizes) + fst r)
                               (b + sum (firstn j sizes) + snd r) (b + sum (firstn j sizes) + n)).
Proof.
  induction sizes as [|n sizes IH]; intros idx b rs Hl; cbn [intervals_loop].
  - exists []. repeat split; auto. intros [|j] n r H; discriminate.
  - cbn [length] in Hl.
    destruct (nth_error rs idx) as [r0|] eqn:E0; [|apply nth_error_None in E0; lia].
    destruct (IH (S idx) (b + n) rs ltac:(lia)) as (ivs & E & L & H). cbn [bind]. rewrite E. cbn [bind].
    eexists; split; [reflexivity|]. split; [cbn; lia|].
    intros [|j] m r Hm Hr; cbn [nth_error firstn sum fst snd] in *.
    + injection Hm as <-. rewrite Nat.add_0_r in Hr. rewrite E0 in Hr; injection Hr as ->.
      rewrite Nat.add_0_r. reflexivity.
    + replace (idx + S j) with (S idx + j) in Hr by lia.
      rewrite (H j m r Hm Hr). rewrite !Nat.add_assoc. reflexivity.
Qed.

Lemma intervals_loop_short : forall sizes idx b rs,
  idx <= length rs -> length rs < length sizes + idx -> intervals_loop idx b sizes (Some rs) = Err IndexError.
Proof.
  induction sizes as [|n sizes IH]; intros idx b rs Hi Hl; cbn [intervals_loop length] in *; [lia|].
  destruct (nth_error rs idx) as [r0|] eqn:E0; [|reflexivity].
  cbn [bind]. rewrite IH; [reflexivity| |lia]. apply nth_error_Some. congruence.
Qed.

(** Walking along the chunks: addresses of the generated intervals. *)
Lemma addresses_intervals : forall files sizes idx b rs ivs k,
  length files = length sizes -> length rs = length sizes + idx ->
  Forall2 roi_in sizes (skipn idx rs) ->
  intervals_loop idx b sizes (Some rs) = Ok ivs ->
  forall i ri c, nth_error (addresses k ivs) i = Some (ri, c) ->
  exists f iv, nth_error files (c - k) = Some f /\ k <= c /\ nth_error ivs (c - k) = Some iv /\
     nth_error (samples files (skipn idx rs)) i = Some (f, ri - iv_start iv).
Proof.
  induction files as [|f files IH]; intros [|n sizes] idx b rs ivs k Hf Hr Hin E i ri c Hi; try discriminate.
  - cbn in E. injection E as <-. destruct i; discriminate.
  - cbn [length] in *. cbn [intervals_loop] in E.
    destruct (nth_error rs idx) as [r|] eqn:E0; [|discriminate]. cbn [bind] in E.
    destruct (intervals_loop (S idx) (b + n) sizes (Some rs)) as [ivs'|] eqn:E'; [|discriminate].
    cbn [bind fst snd] in E. injection E as <-.
    rewrite (skipn_nth_cons _ _ _ E0) in *. inversion Hin as [|? ? ? ? Hr0 Hin']; subst.
    cbn [addresses iv_rs iv_re] in Hi.
    unfold samples; cbn [combine flat_map fst snd].
    replace (b + snd r - (b + fst r)) with (snd r - fst r) in Hi by lia.
    destruct (Nat.lt_ge_cases i (snd r - fst r)) as [Hlt|Hge].
    + rewrite nth_error_app1 in Hi by (rewrite map_length, seq_length; lia).
      rewrite nth_error_map, nth_error_seq in Hi by lia. cbn [option_map] in Hi. injection Hi as <- <-.
      exists f. eexists. rewrite Nat.sub_diag. cbn [nth_error]. split; [reflexivity|]. split; [lia|].
      split; [reflexivity|].
      rewrite nth_error_app1 by (rewrite map_length, seq_length; lia).
      rewrite nth_error_map, nth_error_seq by lia. cbn [option_map iv_start].
      replace (b + fst r + i - b) with (fst r + i) by lia. reflexivity.
    + rewrite nth_error_app2 in Hi by (rewrite map_length, seq_length; lia).
      rewrite map_length, seq_length in Hi.
      destruct (IH sizes (S idx) (b + n) rs ivs' (S k)) with (i := i - (snd r - fst r)) (ri := ri) (c := c)
        as (f' & iv & H1 & H2 & H3 & H4); auto; try lia.
      exists f', iv. replace (c - k) with (S (c - S k)) by lia. cbn [nth_error].
      split; [exact H1|]. split; [lia|]. split; [exact H3|].
      rewrite nth_error_app2 by (rewrite map_length, seq_length; lia).
      rewrite map_length, seq_length. exact H4.
Qed.

Lemma addresses_length : forall files sizes idx b rs ivs k,
  length files = length sizes -> length rs = length sizes + idx ->
  intervals_loop idx b sizes (Some rs) = Ok ivs ->
  length (addresses k ivs) = length (samples files (skipn idx rs)).
Proof.
  induction files as [|f files IH]; intros [|n sizes] idx b rs ivs k Hf Hr E; try discriminate.
  - cbn in E. injection E as <-. reflexivity.
  - cbn [length] in *. cbn [intervals_loop] in E.
    destruct (nth_error rs idx) as [r|] eqn:E0; [|discriminate]. cbn [bind] in E.
    destruct (intervals_loop (S idx) (b + n) sizes (Some rs)) as [ivs'|] eqn:E'; [|discriminate].
    cbn [bind fst snd] in E. injection E as <-.
    rewrite (skipn_nth_cons _ _ _ E0) in *.
    cbn [addresses iv_rs iv_re]. unfold samples; cbn [combine flat_map fst snd].
    rewrite !app_length, !map_length, !seq_length.
    rewrite (IH sizes (S idx) (b + n) rs ivs' (S k)) by (auto; lia). unfold samples. lia.
Qed.

(** ** [load_subsampled_chunks] *)
Lemma fill_slots_length files slots c : length slots = length files -> length (fill_slots files slots c) = length files.
Proof. intros H; unfold fill_slots. rewrite map_length, combine_length; lia. Qed.

Definition last_named (f : nat) (cs : list cinfo) (init : option cinfo) : option cinfo :=
  fold_left (fun s c => if f =? k_file c then Some c else s) cs init.

Lemma fold_slots : forall original files slots, length slots = length files ->
  fold_left (fill_slots files) original slots =
  map (fun fs => last_named (fst fs) original (snd fs)) (combine files slots).
Proof.
  induction original as [|c original IH]; intros files slots H; cbn [fold_left].
  - revert slots H; induction files as [|f files IH]; intros [|s slots] H; try discriminate; [reflexivity|].
    cbn. f_equal. apply IH. cbn in H; lia.
  - rewrite IH by (apply fill_slots_length; exact H). unfold fill_slots.
    clear IH. revert slots H; induction files as [|f files IH]; intros [|s slots] H; try discriminate; [reflexivity|].
    cbn [combine map]. f_equal. apply IH. cbn in H; lia.
Qed.

Lemma last_named_in f : forall cs init c,
  last_named f cs init = Some c -> (In c cs /\ k_file c = f) \/ (init = Some c /\ ~ In f (map k_file cs)).
Proof.
  induction cs as [|x cs IH]; intros init c H; cbn in H.
  - right. split; [exact H|]. intros [].
  - destruct (Nat.eqb_spec f (k_file x)).
    + apply IH in H. destruct H as [[H1 H2]|[H1 H2]]; [left; split; [right; exact H1|exact H2]|].
      injection H1 as ->. left; split; [left; reflexivity|auto].
    + apply IH in H. destruct H as [[H1 H2]|[H1 H2]]; [left; split; [right; exact H1|exact H2]|].
      right; split; [exact H1|]. cbn. intros [A|A]; [congruence|contradiction].
Qed.

Lemma last_named_none f : forall cs, ~ In f (map k_file cs) <-> last_named f cs None = None.
Proof.
  assert (G : forall cs s, last_named f cs (Some s) <> None).
  { induction cs as [|x cs IH]; intros s; cbn; [discriminate|]. destruct (f =? k_file x); apply IH. }
  induction cs as [|x cs IH]; cbn; [tauto|].
  destruct (Nat.eqb_spec f (k_file x)) as [e|n].
  - split; [intros H; exfalso; apply H; left; auto|]. intros H; exfalso. exact (G _ _ H).
  - fold (last_named f cs None). rewrite <- IH. split; [tauto|]. intros H [A|A]; [congruence|tauto].
Qed.

Lemma load_ok files original : incl files (map k_file original) ->
  exists cs, load_subsampled_chunks files original = Ok cs /\ map k_file cs = files /\ incl cs original.
Proof.
  unfold load_subsampled_chunks. rewrite fold_slots by (rewrite map_length; reflexivity).
  induction files as [|f files IH]; intros H.
  - exists []. repeat split; auto. intros x [].
  - cbn [map combine fst snd all_filled].
    destruct (last_named f original None) as [c|] eqn:E.
    + destruct IH as (cs & E' & M & I); [intros x Hx; apply H; right; exact Hx|].
      rewrite E'. cbn [bind]. exists (c :: cs).
      apply last_named_in in E. destruct E as [[H1 H2]|[H1 _]]; [|discriminate].
      split; [reflexivity|]. split; [cbn; congruence|].
      intros x [<-|Hx]; auto.
    + apply last_named_none in E. exfalso; apply E, H. left; reflexivity.
Qed.

Lemma load_missing files original : ~ incl files (map k_file original) ->
  load_subsampled_chunks files original = Err ValueError.
Proof.
  unfold load_subsampled_chunks. rewrite fold_slots by (rewrite map_length; reflexivity).
  induction files as [|f files IH]; intros H.
  - exfalso; apply H. intros x [].
  - cbn [map combine fst snd all_filled].
    destruct (last_named f original None) as [c|] eqn:E; [|reflexivity].
    rewrite IH; [reflexivity|]. intros I; apply H. intros x [<-|Hx]; [|auto].
    destruct (in_dec Nat.eq_dec f (map k_file original)) as [J|J]; [exact J|].
    apply last_named_none in J; congruence.
Qed.

Lemma load_each files original cs :
  load_subsampled_chunks files original = Ok cs ->
  Forall2 (fun f c => In c original /\ k_file c = f) files cs.
Proof.
  unfold load_subsampled_chunks. rewrite fold_slots by (rewrite map_length; reflexivity).
  revert cs; induction files as [|f files IH]; intros cs H; cbn [map combine fst snd all_filled] in H.
  - injection H as <-. constructor.
  - destruct (last_named f original None) as [c|] eqn:E; [|discriminate].
    destruct (all_filled _) as [l|] eqn:E' in H; [|discriminate]. cbn [bind] in H. injection H as <-.
    constructor; [|apply IH; exact E'].
    apply last_named_in in E. destruct E as [E|[E _]]; [exact E|discriminate].
Qed.

Lemma sizes_length k : forall cs ns, sizes_of k cs = Ok ns -> length ns = length cs.
Proof.
  induction cs as [|c cs IH]; intros ns H; cbn [sizes_of] in H.
  - injection H as <-. reflexivity.
  - destruct (num_samples k c) as [n|]; [|discriminate]. cbn [bind] in H.
    destruct (sizes_of k cs) as [l|]; [|discriminate]. cbn [bind] in H. injection H as <-.
    cbn; f_equal; auto.
Qed.

Lemma Forall2_len {A B} (R : A -> B -> Prop) l1 l2 : Forall2 R l1 l2 -> length l1 = length l2.
Proof. induction 1; cbn; congruence. Qed.

(** ** [dataset[i]] *)
Lemma sample_at_spec k original files rois cs sizes i :
  load_subsampled_chunks files original = Ok cs ->
  map k_file cs = files -> sizes_of k cs = Ok sizes -> Forall2 roi_in sizes rois ->
  sample_at k original files rois i =
  match at_index (samples files rois) i with Some x => Ok x | None => Err ValueError end.
Proof.
  intros Hl Hf Hs Hr. unfold sample_at. rewrite Hl. cbn [bind]. rewrite Hs. cbn [bind].
  pose proof (sizes_length _ _ _ Hs) as Ls. pose proof (Forall2_len _ _ _ Hr) as Lr.
  assert (Lf : length files = length cs) by (subst files; apply map_length).
  unfold generate_intervals.
  destruct (intervals_loop_some sizes 0 0 rois ltac:(lia)) as (ivs & E & Li & Hiv).
  rewrite E. cbn [bind]. rewrite get_chunk_index_spec.
  pose proof (addresses_length files sizes 0 0 rois ivs 0 ltac:(lia) ltac:(lia) E) as La.
  unfold at_index. destruct (Z.ltb_spec i 0); [reflexivity|].
  destruct (nth_error (addresses 0 ivs) (Z.to_nat i)) as [[ri c]|] eqn:Ea.
  - pose proof (addresses_intervals files sizes 0 0 rois ivs 0 ltac:(lia) ltac:(lia) Hr E _ _ _ Ea)
      as (f & iv & H1 & _ & H2 & H3).
    rewrite Nat.sub_0_r in *. cbn [bind snd fst skipn] in *. rewrite H3, H2.
    subst files. rewrite nth_error_map in H1. destruct (nth_error cs c); [|discriminate].
    cbn [option_map] in H1. injection H1 as ->. reflexivity.
  - cbn [bind]. apply nth_error_None in Ea. cbn [skipn] in La. rewrite La in Ea.
    apply nth_error_None in Ea. rewrite Ea. reflexivity.
Qed.

(** ** Slices *)
Lemma slice_bound_range len st d b : (0 <= len)%Z -> (0 < st)%Z -> (0 <= d <= len)%Z ->
  (0 <= slice_bound len st d b <= len)%Z.
Proof.
  intros Hl Hs Hd. destruct b as [x|]; cbn [slice_bound]; [|exact Hd].
  destruct (Z.ltb_spec x 0), (Z.ltb_spec st 0); cbn zeta; try lia.
  - destruct (Z.ltb_spec (x + len) 0); [lia|]. destruct (Z.leb_spec len (x + len)); lia.
  - destruct (Z.ltb_spec x 0); [lia|]. destruct (Z.leb_spec len x); lia.
Qed.
Lemma slice_bound_range_neg len st d b : (0 <= len)%Z -> (st < 0)%Z -> (-1 <= d <= len - 1)%Z ->
  (-1 <= slice_bound len st d b <= len - 1)%Z.
Proof.
  intros Hl Hs Hd. destruct b as [x|]; cbn [slice_bound]; [|exact Hd].
  destruct (Z.ltb_spec x 0), (Z.ltb_spec st 0); cbn zeta; try lia.
  - destruct (Z.ltb_spec (x + len) 0); [lia|]. destruct (Z.leb_spec len (x + len)); lia.
  - destruct (Z.ltb_spec x 0); [lia|]. destruct (Z.leb_spec len x); lia.
Qed.

Lemma range_in (b e st : Z) k : st <> 0%Z -> k < range_count b e st ->
  if (0 <? st)%Z then (b <= b + Z.of_nat k * st < e)%Z else (e < b + Z.of_nat k * st <= b)%Z.
Proof.
  unfold range_count. intros Hst. destruct (Z.ltb_spec 0 st).
  - destruct (Z.ltb_spec b e); [|lia]. intros Hk.
    pose proof (Z.div_mod (e - b - 1) st ltac:(lia)) as D.
    pose proof (Z.mod_pos_bound (e - b - 1) st ltac:(lia)) as M.
    pose proof (Z.div_pos (e - b - 1) st ltac:(lia) ltac:(lia)) as P.
    assert (Z.of_nat k <= (e - b - 1) / st)%Z by lia. nia.
  - destruct (Z.ltb_spec e b); [|lia]. intros Hk.
    pose proof (Z.div_mod (b - e - 1) (- st) ltac:(lia)) as D.
    pose proof (Z.mod_pos_bound (b - e - 1) (- st) ltac:(lia)) as M.
    pose proof (Z.div_pos (b - e - 1) (- st) ltac:(lia) ltac:(lia)) as P.
    assert (Z.of_nat k <= (b - e - 1) / (- st))%Z by lia. nia.
Qed.

(** No index produced by a slice is out of range, whatever the slice. *)
Lemma slice_indices_range len a b c l :
  slice_indices len a b c = Ok l -> Forall (fun i => (0 <= i < Z.of_nat len)%Z) l.
Proof.
  unfold slice_indices. set (st := match c with None => 1%Z | Some s => s end).
  destruct (Z.eqb_spec st 0); [discriminate|]. intros H; injection H as <-.
  apply Forall_forall. intros x Hx. apply in_map_iff in Hx. destruct Hx as (k & <- & Hk).
  apply in_seq in Hk. destruct Hk as [_ Hk]. cbn [Nat.add] in Hk.
  pose proof (range_in _ _ _ _ n Hk) as R.
  destruct (Z.ltb_spec st 0) as [Hn|Hp].
  - pose proof (slice_bound_range_neg (Z.of_nat len) st (Z.of_nat len - 1) a ltac:(lia) Hn ltac:(lia)) as Ba.
    pose proof (slice_bound_range_neg (Z.of_nat len) st (-1) b ltac:(lia) Hn ltac:(lia)) as Bb.
    replace (0 <? st)%Z with false in R by lia. lia.
  - pose proof (slice_bound_range (Z.of_nat len) st 0 a ltac:(lia) ltac:(lia) ltac:(lia)) as Ba.
    pose proof (slice_bound_range (Z.of_nat len) st (Z.of_nat len) b ltac:(lia) ltac:(lia) ltac:(lia)) as Bb.
    replace (0 <? st)%Z with true in R by lia. lia.
Qed.

Lemma map_res_ok {A B} (f : A -> res B) (g : A -> B) l :
  Forall (fun x => f x = Ok (g x)) l -> map_res f l = Ok (map g l).
Proof. induction 1 as [|x l H _ IH]; [reflexivity|]. cbn [map_res map]. rewrite H. cbn [bind]. rewrite IH. reflexivity. Qed.

Definition zget (l : list (nat * nat)) (i : Z) : nat * nat := nth (Z.to_nat i) l (0, 0).

Lemma slice_at_spec k original files rois cs sizes len a b c idx :
  load_subsampled_chunks files original = Ok cs ->
  map k_file cs = files -> sizes_of k cs = Ok sizes -> Forall2 roi_in sizes rois ->
  len <= length (samples files rois) ->
  slice_indices len a b c = Ok idx ->
  slice_at k original files rois len a b c = Ok (map (zget (samples files rois)) idx).
Proof.
  intros Hl Hf Hs Hr Hlen Hi. unfold slice_at. rewrite Hi. cbn [bind]. apply map_res_ok.
  pose proof (slice_indices_range _ _ _ _ _ Hi) as R.
  eapply Forall_impl; [|exact R]. cbn beta. intros i Hi'.
  rewrite (sample_at_spec k original files rois cs sizes) by assumption.
  unfold at_index, zget. replace (i <? 0)%Z with false by lia.
  rewrite (nth_error_nth' _ (0, 0)) by lia. reflexivity.
Qed.

(** [every s] picks the positions [0, s, 2s, ...]. *)
Lemma every_skip {A} s : forall skip (l : list A), every s skip l = every s 0 (skipn skip l).
Proof.
  induction skip as [|k IH]; intros l; [reflexivity|].
  destruct l as [|x l]; [reflexivity|]. cbn [every skipn]. apply IH.
Qed.

Lemma every_nth {A} s (d : A) : 1 <= s -> forall l,
  every s 0 l = map (fun k => nth (k * s) l d) (seq 0 ((length l + s - 1) / s)).
Proof.
  intros Hs l. induction l as [l IH] using list_len_ind. destruct l as [|x l].
  - cbn [length every]. rewrite Nat.div_small by lia. reflexivity.
  - cbn [every]. rewrite (every_skip s). rewrite IH by (rewrite skipn_length; cbn [length]; lia).
    rewrite skipn_length. cbn [length].
    destruct (Nat.le_gt_cases (length l) (s - 1)) as [Hle|Hgt].
    + replace (length l - (s - 1)) with 0 by lia. rewrite (Nat.div_small (0 + s - 1)) by lia.
      replace ((S (length l) + s - 1) / s) with 1
        by (apply (Nat.div_unique _ s 1 (length l)); lia).
      reflexivity.
    + replace ((S (length l) + s - 1) / s) with (S ((length l - (s - 1) + s - 1) / s)).
      * cbn [seq map Nat.mul nth]. f_equal. rewrite <- seq_shift, map_map. apply map_ext. intros k.
        assert (N : forall (m j : nat) (q : list A), nth j (skipn m q) d = nth (m + j) q d).
        { intros m; induction m as [|m IHm]; intros j [|y q]; cbn [skipn nth Nat.add]; auto.
          destruct j; reflexivity. }
        rewrite N. replace (S k * s) with (S (s - 1 + k * s)) by lia. reflexivity.
      * replace (S (length l) + s - 1) with ((length l - (s - 1) + s - 1) + 1 * s) by lia.
        rewrite Nat.div_add by lia. lia.
Qed.

Lemma nth_skipn_firstn {A} (d : A) b e j l : b + j < e -> e <= length l ->
  nth j (skipn b (firstn e l)) d = nth (b + j) l d.
Proof.
  intros H1 H2.
  assert (N : forall (m j : nat) (q : list A), nth j (skipn m q) d = nth (m + j) q d).
  { intros m; induction m as [|m IHm]; intros j' [|y q]; cbn [skipn nth Nat.add]; auto. destruct j'; reflexivity. }
  rewrite N. clear N. revert H1 H2. generalize (b + j). intros m; revert e l.
  induction m as [|m IH]; intros [|e] [|x l] H1 H2; cbn [firstn nth length] in *; try lia; auto.
  apply IH; lia.
Qed.

(** For in-range bounds and a positive step the slice is the textbook one. *)
Lemma slice_indices_pos {A} (d : A) len a b s (l : list A) :
  a <= len -> b <= len -> 1 <= s -> len <= length l ->
  exists idx, slice_indices len (Some (Z.of_nat a)) (Some (Z.of_nat b)) (Some (Z.of_nat s)) = Ok idx /\
    map (fun i => nth (Z.to_nat i) l d) idx = slice_of a b s l.
Proof.
  intros Ha Hb Hs Hl. unfold slice_indices.
  replace (Z.of_nat s =? 0)%Z with false by lia. replace (Z.of_nat s <? 0)%Z with false by lia.
  assert (B : forall x d, x <= len -> slice_bound (Z.of_nat len) (Z.of_nat s) d (Some (Z.of_nat x)) = Z.of_nat x).
  { intros x d0 Hx. cbn [slice_bound]. replace (Z.of_nat x <? 0)%Z with false by lia. cbn zeta.
    replace (Z.of_nat x <? 0)%Z with false by lia. replace (Z.of_nat s <? 0)%Z with false by lia.
    destruct (Z.leb_spec (Z.of_nat len) (Z.of_nat x)); lia. }
  rewrite !B by assumption. eexists; split; [reflexivity|].
  unfold slice_of. rewrite (every_nth s d) by exact Hs. rewrite map_map.
  assert (Lk : length (skipn a (firstn b l)) = b - a) by (rewrite skipn_length, firstn_length; lia).
  rewrite Lk.
  assert (C : range_count (Z.of_nat a) (Z.of_nat b) (Z.of_nat s) = (b - a + s - 1) / s).
  { unfold range_count. replace (0 <? Z.of_nat s)%Z with true by lia.
    destruct (Z.ltb_spec (Z.of_nat a) (Z.of_nat b)).
    - replace (Z.of_nat b - Z.of_nat a - 1)%Z with (Z.of_nat (b - a - 1)) by lia.
      rewrite <- Nat2Z.inj_div. replace (b - a + s - 1) with ((b - a - 1) + 1 * s) by lia.
      rewrite Nat.div_add by lia. generalize ((b - a - 1) / s); intros q; lia.
    - rewrite Nat.div_small by lia. reflexivity. }
  rewrite C. apply map_ext_in. intros k Hk. apply in_seq in Hk. destruct Hk as [_ Hk]. cbn [Nat.add] in Hk.
  replace (Z.to_nat (Z.of_nat a + Z.of_nat k * Z.of_nat s)) with (a + k * s) by lia.
  symmetry; apply nth_skipn_firstn; [|lia].
  assert (k * s < b - a); [|lia].
  pose proof (Nat.div_mod (b - a + s - 1) s ltac:(lia)) as D.
  pose proof (Nat.mod_upper_bound (b - a + s - 1) s ltac:(lia)) as M.
  nia.
Qed.

(** Negative bounds count from the end; missing bounds mean the whole range. *)
Lemma slice_bound_neg len st d x : (0 < st)%Z -> (- len <= x < 0)%Z ->
  slice_bound len st d (Some x) = slice_bound len st d (Some (x + len)%Z).
Proof.
  intros Hs Hx. cbn [slice_bound]. replace (x <? 0)%Z with true by lia. cbn zeta.
  replace (x + len <? 0)%Z with false by lia. cbn zeta. replace (x + len <? 0)%Z with false by lia. reflexivity.
Qed.

(** ** Gluing: a dataset given by its index, files and regions *)
Lemma named_unique (original : list cinfo) c c' : NoDup (map k_file original) ->
  In c original -> In c' original -> k_file c = k_file c' -> c = c'.
Proof.
  induction original as [|x l IH]; intros Hn H1 H2 E; [contradiction|].
  cbn in Hn. inversion Hn as [|? ? Hx Hl]; subst.
  destruct H1 as [->|H1], H2 as [->|H2]; auto.
  - exfalso; apply Hx. rewrite E. apply in_map; exact H2.
  - exfalso; apply Hx. rewrite <- E. apply in_map; exact H1.
Qed.

Lemma valid_loads k original files rois : valid_dataset k original files rois ->
  exists cs sizes, load_subsampled_chunks files original = Ok cs /\ map k_file cs = files /\
    sizes_of k cs = Ok sizes /\ Forall2 roi_in sizes rois.
Proof.
  intros [Hn Hv].
  destruct (load_ok files original) as (cs & Hl & Hf & _).
  { clear Hn. induction Hv as [|f r files rois (c & n & H1 & H2 & _) _ IH]; [intros x []|].
    intros x [<-|Hx]; [rewrite <- H2; apply in_map; exact H1|apply IH; exact Hx]. }
  exists cs. pose proof (load_each _ _ _ Hl) as He.
  assert (G : exists sizes, sizes_of k cs = Ok sizes /\ Forall2 roi_in sizes rois).
  { clear Hl Hf. revert cs He. induction Hv as [|f r files rois (c & n & H1 & H2 & H3 & H4) _ IH]; intros cs He.
    - inversion He; subst. exists []. split; [reflexivity|constructor].
    - inversion He as [|? c' ? cs' [Hc1 Hc2] He']; subst.
      destruct (IH cs' He') as (sizes & Es & Fs).
      assert (c' = c) as -> by (apply (named_unique original); auto).
      exists (n :: sizes). cbn [sizes_of]. rewrite H3. cbn [bind]. rewrite Es. split; [reflexivity|].
      constructor; assumption. }
  destruct G as (sizes & Es & Fs). eauto.
Qed.

Lemma samples_app f1 r1 f2 r2 : length f1 = length r1 -> samples (f1 ++ f2) (r1 ++ r2) = samples f1 r1 ++ samples f2 r2.
Proof. intros H. unfold samples. rewrite combine_app by exact H. apply flat_map_app. Qed.

Lemma samples_file files rois f i : In (f, i) (samples files rois) -> In f files.
Proof.
  unfold samples. rewrite in_flat_map. intros ([f' r] & H1 & H2). apply in_map_iff in H2.
  destruct H2 as (j & E & _). injection E as <- _. exact (in_combine_l _ _ _ _ H1).
Qed.

Lemma NoDup_app_l {A} (l1 l2 : list A) : NoDup (l1 ++ l2) -> NoDup l1.
Proof.
  induction l1 as [|x l1 IH]; cbn; intros H; [constructor|]. inversion H; subst. constructor; auto.
  intros Hin. apply H2. apply in_or_app. left; exact Hin.
Qed.
Lemma NoDup_app_intro {A} (l1 l2 : list A) :
  NoDup l1 -> NoDup l2 -> (forall x, In x l1 -> ~ In x l2) -> NoDup (l1 ++ l2).
Proof.
  induction l1 as [|x l1 IH]; intros H1 H2 H; [exact H2|]. inversion H1; subst. cbn. constructor.
  - rewrite in_app_iff. intros [A1|A1]; [contradiction|]. apply (H x); [left; reflexivity|exact A1].
  - apply IH; auto. intros y Hy. apply H. right; exact Hy.
Qed.

Lemma samples_NoDup files rois : NoDup files -> NoDup (samples files rois).
Proof.
  revert rois; induction files as [|f files IH]; intros [|r rois] H; cbn; try constructor.
  inversion H as [|? ? Hf Hn]; subst. apply NoDup_app_intro.
  - apply FinFun.Injective_map_NoDup; [intros x y E; injection E; auto|apply seq_NoDup].
  - apply IH; exact Hn.
  - intros [g i] H1 H2. apply in_map_iff in H1. destruct H1 as (j & E & _). injection E as <- _.
    apply Hf. apply (samples_file files rois f i). exact H2.
Qed.

Lemma samples_length files rois : length files = length rois ->
  length (samples files rois) = sum (map (fun r => snd r - fst r) rois).
Proof.
  revert rois; induction files as [|f files IH]; intros [|r rois] H; try discriminate; [reflexivity|].
  unfold samples. cbn [combine flat_map map sum]. rewrite app_length, map_length, seq_length.
  fold (samples files rois). rewrite IH by (cbn in H; lia). reflexivity.
Qed.

Lemma slice_bound_clip len st d x : (0 <= len)%Z -> st <> 0%Z ->
  slice_bound len st d x = bound len (if (0 <? st)%Z then 0 else -1)%Z (if (0 <? st)%Z then len else len - 1)%Z d x.
Proof.
  intros Hl Hs. destruct x as [x|]; [|reflexivity]. cbn [slice_bound bound]. unfold clip. cbn zeta.
  destruct (Z.ltb_spec 0 st), (Z.ltb_spec st 0); try lia; destruct (Z.ltb_spec x 0);
    repeat match goal with |- context [(?a <? ?b)%Z] => destruct (Z.ltb_spec a b) end;
    repeat match goal with |- context [(?a <=? ?b)%Z] => destruct (Z.leb_spec a b) end; lia.
Qed.

Lemma range_count_iff b e st k : st <> 0%Z ->
  (k < range_count b e st <-> before st (b + Z.of_nat k * st) e).
Proof.
  intros Hst. unfold before. split.
  - intros H. pose proof (range_in _ _ _ _ Hst H) as R. destruct (0 <? st)%Z; lia.
  - unfold range_count. destruct (Z.ltb_spec 0 st).
    + intros Hb. assert (b < e)%Z by nia. replace (b <? e)%Z with true by lia.
      assert (Z.of_nat k <= (e - b - 1) / st)%Z; [|lia]. apply Z.div_le_lower_bound; lia.
    + intros Hb. assert (e < b)%Z by nia. replace (e <? b)%Z with true by lia.
      assert (Z.of_nat k <= (b - e - 1) / (- st))%Z; [|lia]. apply Z.div_le_lower_bound; lia.
Qed.

Lemma slice_documented len a b c idx : slice_indices len a b c = Ok idx ->
  let k := match c with None => 1%Z | Some s => s end in
  let i := slice_from (Z.of_nat len) k a in
  let j := slice_to (Z.of_nat len) k b in
  forall m, (before k (i + Z.of_nat m * k) j -> nth_error idx m = Some (i + Z.of_nat m * k)%Z) /\
            (~ before k (i + Z.of_nat m * k) j -> nth_error idx m = None).
Proof.
  intros E k i j m. unfold slice_indices in E. fold k in E.
  destruct (Z.eqb_spec k 0) as [|Hk]; [discriminate|]. injection E as <-.
  rewrite !slice_bound_clip by lia.
  assert (Hi : bound (Z.of_nat len) (if (0 <? k)%Z then 0 else -1)%Z (if (0 <? k)%Z then Z.of_nat len else Z.of_nat len - 1)%Z
                 (if (k <? 0)%Z then Z.of_nat len - 1 else 0)%Z a = i).
  { unfold i, slice_from. destruct (Z.ltb_spec 0 k), (Z.ltb_spec k 0); try lia; reflexivity. }
  assert (Hj : bound (Z.of_nat len) (if (0 <? k)%Z then 0 else -1)%Z (if (0 <? k)%Z then Z.of_nat len else Z.of_nat len - 1)%Z
                 (if (k <? 0)%Z then -1 else Z.of_nat len)%Z b = j).
  { unfold j, slice_to. destruct (Z.ltb_spec 0 k), (Z.ltb_spec k 0); try lia; reflexivity. }
  rewrite Hi, Hj. rewrite <- range_count_iff by exact Hk. rewrite nth_error_map. split; intros H.
  - rewrite nth_error_seq by exact H. reflexivity.
  - rewrite (proj2 (nth_error_None _ _)); [reflexivity|]. rewrite seq_length. lia.
Qed.
