(** Properties C20, C21, C61: where [dataset[i]] and [dataset[a:b:c]] read. *)
From Verif Require Import Base Assign_Model Assign_Spec Config_Model Config_Spec Config_Proofs Config_Len_Proofs.

Definition ex_index := [Ci 7 10 (Some 35); Ci 3 4 (Some 20); Ci 9 6 None].

(** C20: [dataset[i]] is the i-th sample of the regions in chunk order, ValueError outside. *)
Theorem C20_random_access k original files rois i :
  valid_dataset k original files rois ->
  sample_at k original files rois i =
  match at_index (samples files rois) i with Some x => Ok x | None => Err ValueError end.
Proof.
  intros H. destruct (valid_loads _ _ _ _ H) as (cs & sizes & H1 & H2 & H3 & H4).
  exact (sample_at_spec k original files rois cs sizes i H1 H2 H3 H4).
Qed.
Print Assumptions C20_random_access.

(** C20: when no file is listed twice, different indices read different samples,
    and every sample of the regions is read by one index. *)
Theorem C20_bijection k original files rois :
  valid_dataset k original files rois -> NoDup files ->
  (forall i j s, sample_at k original files rois i = Ok s -> sample_at k original files rois j = Ok s -> i = j) /\
  (forall f p, (exists r, In (f, r) (combine files rois) /\ fst r <= p < snd r) ->
     exists i, (0 <= i < Z.of_nat (sum (map (fun r => snd r - fst r)%nat rois)))%Z /\
               sample_at k original files rois i = Ok (f, p)).
Proof.
  intros H Hn. split.
  - intros i j s Hi Hj. rewrite C20_random_access in Hi, Hj by exact H. unfold at_index in *.
    destruct (Z.ltb_spec i 0); [discriminate|]. destruct (Z.ltb_spec j 0); [discriminate|].
    pose proof (samples_NoDup files rois Hn) as N. rewrite NoDup_nth_error in N.
    destruct (nth_error (samples files rois) (Z.to_nat i)) as [x|] eqn:Ei; [|discriminate].
    destruct (nth_error (samples files rois) (Z.to_nat j)) as [y|] eqn:Ej; [|discriminate].
    assert (Z.to_nat i = Z.to_nat j); [|lia]. apply N; [apply nth_error_Some; congruence|congruence].
  - intros f p (r & Hr & Hp).
    assert (Hin : In (f, p) (samples files rois)).
    { unfold samples. apply in_flat_map. exists (f, r). split; [exact Hr|]. cbn [fst snd].
      apply in_map_iff. exists p. split; [reflexivity|]. apply in_seq. lia. }
    apply In_nth_error in Hin. destruct Hin as (j & Hj). exists (Z.of_nat j).
    destruct H as [H0 H1]. pose proof (Forall2_len _ _ _ H1) as L. split.
    + rewrite <- (samples_length files) by exact L.
      assert (j < length (samples files rois)) by (apply nth_error_Some; congruence). lia.
    + rewrite C20_random_access by (split; assumption). unfold at_index.
      replace (Z.of_nat j <? 0)%Z with false by lia. rewrite Nat2Z.id, Hj. reflexivity.
Qed.
Print Assumptions C20_bijection.

Example C20_case : valid_dataset ByItem ex_index [9; 7; 3] [(2, 4); (0, 0); (1, 4)] /\
  map (sample_at ByItem ex_index [9; 7; 3] [(2, 4); (0, 0); (1, 4)]) [-1; 0; 1; 2; 3; 4; 5]%Z =
  [Err ValueError; Ok (9, 2); Ok (9, 3); Ok (3, 1); Ok (3, 2); Ok (3, 3); Err ValueError].
Proof.
  split; [|vm_compute; reflexivity]. split; [repeat constructor; cbn; intuition discriminate|].
  repeat constructor.
  - exists (Ci 9 6 None), 6. unfold roi_in, ex_index; cbn. intuition lia.
  - exists (Ci 7 10 (Some 35)), 10. unfold roi_in, ex_index; cbn. intuition lia.
  - exists (Ci 3 4 (Some 20)), 4. unfold roi_in, ex_index; cbn. intuition lia.
Qed.

(** C20: a file that is not in the index is refused. *)
Theorem C20_unknown_file k original files rois i :
  ~ incl files (map k_file original) -> sample_at k original files rois i = Err ValueError.
Proof. intros H. unfold sample_at. rewrite load_missing by exact H. reflexivity. Qed.
Print Assumptions C20_unknown_file.

(** C21: the intervals tile the dataset. *)
Theorem C21_intervals_tile sizes rois :
  Forall2 roi_in sizes rois ->
  exists ivs, generate_intervals sizes (Some rois) = Ok ivs /\ length ivs = length sizes /\
    (forall iv, nth_error ivs 0 = Some iv -> iv_start iv = 0) /\
    (forall j iv iv', nth_error ivs j = Some iv -> nth_error ivs (S j) = Some iv' -> iv_start iv' = iv_end iv) /\
    (forall j iv n r, nth_error ivs j = Some iv -> nth_error sizes j = Some n -> nth_error rois j = Some r ->
       iv_end iv = iv_start iv + n /\ iv_rs iv = iv_start iv + fst r /\ iv_re iv = iv_start iv + snd r /\
       iv_wf iv).
Proof.
  intros H. pose proof (Forall2_len _ _ _ H) as L.
  destruct (intervals_loop_some sizes 0 0 rois ltac:(lia)) as (ivs & E & Li & Hj).
  exists ivs. split; [exact E|]. split; [exact Li|].
  assert (G : forall j iv, nth_error ivs j = Some iv -> exists n r, nth_error sizes j = Some n /\
     nth_error rois j = Some r /\ iv = Iv (sum (firstn j sizes)) (sum (firstn j sizes) + fst r)
                                   (sum (firstn j sizes) + snd r) (sum (firstn j sizes) + n)).
  { intros j iv Hiv. assert (Hlt : j < length ivs) by (apply nth_error_Some; congruence).
    destruct (nth_error sizes j) as [n|] eqn:En; [|apply nth_error_None in En; lia].
    destruct (nth_error rois j) as [r|] eqn:Er; [|apply nth_error_None in Er; lia].
    exists n, r. repeat split. specialize (Hj j n r En Er). cbn [Nat.add] in Hj. congruence. }
  split; [|split].
  - intros iv Hiv. destruct (G 0 iv Hiv) as (n & r & _ & _ & ->). reflexivity.
  - intros j iv iv' H1 H2. destruct (G j iv H1) as (n & r & En & _ & ->).
    destruct (G (S j) iv' H2) as (n' & r' & _ & _ & ->). cbn [iv_start iv_end].
    clear - En. revert sizes En; induction j as [|j IH]; intros [|x sizes] En; try discriminate.
    + injection En as ->. cbn. lia.
    + cbn [nth_error] in En. cbn [firstn sum] in *. specialize (IH sizes En).
      lia.
  - intros j iv n r H1 En Er. destruct (G j iv H1) as (n' & r' & En' & Er' & ->).
    rewrite En in En'. rewrite Er in Er'. injection En' as <-. injection Er' as <-.
    unfold iv_wf; cbn [iv_start iv_end iv_rs iv_re].
    assert (Hr : roi_in n r).
    { clear - H En Er. revert j En Er; induction H as [|n0 r0 l1 l2 Hr _ IH]; intros [|j] En Er; try discriminate.
      - injection En as ->. injection Er as ->. exact Hr.
      - exact (IH j En Er). }
    destruct Hr as [R1 R2]. lia.
Qed.
Print Assumptions C21_intervals_tile.

Example C21_case : Forall2 roi_in [10; 4; 6] [(0, 10); (1, 3); (2, 2)] /\
  generate_intervals [10; 4; 6] (Some [(0, 10); (1, 3); (2, 2)]) =
  Ok [Iv 0 0 10 10; Iv 10 11 13 14; Iv 14 16 16 20].
Proof. split; [repeat constructor; unfold roi_in; cbn; lia|reflexivity]. Qed.

(** C21: without regions every chunk is covered entirely, and the default regions
    say the same thing. *)
Theorem C21_default_regions k cs sizes :
  sizes_of k cs = Ok sizes ->
  exists rois, generate_roi k cs = Ok rois /\
    generate_intervals sizes None = generate_intervals sizes (Some rois) /\
    Forall2 (fun n r => r = (0, n)) sizes rois /\
    exists ivs, generate_intervals sizes None = Ok ivs /\
      Forall (fun iv => iv_rs iv = iv_start iv /\ iv_re iv = iv_end iv) ivs /\
      sum (map iv_size ivs) = sum sizes.
Proof.
  intros H. exists (map (fun n => (0, n)) sizes). unfold generate_roi. rewrite H. cbn [bind].
  split; [reflexivity|].
  assert (F : Forall2 (fun n r => r = (0, n)) sizes (map (fun n : nat => (0, n)) sizes)).
  { clear H. induction sizes as [|n l IH]; cbn; constructor; auto. }
  destruct (intervals_loop_none sizes 0 0) as (ivs & E & L & Hj).
  destruct (intervals_loop_some sizes 0 0 (map (fun n => (0, n)) sizes)) as (ivs' & E' & L' & Hj');
    [rewrite map_length; lia|].
  assert (ivs = ivs').
  { apply nth_error_ext. intros j. destruct (nth_error sizes j) as [n|] eqn:En.
    - rewrite (Hj j n En). rewrite (Hj' j n (0, n) En) by (rewrite nth_error_map; cbn [Nat.add]; rewrite En; reflexivity).
      cbn [fst snd]. rewrite Nat.add_0_r. reflexivity.
    - apply nth_error_None in En. rewrite !(proj2 (nth_error_None _ _)) by lia. reflexivity. }
  subst ivs'. split; [unfold generate_intervals; congruence|]. split; [exact F|].
  exists ivs. split; [exact E|].
  assert (G : forall j iv, nth_error ivs j = Some iv -> exists n, nth_error sizes j = Some n /\
     iv = Iv (0 + sum (firstn j sizes)) (0 + sum (firstn j sizes)) (0 + sum (firstn j sizes) + n) (0 + sum (firstn j sizes) + n)).
  { intros j iv Hiv. assert (Hlt : j < length ivs) by (apply nth_error_Some; congruence).
    destruct (nth_error sizes j) as [n|] eqn:En; [|apply nth_error_None in En; lia].
    exists n. split; [reflexivity|]. specialize (Hj j n En). congruence. }
  split.
  - apply Forall_forall. intros iv Hin. apply In_nth_error in Hin. destruct Hin as (j & Hin).
    destruct (G j iv Hin) as (n & _ & ->). split; reflexivity.
  - f_equal. apply nth_error_ext. intros j. rewrite nth_error_map.
    destruct (nth_error ivs j) as [iv|] eqn:Ei.
    + destruct (G j iv Ei) as (n & En & ->). rewrite En. cbn [option_map]. unfold iv_size; cbn [iv_rs iv_re].
      f_equal. lia.
    + apply nth_error_None in Ei. symmetry. apply nth_error_None. lia.
Qed.
Print Assumptions C21_default_regions.

Example C21_default_case : sizes_of (ByBlock 8) [Ci 1 9 (Some 35); Ci 2 9 (Some 7); Ci 3 1 (Some 64)] = Ok [4; 0; 8] /\
  generate_roi (ByBlock 8) [Ci 1 9 (Some 35); Ci 2 9 (Some 7); Ci 3 1 (Some 64)] = Ok [(0, 4); (0, 0); (0, 8)].
Proof. split; reflexivity. Qed.

(** C21: with a token loader a chunk has as many samples as whole blocks fit into it. *)
Theorem C21_whole_blocks b c n d :
  k_dim c = Some d -> num_samples (ByBlock b) c = Ok n -> n * b <= d < (n + 1) * b.
Proof.
  intros Hd. cbn [num_samples]. destruct (Nat.eqb_spec b 0); [discriminate|]. rewrite Hd.
  intros E; injection E as <-. pose proof (Nat.div_mod d b ltac:(lia)). pose proof (Nat.mod_upper_bound d b ltac:(lia)). nia.
Qed.
Print Assumptions C21_whole_blocks.

(** C21: a region list that is too short is refused. *)
Theorem C21_short_regions sizes rois :
  length rois < length sizes -> generate_intervals sizes (Some rois) = Err IndexError.
Proof. intros H. apply intervals_loop_short; lia. Qed.
Print Assumptions C21_short_regions.

(** C61: a slice never raises (for a step other than 0) and reads samples of the dataset;
    with in-range bounds it is the textbook slice. *)
Theorem C61_slice_total k original files rois len a b c :
  valid_dataset k original files rois -> len <= length (samples files rois) -> c <> Some 0%Z ->
  exists l, slice_at k original files rois len a b c = Ok l /\ incl l (firstn len (samples files rois)).
Proof.
  intros H Hl Hc. destruct (valid_loads _ _ _ _ H) as (cs & sizes & H1 & H2 & H3 & H4).
  assert (exists idx, slice_indices len a b c = Ok idx) as (idx & Ei).
  { unfold slice_indices. destruct (Z.eqb_spec (match c with None => 1%Z | Some s => s end) 0) as [e|n]; [|eauto].
    destruct c; [congruence|discriminate]. }
  exists (map (zget (samples files rois)) idx). split.
  - apply (slice_at_spec k original files rois cs sizes len a b c idx); assumption.
  - pose proof (slice_indices_range _ _ _ _ _ Ei) as R. intros x Hx. apply in_map_iff in Hx.
    destruct Hx as (i & <- & Hi). rewrite Forall_forall in R. specialize (R i Hi). unfold zget.
    rewrite <- (firstn_skipn len (samples files rois)) at 1.
    rewrite app_nth1 by (rewrite firstn_length; lia). apply nth_In. rewrite firstn_length; lia.
Qed.
Print Assumptions C61_slice_total.

Theorem C61_slice_in_range k original files rois len a b s :
  valid_dataset k original files rois -> len <= length (samples files rois) -> a <= len -> b <= len -> 1 <= s ->
  slice_at k original files rois len (Some (Z.of_nat a)) (Some (Z.of_nat b)) (Some (Z.of_nat s)) =
  Ok (slice_of a b s (samples files rois)).
Proof.
  intros H Hl Ha Hb Hs. destruct (valid_loads _ _ _ _ H) as (cs & sizes & H1 & H2 & H3 & H4).
  destruct (slice_indices_pos (0, 0) len a b s (samples files rois) Ha Hb Hs Hl) as (idx & Ei & Em).
  rewrite (slice_at_spec k original files rois cs sizes len _ _ _ idx) by assumption. f_equal. exact Em.
Qed.
Print Assumptions C61_slice_in_range.

Example C61_case : slice_of 1 7 2 [10; 11; 12; 13; 14; 15; 16; 17] = [11; 13; 15] /\
  slice_at ByItem ex_index [3; 9] [(0, 4); (2, 4)] 6 (Some (-5)%Z) None (Some 2%Z) = Ok [(3, 1); (3, 3); (9, 3)] /\
  slice_at ByItem ex_index [3; 9] [(0, 4); (2, 4)] 6 None (Some 3%Z) (Some (-1)%Z) = Ok [(9, 3); (9, 2)].
Proof. repeat split; vm_compute; reflexivity. Qed.

(** C61: every slice is the documented Python slice of the list of samples. *)
Theorem C61_slice_documented kd original files rois a b c :
  valid_dataset kd original files rois -> c <> Some 0%Z ->
  let l := samples files rois in
  let n := Z.of_nat (length l) in
  let k := match c with None => 1%Z | Some s => s end in
  let i := slice_from n k a in
  let j := slice_to n k b in
  exists r, slice_at kd original files rois (length l) a b c = Ok r /\
    forall m, (before k (i + Z.of_nat m * k) j ->
                 exists s, at_index l (i + Z.of_nat m * k) = Some s /\ nth_error r m = Some s) /\
              (~ before k (i + Z.of_nat m * k) j -> nth_error r m = None).
Proof.
  intros H Hc l n k i j. destruct (valid_loads _ _ _ _ H) as (cs & sizes & H1 & H2 & H3 & H4).
  assert (exists idx, slice_indices (length l) a b c = Ok idx) as (idx & Ei).
  { unfold slice_indices. fold k. destruct (Z.eqb_spec k 0) as [e|]; [|eauto].
    unfold k in e. destruct c; [congruence|discriminate]. }
  exists (map (zget l) idx). split.
  - apply (slice_at_spec kd original files rois cs sizes (length l) a b c idx); auto.
  - intros m. destruct (slice_documented _ _ _ _ _ Ei m) as [D1 D2]. fold n k in D1, D2. fold i j in D1, D2.
    rewrite nth_error_map. split; intros Hb.
    + specialize (D1 Hb). rewrite D1. cbn [option_map].
      pose proof (slice_indices_range _ _ _ _ _ Ei) as R. rewrite Forall_forall in R.
      specialize (R _ (nth_error_In _ _ D1)). exists (zget l (i + Z.of_nat m * k)). split; [|reflexivity].
      unfold at_index, zget. replace (i + Z.of_nat m * k <? 0)%Z with false by lia.
      apply nth_error_nth'. lia.
    + rewrite (D2 Hb). reflexivity.
Qed.
Print Assumptions C61_slice_documented.

(** C61: in a single-process run [dataset[:]] is the whole dataset. *)
Theorem C61_full_slice rng shuffle seed nw B epoch k original files rois :
  rng_ok rng -> 1 <= nw -> 1 <= B -> valid_dataset k original files rois ->
  exists cs sizes ivs L,
    load_subsampled_chunks files original = Ok cs /\ sizes_of k cs = Ok sizes /\
    generate_intervals sizes (Some rois) = Ok ivs /\
    get_len rng shuffle (Env 1 0 1) seed false nw B epoch ivs = Ok L /\
    slice_at k original files rois L None None None = Ok (samples files rois).
Proof.
  intros Hr Hn HB H. destruct (valid_loads _ _ _ _ H) as (cs & sizes & H1 & H2 & H3 & H4).
  pose proof (Forall2_len _ _ _ H4) as L4. destruct H as [H0 H5]. pose proof (Forall2_len _ _ _ H5) as L5.
  destruct (intervals_loop_some sizes 0 0 rois ltac:(lia)) as (ivs & E & _).
  exists cs, sizes, ivs, (length (samples files rois)).
  split; [exact H1|]. split; [exact H3|]. split; [exact E|]. split.
  - rewrite single_len by assumption. f_equal. rewrite samples_length by exact L5.
    rewrite (intervals_size_some sizes 0 0 rois ivs ltac:(lia) E). reflexivity.
  - set (l := samples files rois).
    change (slice_at k original files rois (length l) None None None)
      with (slice_at k original files rois (length l) None None (Some (Z.of_nat 1))).
    transitivity (slice_at k original files rois (length l) (Some (Z.of_nat 0)) (Some (Z.of_nat (length l))) (Some (Z.of_nat 1))).
    + unfold slice_at. f_equal. unfold slice_indices. cbn [slice_bound].
      replace (Z.of_nat 1 =? 0)%Z with false by reflexivity. replace (Z.of_nat 1 <? 0)%Z with false by reflexivity.
      replace (Z.of_nat (length l) <? 0)%Z with false by lia. cbn zeta.
      replace (Z.of_nat (length l) <? 0)%Z with false by lia. rewrite Z.leb_refl.
      replace (Z.of_nat 0 <? 0)%Z with false by reflexivity. cbn zeta.
      replace (Z.of_nat 0 <? 0)%Z with false by reflexivity.
      destruct (Z.leb_spec (Z.of_nat (length l)) (Z.of_nat 0)); [|reflexivity].
      replace (length l) with 0 by lia. reflexivity.
    + rewrite C61_slice_in_range; [|split; assumption|fold l; lia|lia|lia|lia]. f_equal.
      fold l. unfold slice_of. rewrite firstn_all. cbn [skipn].
      clear. induction l as [|x l IH]; [reflexivity|]. cbn. f_equal. exact IH.
Qed.
Print Assumptions C61_full_slice.

(** C62 (violated): the bounds of a slice are relative to the length of the rank,
    but the indices address the whole dataset: with two ranks both read the
    first half and nobody reads the second. *)
Theorem C62_slice_per_rank_refuted :
  exists original files rois ivs,
    valid_dataset ByItem original files rois /\ generate_intervals (map k_size original) (Some rois) = Ok ivs /\
    forall rank, rank < 2 -> exists L, get_len (fun _ n => seq 0 n) false (Env 2 rank 1) 42 false 1 1 1 ivs = Ok L /\
      slice_at ByItem original files rois L None None None = Ok [(5, 0); (5, 1)] /\
      samples files rois = [(5, 0); (5, 1); (6, 0); (6, 1)].
Proof.
  exists [Ci 5 2 None; Ci 6 2 None], [5; 6], [(0, 2); (0, 2)]. eexists. split; [|split; [reflexivity|]].
  - split; [repeat constructor; cbn; intuition discriminate|]. repeat constructor.
    + exists (Ci 5 2 None), 2. unfold roi_in; cbn. intuition lia.
    + exists (Ci 6 2 None), 2. unfold roi_in; cbn. intuition lia.
  - intros [|[|r]] Hr; [| |lia]; exists 2; vm_compute; repeat split; reflexivity.
Qed.
Print Assumptions C62_slice_per_rank_refuted.
