(** Properties C22-C25: subsampling and splitting. *)
From Coq Require Import NArith.
From Verif Require Import Base Assign_Model Config_Model Config_Spec Config_Proofs Subsample_Model Subsample_Proofs.
Definition rev_perm (n : nat) : list nat := rev (seq 0 n).
Definition floor_mul (n : nat) (num den : N) : nat := N.to_nat (N.of_nat n * num / den).
Definition ex_chunks := [Ci 1 10 None; Ci 2 2 None; Ci 3 5 None].

Lemma rev_perm_ok : forall n, Permutation (rev_perm n) (seq 0 n).
Proof. intros n. apply Permutation_sym, Permutation_rev. Qed.

(** C22: with [0 < f < 1] exactly int(n * f) samples are kept; together with the
    left-over ones they are the original samples. *)
Theorem C22_subsample_fraction trunc perm k shuffle num den chunks rois :
  (0 < num < den)%N -> isclose_one num den = false ->
  (forall call n, Permutation (perm call n) (seq 0 n)) ->
  (forall n, trunc n num den <= n) ->
  chunks <> [] -> generate_roi k chunks = Ok rois ->
  let original := samples (map k_file chunks) rois in
  exists files krois left,
    subsample_dataset trunc perm k shuffle num den chunks = Ok (files, krois) /\
    length (samples files krois) = trunc (length original) num den /\
    Permutation (samples files krois ++ left) original /\
    (NoDup (map k_file chunks) -> NoDup (samples files krois)).
Proof.
  intros Hf Hc Hp Ht Hne Hr original. destruct (generate_roi_ok _ _ _ Hr) as [Hl Hw].
  set (tr := fun n a b => if (a =? num)%N then trunc n a b else 0).
  assert (E0 : subsample_dataset trunc perm k shuffle num den chunks = subsample_dataset tr perm k shuffle num den chunks).
  { unfold subsample_dataset. destruct chunks as [|c cs]; [reflexivity|]. rewrite Hr. cbn [bind]. rewrite Hc.
    rewrite N.div_small by lia. cbn [N.to_nat repeat_loop]. replace (den <=? num)%N with false by lia. cbn [bind].
    unfold tr. rewrite N.eqb_refl. reflexivity. }
  destruct (subsample_dataset_ok tr perm k shuffle num den chunks rois) as (files & krois & kept & left & E & L & P & Q & N');
    try assumption; try lia.
  { intros n a _. unfold tr. destruct (N.eqb_spec a num) as [->|]; [apply Ht|lia]. }
  exists files, krois, left. rewrite E0. split; [exact E|].
  rewrite N.div_small in P by lia. cbn [N.to_nat repeat concat app] in P.
  split; [|split].
  - rewrite (Permutation_length P), N', N.mod_small by lia. replace (num =? 0)%N with false by lia.
    unfold tr. rewrite N.eqb_refl. unfold original. rewrite samples_length by (rewrite map_length; exact Hl). reflexivity.
  - etransitivity; [apply Permutation_app_tail; exact P|exact Q].
  - intros Hn. eapply Permutation_NoDup; [apply Permutation_sym; exact P|].
    apply (NoDup_app_l kept left). eapply Permutation_NoDup; [apply Permutation_sym; exact Q|].
    apply samples_NoDup. exact Hn.
Qed.
Print Assumptions C22_subsample_fraction.

Example C22_case : generate_roi ByItem ex_chunks = Ok [(0, 10); (0, 2); (0, 5)] /\ isclose_one 7 10 = false /\
  subsample_dataset floor_mul (fun _ => rev_perm) ByItem true 7 10 ex_chunks = Ok ([3; 2; 1], [(0, 5); (0, 2); (0, 4)]) /\
  subsample_dataset floor_mul (fun _ => rev_perm) ByItem false 7 10 ex_chunks = Ok ([1; 2], [(0, 10); (0, 1)]).
Proof. repeat split; vm_compute; reflexivity. Qed.

(** C22: a fraction that [math.isclose] cannot tell from 1 keeps the dataset as it is. *)
Theorem C22_close_to_one trunc perm k shuffle num den chunks rois :
  isclose_one num den = true -> chunks <> [] -> generate_roi k chunks = Ok rois ->
  subsample_dataset trunc perm k shuffle num den chunks = Ok (map k_file chunks, rois).
Proof.
  intros Hc Hne Hr. unfold subsample_dataset. destruct chunks; [congruence|]. rewrite Hr. cbn [bind].
  rewrite Hc. reflexivity.
Qed.
Print Assumptions C22_close_to_one.

(** The comparison is [|f - 1| <= 1e-9 * max(|f|, 1)]. *)
Theorem C22_close_to_one_iff num den : (0 < den)%N ->
  isclose_one num den = true <->
  (Z.abs (Z.of_N num - Z.of_N den) * 1000000000 <= Z.max (Z.of_N num) (Z.of_N den))%Z.
Proof. intros Hd. unfold isclose_one. rewrite N.leb_le. lia. Qed.
Print Assumptions C22_close_to_one_iff.

Example C22_close_case : isclose_one 1 1 = true /\ isclose_one 9999999999 10000000000 = true /\
  isclose_one 99999999 100000000 = false /\ isclose_one 2 1 = false.
Proof. repeat split. Qed.

(** C22: cutting a list of regions (also arbitrary, not full ones) at [k] samples. *)
Theorem C22_cut chunks rois k :
  length chunks = length rois -> Forall (fun r => fst r <= snd r) rois ->
  k <= length (samples (map k_file chunks) rois) ->
  exists files kept lc lr,
    subsample_filenames_and_roi chunks rois k = Ok (files, kept, (lc, lr)) /\
    length files = length kept /\ length lc = length lr /\ length (samples files kept) = k /\
    samples files kept ++ samples (map k_file lc) lr = samples (map k_file chunks) rois.
Proof.
  intros Hl Hw Hk. rewrite samples_length in Hk by (rewrite map_length; exact Hl).
  destruct (subsample_cut chunks rois k Hl Hw Hk) as (files & kept & lc & lr & E & L1 & L2 & _ & _ & T & _ & S & _).
  exists files, kept, lc, lr. split; [exact E|]. split; [exact L1|]. split; [exact L2|].
  split; [rewrite samples_length by exact L1; exact T|exact S].
Qed.
Print Assumptions C22_cut.

Example C22_cut_case : subsample_filenames_and_roi ex_chunks [(2, 8); (1, 1); (0, 5)] 8 =
  Ok ([1; 2; 3], [(2, 8); (1, 1); (0, 2)], ([Ci 3 5 None], [(2, 5)])) /\
  subsample_filenames_and_roi ex_chunks [(2, 8); (1, 1); (0, 5)] 6 =
  Ok ([1], [(2, 8)], ([Ci 2 2 None; Ci 3 5 None], [(1, 1); (0, 5)])).
Proof. split; vm_compute; reflexivity. Qed.

(** C23: with [f >= 1] the dataset is repeated floor(f) times and the rest is a
    part of it; hence every sample appears floor(f) or floor(f) + 1 times. *)
Theorem C23_oversample trunc perm k shuffle num den chunks rois :
  (0 < den)%N -> (den <= num)%N -> isclose_one num den = false ->
  (forall call n, Permutation (perm call n) (seq 0 n)) ->
  (forall n num', (num' < den)%N -> trunc n num' den <= n) ->
  chunks <> [] -> generate_roi k chunks = Ok rois -> NoDup (map k_file chunks) ->
  let original := samples (map k_file chunks) rois in
  let n := length original in
  let q := N.to_nat (num / den) in
  exists files krois,
    subsample_dataset trunc perm k shuffle num den chunks = Ok (files, krois) /\
    length (samples files krois) =
      q * n + (if (num mod den =? 0)%N then 0 else trunc n (num mod den)%N den) /\
    forall (dec : forall x y : nat * nat, {x = y} + {x <> y}) s,
      (In s original -> count_occ dec (samples files krois) s = q \/ count_occ dec (samples files krois) s = S q) /\
      (~ In s original -> ~ In s (samples files krois)).
Proof.
  intros Hd Hge Hc Hp Ht Hne Hr Hn original n q. destruct (generate_roi_ok _ _ _ Hr) as [Hl Hw].
  destruct (subsample_dataset_ok trunc perm k shuffle num den chunks rois) as (files & krois & kept & left & E & L & P & Q & N');
    try assumption.
  fold original in P, Q. fold q in P.
  assert (Hsn : length original = sum (map roi_size rois))
    by (unfold original; rewrite samples_length by (rewrite map_length; exact Hl); reflexivity).
  assert (LR : forall m, length (concat (repeat original m)) = m * length original).
  { induction m as [|m IH]; [reflexivity|]. cbn [repeat concat]. rewrite app_length, IH. lia. }
  exists files, krois. split; [exact E|]. split.
  - rewrite (Permutation_length P), app_length, LR, N'. unfold n. rewrite Hsn. reflexivity.
  - intros dec s.
    assert (HN : NoDup original) by (apply samples_NoDup; exact Hn).
    assert (CR : forall m, count_occ dec (concat (repeat original m)) s = m * count_occ dec original s).
    { induction m as [|m IH]; [reflexivity|]. cbn [repeat concat]. rewrite count_occ_app, IH. lia. }
    assert (C : count_occ dec (samples files krois) s = q * count_occ dec original s + count_occ dec kept s).
    { rewrite (proj1 (Permutation_count_occ dec _ _) P). rewrite count_occ_app, CR. reflexivity. }
    assert (K : count_occ dec kept s <= count_occ dec original s).
    { rewrite <- (proj1 (Permutation_count_occ dec _ _) Q). rewrite count_occ_app. lia. }
    split.
    + intros Hin. rewrite C. pose proof (proj1 (NoDup_count_occ' dec original) HN s Hin) as H1. rewrite H1 in *. lia.
    + intros Hin H. apply (count_occ_In dec) in H. apply (count_occ_not_In dec) in Hin. rewrite Hin in *. lia.
Qed.
Print Assumptions C23_oversample.

(** With exact arithmetic the number of samples is floor(n * f). *)
Theorem C23_exact_count n num den : (0 < den)%N ->
  N.to_nat (num / den) * n + (if (num mod den =? 0)%N then 0 else floor_mul n (num mod den) den) = floor_mul n num den.
Proof.
  intros Hd. unfold floor_mul.
  assert (E : (N.of_nat n * num / den = N.of_nat n * (num / den) + N.of_nat n * (num mod den) / den)%N).
  { rewrite (N.div_mod num den) at 1 by lia.
    replace (N.of_nat n * (den * (num / den) + num mod den))%N
      with (N.of_nat n * (num / den) * den + N.of_nat n * (num mod den))%N by (rewrite N.mul_add_distr_l, (N.mul_comm den (num / den)), N.mul_assoc; reflexivity).
    rewrite N.div_add_l by lia. reflexivity. }
  rewrite E. destruct (N.eqb_spec (num mod den) 0) as [->|_].
  - rewrite N.mul_0_r, N.div_0_l by lia. generalize (num / den)%N. intros q. rewrite N.add_0_r, N2Nat.inj_mul, Nat2N.id. lia.
  - rewrite N2Nat.inj_add, N2Nat.inj_mul, Nat2N.id. lia.
Qed.
Print Assumptions C23_exact_count.

Example C23_case : subsample_dataset floor_mul (fun _ => rev_perm) ByItem true 5 2 ex_chunks =
  Ok ([3; 2; 1; 1; 2; 3; 3; 2; 1], [(0, 5); (0, 2); (0, 10); (0, 10); (0, 2); (0, 5); (0, 5); (0, 2); (0, 1)]) /\
  length (samples [3; 2; 1; 1; 2; 3; 3; 2; 1] [(0, 5); (0, 2); (0, 10); (0, 10); (0, 2); (0, 5); (0, 5); (0, 2); (0, 1)]) = 42 /\
  floor_mul 17 5 2 = 42.
Proof. repeat split; vm_compute; reflexivity. Qed.

(** C24: the splits of a dataset whose files are listed in the order of the index
    (a full dataset, or one restricted by a name pattern or an unshuffled
    subsample): right sizes, disjoint, inside the dataset, and readable. *)
Theorem C24_split perm k original keep rois counts :
  (forall n, Permutation (perm n) (seq 0 n)) ->
  let files := map k_file (filter keep original) in
  valid_dataset k original files rois ->
  sum counts <= length (samples files rois) ->
  exists splits left, train_test_split perm original files rois counts = Ok splits /\
    Forall2 (fun n s => length (samples (fst s) (snd s)) = n) counts splits /\
    Permutation (flat_map (fun s => samples (fst s) (snd s)) splits ++ left) (samples files rois) /\
    NoDup (flat_map (fun s => samples (fst s) (snd s)) splits) /\
    Forall (fun s => valid_dataset k original (fst s) (snd s)) splits.
Proof.
  intros Hp files [Hn Hv] Hs. pose proof (Forall2_len _ _ _ Hv) as Hl.
  assert (Hw : Forall rwf rois).
  { clear - Hv. induction Hv as [|f r l1 l2 (c & n & _ & _ & _ & R) _ IH]; constructor; auto. destruct R; assumption. }
  rewrite samples_length in Hs by exact Hl.
  destruct (split_ok perm original keep rois counts Hp Hn Hl Hw Hs) as (splits & left & E & F1 & F2 & P).
  exists splits, left. split; [exact E|]. split; [exact F1|]. split; [exact P|]. split.
  - apply (NoDup_app_l _ left). eapply Permutation_NoDup; [apply Permutation_sym; exact P|].
    apply samples_NoDup. unfold files.
    assert (G : forall l : list cinfo, NoDup (map k_file l) -> NoDup (map k_file (filter keep l))).
    { clear. induction l as [|x l IH]; intros H; cbn; [constructor|]. inversion H; subst.
      destruct (keep x); [cbn; constructor; [|auto]|auto]. intros Hin. apply in_map_iff in Hin.
      destruct Hin as (y & E & Hy). apply filter_In in Hy. apply H2. rewrite <- E. apply in_map. apply Hy. }
    apply G. exact Hn.
  - eapply Forall_impl; [|exact F2]. intros s F. cbn beta in F. split; [exact Hn|]. fold files in F.
    revert F. generalize (fst s) (snd s). intros a b F.
    induction F as [|f r a b (r0 & H1 & H2 & H3 & H4) _ IH]; constructor; auto.
    assert (G : exists c n, In c original /\ k_file c = f /\ num_samples k c = Ok n /\ roi_in n r0).
    { clear - Hv H1. induction Hv as [|f' r' l1 l2 Hx _ IH]; cbn in H1; [contradiction|].
      destruct H1 as [E|H1]; [injection E as -> ->; exact Hx|auto]. }
    destruct G as (c & n & G1 & G2 & G3 & G4 & G5). exists c, n. unfold roi_in. repeat split; auto; lia.
Qed.
Print Assumptions C24_split.

Example C24_case :
  let files := map k_file (filter (fun _ => true) ex_chunks) in
  valid_dataset ByItem ex_chunks files [(0, 10); (0, 2); (0, 5)] /\
  train_test_split rev_perm ex_chunks files [(0, 10); (0, 2); (0, 5)] [6; 0; 3; 5] =
  Ok [([3; 2], [(0, 5); (0, 1)]); ([], []); ([2; 1], [(1, 2); (0, 2)]); ([1], [(2, 7)])].
Proof.
  split; [|vm_compute; reflexivity]. split; [repeat constructor; cbn; intuition discriminate|]. cbn. repeat constructor.
  - exists (Ci 1 10 None), 10. unfold roi_in, ex_chunks; cbn. intuition lia.
  - exists (Ci 2 2 None), 2. unfold roi_in, ex_chunks; cbn. intuition lia.
  - exists (Ci 3 5 None), 5. unfold roi_in, ex_chunks; cbn. intuition lia.
Qed.

(** C25 (violated): after a shuffled subsample the regions are paired with the
    wrong chunks; a split even contains positions that its chunk does not have. *)
Theorem C25_split_of_shuffled_subsample_refuted :
  exists chunks perm num den files rois counts splits s,
    (forall n, Permutation (perm n) (seq 0 n)) /\ NoDup (map k_file chunks) /\
    subsample_dataset floor_mul (fun _ => perm) ByItem true num den chunks = Ok (files, rois) /\
    train_test_split perm chunks files rois counts = Ok splits /\
    sum counts <= length (samples files rois) /\
    In s (flat_map (fun s => samples (fst s) (snd s)) splits) /\ ~ In s (samples files rois) /\
    s = (2, 2) /\ In (Ci 2 2 None) chunks.
Proof.
  exists [Ci 1 10 None; Ci 2 2 None], rev_perm, 5%N, 12%N, [2; 1], [(0, 2); (0, 3)], [3].
  exists [([2], [(0, 3)])], (2, 2).
  split; [exact rev_perm_ok|]. split; [repeat constructor; cbn; intuition discriminate|].
  split; [vm_compute; reflexivity|]. split; [vm_compute; reflexivity|]. split; [cbn; lia|].
  split; [cbn; tauto|]. split; [cbn; intuition discriminate|]. split; [reflexivity|cbn; tauto].
Qed.
Print Assumptions C25_split_of_shuffled_subsample_refuted.

(** C25 where it holds: a subsample taken without shuffling ([0 < f < 1]). *)
Theorem C25_split_of_unshuffled_subsample_partial trunc perm1 perm2 k num den chunks rois files krois counts :
  (0 < num < den)%N -> isclose_one num den = false ->
  (forall n, trunc n num den <= n) ->
  (forall n, Permutation (perm2 n) (seq 0 n)) -> NoDup (map k_file chunks) ->
  generate_roi k chunks = Ok rois ->
  subsample_dataset trunc perm1 k false num den chunks = Ok (files, krois) ->
  sum counts <= length (samples files krois) ->
  exists splits left, train_test_split perm2 chunks files krois counts = Ok splits /\
    Forall2 (fun n s => length (samples (fst s) (snd s)) = n) counts splits /\
    Permutation (flat_map (fun s => samples (fst s) (snd s)) splits ++ left) (samples files krois).
Proof.
  intros Hf Hc Ht Hp Hn Hr Hsub Hs. destruct (generate_roi_ok _ _ _ Hr) as [Hl Hw].
  unfold subsample_dataset in Hsub. destruct chunks as [|c0 cs0]; [discriminate|]. set (chunks := c0 :: cs0) in *. clearbody chunks.
  rewrite Hr in Hsub. cbn [bind] in Hsub. rewrite Hc in Hsub. rewrite N.div_small in Hsub by lia.
  cbn [N.to_nat repeat_loop] in Hsub. replace (den <=? num)%N with false in Hsub by lia. cbn [bind] in Hsub.
  replace (0 <? num)%N with true in Hsub by lia. cbn [bind fst snd] in Hsub.
  destruct (subsample_cut chunks rois (trunc (sum (map roi_size rois)) num den) Hl Hw (Ht _))
    as (files' & kept & lc & lr & E & L1 & _ & W1 & _ & _ & _ & _ & (m & Hm) & _).
  rewrite E in Hsub. cbn [bind app] in Hsub. injection Hsub as <- <-.
  pose proof (prefix_filter m chunks Hn) as K.
  assert (Hff : files' = map k_file (filter (in_files (map k_file (firstn m chunks))) chunks)) by (rewrite <- K; exact Hm).
  rewrite samples_length in Hs by exact L1. rewrite Hff in L1 |- *.
  destruct (split_ok perm2 chunks (in_files (map k_file (firstn m chunks))) kept counts Hp Hn L1 W1 Hs)
    as (splits & left & E' & F1 & _ & P).
  exists splits, left. auto.
Qed.
Print Assumptions C25_split_of_unshuffled_subsample_partial.

Example C25_partial_case :
  subsample_dataset floor_mul (fun _ => rev_perm) ByItem false 13 17 ex_chunks = Ok ([1; 2; 3], [(0, 10); (0, 2); (0, 1)]) /\
  train_test_split rev_perm ex_chunks [1; 2; 3] [(0, 10); (0, 2); (0, 1)] [4; 9] =
  Ok [([3; 2; 1], [(0, 1); (0, 2); (0, 1)]); ([1], [(1, 10)])].
Proof. split; vm_compute; reflexivity. Qed.

(** C25: a dataset in which a file is listed more often than the index has it (a
    subsample above 1) cannot be split: ValueError. *)
Theorem C25_repeated_dataset_refused perm original files rois counts :
  length files = length rois -> length original < length files ->
  train_test_split perm original files rois counts = Err ValueError.
Proof.
  intros Hl Hlt. unfold train_test_split, shuffle_together.
  assert (length (filter (in_files files) original) <= length original).
  { clear. induction original as [|x l IH]; cbn; [lia|]. destruct (in_files files x); cbn; lia. }
  replace (length (filter (in_files files) original) =? length rois) with false by lia. reflexivity.
Qed.
Print Assumptions C25_repeated_dataset_refused.
