From Verif Require Import Base Assign_Model Assign_Spec Assign_Proofs Shuffle_Proofs Config_Model Config_Spec Config_Proofs.
Local Ltac Zify.zify_post_hook ::= idtac.

(** In a single-process run without drop_last, [len(dataset)] counts every sample. *)
Lemma single_len rng shuffle seed nw B epoch ivs :
  rng_ok rng -> 1 <= nw -> 1 <= B ->
  get_len rng shuffle (Env 1 0 1) seed false nw B epoch ivs = Ok (sum (map iv_size ivs)).
Proof.
  intros Hr Hn HB.
  assert (G : exists p, Permutation p (seq 0 (length ivs)) /\
     shuffle_assign rng shuffle (Env 1 0 1) seed false nw B epoch ivs =
     assign 1 nw B false p (map (fun i => nth i ivs dIv) p)).
  { destruct shuffle; cbn [shuffle_assign].
    - destruct (full_shuffle_first rng (Env 1 0 1) seed false nw B epoch ivs Hr) as (p & Hp & E); [right; reflexivity|].
      exists p. split; [exact Hp|exact E].
    - exists (seq 0 (length ivs)). split; [reflexivity|]. rewrite ivs_as_map. reflexivity. }
  destruct G as (p & Hp & E). unfold get_len. rewrite E.
  destruct (assign_no_drop 1 nw B p (map (fun i => nth i ivs dIv) p)) as (a & Ha & (S1 & S2 & S3) & Hs & _);
    try lia; [rewrite map_length; reflexivity|].
  rewrite Ha. cbn [bind global_rank]. rewrite Nat.mul_0_l in *. cbn [skipn]. rewrite Nat.mul_1_l in *.
  rewrite firstn_all2 by lia. f_equal.
  rewrite <- (sum_map_perm ivs p Hp).
  rewrite <- (dataset_samples_length p) by (rewrite map_length; reflexivity).
  rewrite <- Hs, length_flat_map. clear Hs Ha E.
  unfold workers in *. destruct a as [cs is]. cbn [fst snd] in *.
  assert (L : length cs = length is) by lia. clear S1 S2.
  revert is L S3; induction cs as [|c cs IH]; intros [|i is] L S3; try discriminate; [reflexivity|].
  cbn [combine map flat_map sum] in *. inversion S3 as [|? ? Hw S3']; subst. cbn [fst snd] in Hw.
  rewrite sum_app, (IH is) by (auto; cbn in L; lia).
  unfold worker_samples; cbn [fst snd]. rewrite dataset_samples_length by exact Hw. reflexivity.
Qed.

Lemma intervals_size_some : forall sizes idx b rs ivs, length rs = length sizes + idx ->
  intervals_loop idx b sizes (Some rs) = Ok ivs ->
  sum (map iv_size ivs) = sum (map (fun r => snd r - fst r) (skipn idx rs)).
Proof.
  induction sizes as [|n sizes IH]; intros idx b rs ivs Hl E; cbn [intervals_loop length] in *.
  - injection E as <-. rewrite skipn_all2 by lia. reflexivity.
  - destruct (nth_error rs idx) as [r|] eqn:E0; [|discriminate]. cbn [bind] in E.
    destruct (intervals_loop (S idx) (b + n) sizes (Some rs)) as [ivs'|] eqn:E'; [|discriminate].
    cbn [bind fst snd] in E. injection E as <-. rewrite (skipn_nth_cons _ _ _ E0).
    cbn [map sum]. unfold iv_size at 1. cbn [iv_rs iv_re]. rewrite (IH (S idx) (b + n) rs ivs' ltac:(lia) E'). lia.
Qed.
