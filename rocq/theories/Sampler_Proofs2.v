From Verif Require Import Base Assign_Model Assign_Spec Shuffle_Proofs Sampler_Model Sampler_Spec Sampler_Proofs.
Local Ltac Zify.zify_post_hook ::= idtac.

Definition key (s : cindex) : nat * nat := (ci_index s, ci_chunk s).
(** The first sample carries the list of chunks, no other does. *)
Definition announces (ch : list nat) (l : list cindex) : Prop :=
  match l with [] => True | s :: rest => ci_chunks s = Some ch /\ Forall (fun x => ci_chunks x = None) rest end.

Notation triple := (nat * (nat * (nat * nat)))%type.
Definition triple_samples (x : triple) : list (nat * nat) := chunk_samples (fst (snd x)) (snd (snd x)).
Definition triple_chunks (x : triple) : list nat := repeat (fst (snd x)) (snd (snd (snd x)) - fst (snd (snd x))).

Lemma map_snd_combine_seq {A} (l : list A) : forall s, map snd (combine (seq s (length l)) l) = l.
Proof. induction l as [|x l IH]; intros s; cbn; [reflexivity|]. f_equal. apply IH. Qed.

Lemma map_const_repeat {A B} (l : list A) (c : B) : map (fun _ => c) l = repeat c (length l).
Proof. induction l; cbn; congruence. Qed.

Section W.
Context (sp : nat -> nat -> list nat) (Hsp : forall i n, Permutation (sp i n) (seq 0 n)).

Lemma worker_samples_keys ch : forall (l : list triple) acc,
  Permutation (map key (worker_samples sp ch acc l)) (map key acc ++ flat_map triple_samples l).
Proof.
  induction l as [|[i [c iv]] l IH]; intros acc; cbn [worker_samples flat_map]; [rewrite app_nil_r; reflexivity|].
  rewrite IH, map_app, <- app_assoc. apply Permutation_app_head, Permutation_app_tail.
  rewrite map_map. cbn [key ci_index ci_chunk]. unfold triple_samples, chunk_samples. cbn [fst snd].
  set (idxs := permute _ _). unfold key. cbn [ci_index ci_chunk].
  rewrite <- (map_map snd (fun x : nat => (x, c)) (combine (seq 0 (length idxs)) idxs)), map_snd_combine_seq.
  apply Permutation_map. unfold idxs. apply permute_Permutation. rewrite seq_length. apply Hsp.
Qed.

Lemma worker_samples_announce ch : forall (l : list triple) acc, announces ch acc -> announces ch (worker_samples sp ch acc l).
Proof.
  induction l as [|[i [c iv]] l IH]; intros acc Ha; cbn [worker_samples]; [exact Ha|]. apply IH.
  set (idxs := permute _ _). clearbody idxs. destruct acc as [|a acc]; cbn [length Nat.eqb app].
  - destruct idxs as [|x idxs]; [exact I|]. cbn [length seq combine map fst snd Nat.eqb andb announces ci_chunks]. split; [reflexivity|].
    apply Forall_forall. intros y Hy. apply in_map_iff in Hy. destruct Hy as ([j z] & <- & Hj). apply in_combine_l in Hj.
    apply in_seq in Hj. cbn [ci_chunks fst]. replace (j =? 0) with false by lia. reflexivity.
  - cbn [announces] in *. destruct Ha as [H1 H2]. split; [exact H1|]. apply Forall_app. split; [exact H2|].
    apply Forall_forall. intros y Hy. apply in_map_iff in Hy. destruct Hy as (jx & <- & _). cbn [ci_chunks].
    rewrite andb_false_r. reflexivity.
Qed.

Lemma worker_samples_order ch : forall (l : list triple) acc,
  map ci_chunk (worker_samples sp ch acc l) = map ci_chunk acc ++ flat_map triple_chunks l.
Proof.
  induction l as [|[i [c iv]] l IH]; intros acc; cbn [worker_samples flat_map]; [rewrite app_nil_r; reflexivity|].
  rewrite IH, map_app, <- app_assoc. f_equal. f_equal. rewrite map_map. cbn [ci_chunk].
  rewrite map_const_repeat, combine_length, seq_length, Nat.min_id. unfold triple_chunks. cbn [fst snd]. f_equal.
  rewrite <- (seq_length (snd iv - fst iv) (fst iv)) at 3. apply Permutation_length, permute_Permutation.
  rewrite seq_length. apply Hsp.
Qed.
End W.

Lemma every_combine {A B} nw : forall (a : list A) (b : list B) d, length a = length b ->
  every nw d (combine a b) = combine (every nw d a) (every nw d b).
Proof.
  induction a as [|x a IH]; intros [|y b] d H; try discriminate; [destruct d; reflexivity|]. cbn in H.
  destruct d as [|d]; cbn [combine every]; [f_equal|]; apply IH; lia.
Qed.
Lemma every_length_eq {A B} nw : forall (a : list A) (b : list B) d, length a = length b ->
  length (every nw d a) = length (every nw d b).
Proof.
  induction a as [|x a IH]; intros [|y b] d H; try discriminate; [destruct d; reflexivity|]. cbn in H.
  destruct d as [|d]; cbn [every length]; [f_equal|]; apply IH; lia.
Qed.
Lemma every_nonempty {A} nw : forall (l : list A) d, d < length l -> every nw d l <> [].
Proof.
  induction l as [|x l IH]; intros d H; cbn in H; [lia|]. destruct d as [|d]; cbn [every]; [discriminate|]. apply IH. lia.
Qed.

Lemma combine_permute {A} (cp : list nat) (ivs : list A) : Forall (fun i => i < length ivs) cp ->
  length (permute cp ivs) = length cp /\ combine cp (permute cp ivs) = permute cp (combine (seq 0 (length ivs)) ivs).
Proof.
  assert (G : forall (l : list A) s i, i < length l -> exists x, nth_error l i = Some x /\ nth_error (combine (seq s (length l)) l) i = Some (s + i, x)).
  { induction l as [|y l IH]; intros s [|i] H; cbn in *; try lia; [exists y; rewrite Nat.add_0_r; auto|].
    destruct (IH (S s) i ltac:(lia)) as (x & H1 & H2). exists x. split; [exact H1|]. rewrite H2. f_equal. f_equal. lia. }
  induction 1 as [|i cp Hi _ (IH1 & IH2)]; [split; reflexivity|]. cbn [permute flat_map] in *.
  destruct (G ivs 0 i Hi) as (x & -> & ->). cbn [app length combine Nat.add]. split; [|f_equal; exact IH2].
  f_equal. exact IH1.
Qed.

Lemma flat_map_flat_map {A B C} (f : A -> list B) (g : B -> list C) l :
  flat_map g (flat_map f l) = flat_map (fun x => flat_map g (f x)) l.
Proof. induction l as [|x l IH]; [reflexivity|]. cbn [flat_map]. rewrite flat_map_app, IH. reflexivity. Qed.

Lemma flat_map_perm {A B} (f : A -> list B) l1 l2 : Permutation l1 l2 -> Permutation (flat_map f l1) (flat_map f l2).
Proof. intros H. rewrite !flat_map_concat_map. apply Permutation_concat, Permutation_map, H. Qed.

Lemma flat_map_ext_perm {A B} (f g : A -> list B) l : (forall x, In x l -> Permutation (f x) (g x)) ->
  Permutation (flat_map f l) (flat_map g l).
Proof.
  induction l as [|x l IH]; intros H; [reflexivity|]. cbn [flat_map]. apply Permutation_app; [apply H; left; reflexivity|].
  apply IH. intros; apply H; right; assumption.
Qed.

(** Chunks with their ranges, woven over the workers. *)
Theorem from_shuffled_ok sp nw b chunks (ivs : list (nat * nat)) :
  (forall i n, Permutation (sp i n) (seq 0 n)) -> 1 <= nw -> 1 <= b -> length chunks = length ivs ->
  flat_map (fun p => chunk_samples (fst p) (snd p)) (combine chunks ivs) <> [] ->
  exists r, iter_from_shuffled sp nw b chunks ivs = Ok r /\
    Permutation (map key (concat r)) (flat_map (fun p => chunk_samples (fst p) (snd p)) (combine chunks ivs)) /\
    forall w, w < nw -> full_but_last b (received nw w r) /\
      announces (every nw w chunks) (concat (received nw w r)) /\
      map ci_chunk (concat (received nw w r)) =
        flat_map (fun p => repeat (fst p) (snd (snd p) - fst (snd p))) (combine (every nw w chunks) (every nw w ivs)).
Proof.
  intros Hsp Hn Hb Hl Hne. unfold iter_from_shuffled. cbn zeta.
  set (zipped := combine chunks ivs) in *. set (Z := combine (seq 0 (length zipped)) zipped).
  set (f := fun w => worker_samples sp (deal nw w chunks) [] (deal nw w Z)).
  assert (K : Permutation (map key (concat (map f (seq 0 nw)))) (flat_map (fun p => chunk_samples (fst p) (snd p)) zipped)).
  { rewrite <- flat_map_concat_map. rewrite flat_map_concat_map, concat_map, map_map, <- flat_map_concat_map.
    transitivity (flat_map (fun w => flat_map triple_samples (every nw w Z)) (seq 0 nw)).
    - apply flat_map_ext_perm. intros w Hw. apply in_seq in Hw. unfold f.
      rewrite (worker_samples_keys sp Hsp). cbn [map app]. rewrite deal_every by lia. reflexivity.
    - rewrite <- flat_map_flat_map. rewrite (flat_map_perm _ _ _ (every_partition nw Z Hn)).
      assert (EZ : map snd Z = zipped) by (apply map_snd_combine_seq).
      rewrite <- EZ. rewrite !flat_map_concat_map, map_map. reflexivity. }
  destruct (batches_ok nw b (map f (seq 0 nw)) Hn Hb) as (r & E & P & F).
  - rewrite map_length, seq_length. reflexivity.
  - intros E. rewrite E in K. cbn in K. apply Permutation_nil in K. congruence.
  - exists r. split; [exact E|]. split.
    + rewrite <- K. apply Permutation_map. exact P.
    + intros w Hw. destruct (F w (f w)) as [F1 F2].
      { rewrite nth_error_map. replace (nth_error (seq 0 nw) w) with (Some w); [reflexivity|].
        symmetry. rewrite (nth_error_nth' _ 0) by (rewrite seq_length; exact Hw). rewrite seq_nth by exact Hw. reflexivity. }
      split; [exact F2|]. rewrite F1. unfold f. rewrite deal_every by exact Hw. split.
      * apply (worker_samples_announce sp Hsp). exact I.
      * rewrite (worker_samples_order sp Hsp). cbn [map app]. rewrite deal_every by exact Hw.
        unfold Z. rewrite every_combine by (rewrite seq_length; reflexivity).
        replace (combine (every nw w chunks) (every nw w ivs)) with (every nw w zipped) by (apply every_combine; exact Hl).
        assert (L : length (every nw w (seq 0 (length zipped))) = length (every nw w zipped))
          by (apply every_length_eq; rewrite seq_length; reflexivity).
        revert L. generalize (every nw w (seq 0 (length zipped))) (every nw w zipped). clear.
        intros a q; revert a; induction q as [|y q IH]; intros [|x a] L; try discriminate; [reflexivity|].
        cbn [combine flat_map]. unfold triple_chunks at 1. cbn [fst snd]. f_equal. apply IH. cbn in L; lia.
Qed.

Definition pair_samples (p : nat * (nat * nat)) : list (nat * nat) := chunk_samples (fst p) (snd p).

Theorem chunks_rank_ok cp sp replicas rank nw b (ivs : list (nat * nat)) :
  Permutation cp (seq 0 (length ivs)) -> (forall i n, Permutation (sp i n) (seq 0 n)) ->
  rank < replicas -> replicas <= length ivs -> Forall (fun iv => fst iv < snd iv) ivs -> 1 <= nw -> 1 <= b ->
  exists r, iter_chunks_distributed cp sp replicas rank nw b ivs = Ok r /\
    Permutation (map key (concat r)) (flat_map pair_samples (every replicas rank (permute cp (combine (seq 0 (length ivs)) ivs)))) /\
    forall w, w < nw -> full_but_last b (received nw w r) /\
      let mine := every nw w (every replicas rank cp) in
      announces mine (concat (received nw w r)) /\
      map ci_chunk (concat (received nw w r)) =
        flat_map (fun c => repeat c (match nth_error ivs c with Some iv => snd iv - fst iv | None => 0 end)) mine.
Proof.
  intros Hcp Hsp Hr Hlen Hiv Hn Hb.
  assert (Hlt : Forall (fun i => i < length ivs) cp).
  { eapply Permutation_Forall; [apply Permutation_sym; exact Hcp|]. apply Forall_forall. intros x Hx. apply in_seq in Hx. lia. }
  destruct (combine_permute cp ivs Hlt) as [L C].
  assert (Lcp : length cp = length ivs) by (rewrite (Permutation_length Hcp), seq_length; reflexivity).
  unfold iter_chunks_distributed. rewrite !deal_every by exact Hr.
  assert (EC : combine (every replicas rank cp) (every replicas rank (permute cp ivs)) =
               every replicas rank (permute cp (combine (seq 0 (length ivs)) ivs))).
  { rewrite <- C. symmetry. apply every_combine. lia. }
  assert (PP : Permutation (permute cp (combine (seq 0 (length ivs)) ivs)) (combine (seq 0 (length ivs)) ivs)).
  { apply permute_Permutation. rewrite combine_length, seq_length, Nat.min_id. exact Hcp. }
  assert (Hin : forall p, In p (every replicas rank (permute cp (combine (seq 0 (length ivs)) ivs))) ->
            nth_error ivs (fst p) = Some (snd p)).
  { intros p Hp. apply every_In in Hp. apply (Permutation_in _ PP) in Hp. clear -Hp.
    assert (G : forall (l : list (nat * nat)) s p, In p (combine (seq s (length l)) l) -> s <= fst p /\ nth_error l (fst p - s) = Some (snd p)).
    { induction l as [|y l IH]; intros s q H; [contradiction|]. cbn [length seq combine] in H. destruct H as [<-|H].
      - cbn [fst snd]. rewrite Nat.sub_diag. auto.
      - destruct (IH (S s) q H) as [H1 H2]. split; [lia|]. replace (fst q - s) with (S (fst q - S s)) by lia. exact H2. }
    destruct (G ivs 0 p Hp) as [_ G']. rewrite Nat.sub_0_r in G'. exact G'. }
  destruct (from_shuffled_ok sp nw b (every replicas rank cp) (every replicas rank (permute cp ivs)) Hsp Hn Hb) as (r & E & P & F).
  - apply every_length_eq. lia.
  - rewrite EC. intros E.
    assert (Hne : every replicas rank (permute cp (combine (seq 0 (length ivs)) ivs)) <> []).
    { apply every_nonempty. rewrite (Permutation_length PP), combine_length, seq_length. lia. }
    destruct (every replicas rank (permute cp (combine (seq 0 (length ivs)) ivs))) as [|p q]; [congruence|].
    specialize (Hin p (or_introl eq_refl)). apply nth_error_In in Hin. rewrite Forall_forall in Hiv. specialize (Hiv _ Hin).
    cbn [flat_map] in E. apply app_eq_nil in E. destruct E as [E _]. unfold chunk_samples in E.
    apply (f_equal (@length _)) in E. rewrite map_length, seq_length in E. cbn [length] in E. lia.
  - exists r. split; [exact E|]. split; [rewrite EC in P; exact P|].
    intros w Hw. destruct (F w Hw) as (F1 & F2 & F3). split; [exact F1|]. cbn zeta. split; [exact F2|].
    rewrite F3. rewrite <- every_combine by (apply every_length_eq; lia). rewrite EC.
    assert (M : every nw w (every replicas rank cp) = map fst (every nw w (every replicas rank (permute cp (combine (seq 0 (length ivs)) ivs))))).
    { rewrite <- EC, <- every_map. f_equal.
      assert (LL : length (every replicas rank cp) = length (every replicas rank (permute cp ivs))) by (apply every_length_eq; lia).
      revert LL. generalize (every replicas rank cp) (every replicas rank (permute cp ivs)). clear.
      induction l as [|x l IH]; intros [|y q] LL; try discriminate; [reflexivity|]. cbn. f_equal. apply IH. cbn in LL; lia. }
    rewrite M.
    assert (Hin' : forall p, In p (every nw w (every replicas rank (permute cp (combine (seq 0 (length ivs)) ivs)))) ->
              nth_error ivs (fst p) = Some (snd p)) by (intros p Hp; apply every_In in Hp; apply Hin; exact Hp).
    revert Hin'. generalize (every nw w (every replicas rank (permute cp (combine (seq 0 (length ivs)) ivs)))). clear.
    induction l as [|p l IH]; intros H; [reflexivity|]. cbn [map flat_map]. rewrite (H p (or_introl eq_refl)). f_equal.
    apply IH. intros; apply H; right; assumption.
Qed.

Theorem chunks_all_ok cp sp replicas nw b (ivs : list (nat * nat)) :
  Permutation cp (seq 0 (length ivs)) -> (forall rank i n, Permutation (sp rank i n) (seq 0 n)) ->
  1 <= replicas -> replicas <= length ivs -> Forall (fun iv => fst iv < snd iv) ivs -> 1 <= nw -> 1 <= b ->
  exists out, (forall rank, rank < replicas -> iter_chunks_distributed cp (sp rank) replicas rank nw b ivs = Ok (out rank)) /\
    Permutation (map key (concat (flat_map out (seq 0 replicas)))) (all_samples ivs).
Proof.
  intros Hcp Hsp Hr Hlen Hiv Hn Hb.
  exists (fun rank => match iter_chunks_distributed cp (sp rank) replicas rank nw b ivs with Ok r => r | Err _ => [] end).
  split.
  - intros rank Hlt. destruct (chunks_rank_ok cp (sp rank) replicas rank nw b ivs) as (r & -> & _); auto.
  - transitivity (flat_map (fun rank => flat_map pair_samples (every replicas rank (permute cp (combine (seq 0 (length ivs)) ivs)))) (seq 0 replicas)).
    + set (out := fun rank => _). rewrite (flat_map_concat_map out), concat_map.
      assert (G : forall l, (forall x, In x l -> x < replicas) ->
        Permutation (concat (map (map key) (concat (map out l))))
          (flat_map (fun rank => flat_map pair_samples (every replicas rank (permute cp (combine (seq 0 (length ivs)) ivs)))) l)).
      { induction l as [|x l IH]; intros Hx; [reflexivity|]. cbn [map concat flat_map]. rewrite map_app, concat_app.
        apply Permutation_app; [|apply IH; intros; apply Hx; right; assumption].
        destruct (chunks_rank_ok cp (sp x) replicas x nw b ivs) as (r & E & P & _); auto; [apply Hx; left; reflexivity|].
        unfold out. rewrite E. rewrite <- concat_map. exact P. }
      apply G. intros x Hx. apply in_seq in Hx. lia.
    + rewrite <- flat_map_flat_map. rewrite (flat_map_perm _ _ _ (every_partition replicas _ Hr)).
      unfold all_samples. apply flat_map_perm. apply permute_Permutation.
      rewrite combine_length, seq_length, Nat.min_id. exact Hcp.
Qed.

Lemma every_one {A} (l : list A) : every 1 0 l = l.
Proof. induction l as [|x l IH]; [reflexivity|]. cbn. f_equal. exact IH. Qed.
Lemma non_distributed_is_one_replica cp sp nw b ivs :
  iter_chunks_non_distributed cp sp nw b ivs = iter_chunks_distributed cp sp 1 0 nw b ivs.
Proof. unfold iter_chunks_non_distributed, iter_chunks_distributed. rewrite !deal_every, !every_one by lia. reflexivity. Qed.
