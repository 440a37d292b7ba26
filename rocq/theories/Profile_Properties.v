(** C188: profiling with [StreamingDataLoader(profile_batches=…, profile_skip_batches=…)]. *)
From Verif Require Import Base Profile_Model Profile_Spec Profile_Proofs.
Local Ltac Zify.zify_post_hook ::= idtac.

(** C188: whatever is profiled, every worker of every process makes the batches it makes without profiling, in their order,
    and raises what it raises without. *)
Theorem C188_same_batches {F I B} (fetch : F -> I -> res B * F) p skip rank worker_id f file l :
  fst (worker_loop fetch p skip rank worker_id f file l) = fst (worker_loop fetch None skip rank worker_id f file l).
Proof.
  unfold worker_loop. destruct p as [p|]; [|reflexivity]. destruct (rank =? 0); [|reflexivity]. cbn [fst].
  unfold profile_loop. pose proof (calls_results fetch (as_int p) skip (Worker f 0 (worker_id =? 0) 0%Z
    (if (worker_id =? 0) && (skip =? 0)%Z then Some (Tracing true []) else None)
    (if (worker_id =? 0) && (skip =? 0)%Z then None else file)) l) as R.
  destruct (calls fetch _ _ _ l) as [rs w]. exact R.
Qed.
Print Assumptions C188_same_batches.

(** C188: the file is touched by the first worker of the first process only. *)
Theorem C188_one_writer {F I B} (fetch : F -> I -> res B * F) p skip rank worker_id f file l :
  rank <> 0 \/ worker_id <> 0 \/ p = None -> snd (worker_loop fetch p skip rank worker_id f file l) = file.
Proof.
  unfold worker_loop. intros H. destruct p as [p|]; [|reflexivity]. destruct (Nat.eqb_spec rank 0) as [E|E]; [|reflexivity].
  rewrite loop_others by (destruct H as [H|[H|H]]; [lia|exact H|discriminate]). reflexivity.
Qed.
Print Assumptions C188_one_writer.

(** C188 (partial): [profile_batches=n] and [profile_skip_batches=k].  If the first worker makes more than [n + k] batches in an
    epoch, the file holds the calls from the first one after [k] batches to the one that makes batch number [n + k] (counted
    from 0), so [n + 1] batches: one more than asked for.  If it makes at most [n + k], there is no file
    afterwards, not even an earlier one, once the recording has begun.
    Missing: workers killed by torch while they save. *)
Theorem C188_recorded_partial {F I B} (fetch : F -> I -> res B * F) (n k : nat) f file l :
  let '(made, file') := worker_loop fetch (Some (Batches (Z.of_nat n))) (Z.of_nat k) 0 0 f file l in
  (n + k < batches made -> file' = Some (calls_between k (n + k) made)) /\
  (batches made <= n + k -> k = 0 \/ k < batches made -> file' = None) /\
  (batches made < k -> file' = file).
Proof.
  unfold worker_loop. cbn [Nat.eqb]. rewrite loop_batches. set (made := plain_calls fetch f l). unfold expected.
  repeat split.
  - intros H. apply Nat.ltb_lt in H. rewrite H. reflexivity.
  - intros H1 H2. destruct (Nat.ltb_spec (n + k) (batches made)); [lia|]. destruct (Nat.eqb_spec k 0); [reflexivity|].
    destruct H2 as [H2|H2]; [lia|].
    destruct (calls_between k (n + k) made) eqn:E; [|reflexivity]. exfalso.
    assert (G : forall l0 : list (res B), k < batches l0 -> batches l0 <= n + k -> calls_between k (n + k) l0 <> []).
    { intros l0. induction l0 as [|r l0 IH] using rev_ind; [change (batches (@nil (res B))) with 0; lia|].
      rewrite batches_app, batches_one, between_snoc. intros G1 G2 Q. apply app_eq_nil in Q as [Q1 Q2].
      destruct (le_lt_dec (batches l0) k).
      - destruct (success r) eqn:Sr; [|lia].
        destruct (Nat.leb_spec k (batches l0)); [|lia]. destruct (Nat.leb_spec (batches l0) (n + k)); [|lia]. discriminate.
      - apply IH; [exact l1| |exact Q1]. lia. }
    exact (G made H2 H1 E).
  - intros H. destruct (Nat.ltb_spec (n + k) (batches made)); [lia|]. destruct (Nat.eqb_spec k 0); [lia|].
    assert (G : forall l0 : list (res B), batches l0 < k -> calls_between k (n + k) l0 = []).
    { intros l0. induction l0 as [|r l0 IH] using rev_ind; [reflexivity|].
      rewrite batches_app, batches_one, between_snoc. intros G1. rewrite IH by lia.
      destruct (Nat.leb_spec k (batches l0)); [lia|reflexivity]. }
    rewrite (G made H). reflexivity.
Qed.
Print Assumptions C188_recorded_partial.

(** C188: when no call raises, those are the batches [k], …, [k + n]. *)
Theorem C188_batches_recorded {F I B} (fetch : F -> I -> res B * F) (n k : nat) f file l :
  let '(made, file') := worker_loop fetch (Some (Batches (Z.of_nat n))) (Z.of_nat k) 0 0 f file l in
  forallb success made = true -> n + k < length made -> file' = Some (seq k (n + 1)).
Proof.
  pose proof (C188_recorded_partial fetch n k f file l) as P.
  destruct (worker_loop fetch _ _ 0 0 f file l) as [made file']. destruct P as (P & _ & _). intros H1 H2.
  rewrite P by (rewrite batches_all; [exact H2|exact H1]). rewrite between_all by (try exact H1; lia). repeat f_equal. lia.
Qed.
Print Assumptions C188_batches_recorded.

(** The fetcher of the examples: it makes the batches 10, 11, …, and raises at the index 7. *)
Definition fetch0 (f : nat) (i : nat) : res nat * nat := if i =? 7 then (Err RuntimeError, f) else (Ok (10 + f), S f).
Example recorded_example :
  worker_loop fetch0 (Some (Batches 2)) 1 0 0 0 (Some [99]) [0; 0; 0; 0; 0; 0] =
    ([Ok 10; Ok 11; Ok 12; Ok 13; Ok 14; Ok 15], Some [1; 2; 3]) /\
  worker_loop fetch0 (Some (Batches 2)) 1 0 0 0 (Some [99]) [0; 7; 0; 7; 0; 0; 0] =
    ([Ok 10; Err RuntimeError; Ok 11; Err RuntimeError; Ok 12; Ok 13; Ok 14], Some [1; 2; 3; 4; 5]) /\
  worker_loop fetch0 (Some (Batches 2)) 0 1 0 0 (Some [99]) [0; 0; 0; 0] = ([Ok 10; Ok 11; Ok 12; Ok 13], Some [99]).
Proof. repeat (apply conj; [vm_compute; reflexivity|]). vm_compute; reflexivity. Qed.

(** Asked for [n] batches, the file holds [n + 1] of them. *)
Theorem C188_number_refuted :
  exists (n k : nat) l, n + k < length l /\
    match worker_loop fetch0 (Some (Batches (Z.of_nat n))) (Z.of_nat k) 0 0 0 None l with
    | (made, Some recorded) => forallb success made = true /\ length recorded <> n
    | _ => False
    end.
Proof. exists 2, 0, [0; 0; 0; 0; 0]. vm_compute. repeat split; [lia|discriminate]. Qed.
Print Assumptions C188_number_refuted.

(** When the first worker makes exactly the batches to skip and to record, nothing is saved, and the file of an earlier
    epoch is deleted. *)
Theorem C188_exactly_refuted :
  exists (n k : nat) l, n + k = length l /\ 0 < n /\
    worker_loop fetch0 (Some (Batches (Z.of_nat n))) (Z.of_nat k) 0 0 0 (Some [0; 1; 2]) l = ([Ok 10; Ok 11; Ok 12], None).
Proof. exists 2, 1, [0; 0; 0]. vm_compute. repeat split. lia. Qed.
Print Assumptions C188_exactly_refuted.

(** C188 (partial): [profile_batches=True] records the calls up to the one that makes the second batch: [True] is taken for 1.
    Without batches to skip there is always a file; with them only if two more batches are made. *)
Theorem C188_true_partial {F I B} (fetch : F -> I -> res B * F) (k : nat) f file l :
  let '(made, file') := worker_loop fetch (Some All) (Z.of_nat k) 0 0 f file l in
  (k = 0 -> file' = Some (calls_between 0 1 made)) /\
  (0 < k -> k + 1 < batches made -> file' = Some (calls_between k (k + 1) made)).
Proof.
  unfold worker_loop. cbn [Nat.eqb]. rewrite loop_all. set (made := plain_calls fetch f l). split.
  - intros ->. reflexivity.
  - intros Hk H. destruct (Nat.eqb_spec k 0); [lia|]. unfold expected.
    replace (1 + k) with (k + 1) by lia. apply Nat.ltb_lt in H. rewrite H. reflexivity.
Qed.
Print Assumptions C188_true_partial.
(** With [True] not all batches are recorded; with batches to skip and few batches, none. *)
Theorem C188_true_refuted :
  exists l l', worker_loop fetch0 (Some All) 0 0 0 0 None l = ([Ok 10; Ok 11; Ok 12; Ok 13], Some [0; 1]) /\
               worker_loop fetch0 (Some All) 1 0 0 0 None l' = ([Ok 10; Ok 11], None).
Proof. exists [0; 0; 0; 0], [0; 0]. repeat (apply conj; [vm_compute; reflexivity|]). vm_compute; reflexivity. Qed.
Print Assumptions C188_true_refuted.

(** C188: negative numbers of batches are accepted; nothing is ever saved. *)
Theorem C188_negative {F I B} (fetch : F -> I -> res B * F) (n : nat) skip f file l :
  let file' := snd (worker_loop fetch (Some (Batches (- Z.of_nat (S n)))) skip 0 0 f file l) in file' = file \/ file' = None.
Proof. unfold worker_loop. cbn [Nat.eqb]. apply loop_negative. lia. Qed.
Print Assumptions C188_negative.

(** C188: profiling is refused without workers or without viztracer; [False] and 0 are accepted everywhere. *)
Theorem C188_refused viztracer value num_workers :
  (value <> inl 0%Z -> value <> inr false -> num_workers = 0 \/ viztracer = false ->
     exists e, profile_init viztracer value num_workers = Err e) /\
  (value <> inl 0%Z -> value <> inr false -> num_workers <> 0 -> viztracer = true ->
     exists p, profile_init viztracer value num_workers = Ok (Some p) /\
       match value with inl n => p = Batches n | inr _ => p = All end) /\
  profile_init viztracer (inl 0%Z) num_workers = Ok None /\ profile_init viztracer (inr false) num_workers = Ok None.
Proof.
  unfold profile_init, profile_setting. split; [|split; [|split; reflexivity]].
  - intros H1 H2 H. destruct value as [z|[|]]; [destruct (Z.eqb_spec z 0); [congruence|]| |congruence];
      (destruct viztracer; [destruct H as [->|H]; [|discriminate]|]; eexists; reflexivity).
  - intros H1 H2 H ->. apply Nat.eqb_neq in H. rewrite H.
    destruct value as [z|[|]]; [destruct (Z.eqb_spec z 0); [congruence|]| |congruence]; eexists; split; reflexivity.
Qed.
Print Assumptions C188_refused.
Example refused_example : profile_init true (inl 3%Z) 2 = Ok (Some (Batches 3)) /\ profile_init true (inr true) 0 = Err ValueError.
Proof. vm_compute. split; reflexivity. Qed.
