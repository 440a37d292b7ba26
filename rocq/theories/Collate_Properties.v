(** Property C185: the batches of a [CacheDataLoader]. *)
From Verif Require Import Base Tree_Model Sample_Proofs Collate_Model Collate_Spec Collate_Proofs.
From Coq Require Import NArith.

(** The user gets the collated samples of every batch that has some, in order, and the loop ends.  Samples are awaited if [__getitem__] is asynchronous;
    [None] is left out.  Partial: batches are of one kind, and the collate function does not return [None] (see the refutations). *)
Theorem C185_batches_partial {V C} (collate : list (arg V) -> res (option C)) bs cs :
  hands_out collate bs cs -> Forall one_kind bs -> loop_over collate bs = (cs, Ok tt).
Proof.
  intros H HF. pose proof (loop_prefix collate bs cs [] H HF) as E. rewrite app_nil_r in E. rewrite E, loop_nil. cbn [fst snd]. rewrite app_nil_r. reflexivity.
Qed.
Print Assumptions C185_batches_partial.

(** An exception of the collate function, or of an asynchronous [__getitem__], reaches the user after the batches before it. *)
Theorem C185_collate_raises {V C} (collate : list (arg V) -> res (option C)) bs cs b vs rest e :
  hands_out collate bs cs -> Forall one_kind bs -> samples_in b vs -> vs <> [] -> one_kind b ->
  collate (map AValue vs) = Err e -> e <> StopIteration ->
  loop_over collate (bs ++ b :: rest) = (cs, Err e).
Proof.
  intros H HF Hb Hv Hk Hc He. rewrite (loop_prefix collate bs cs _ H HF), (loop_raise collate b rest e); [|rewrite (call_some collate b vs) by assumption; exact Hc|exact He].
  cbn [fst snd]. rewrite app_nil_r. reflexivity.
Qed.
Print Assumptions C185_collate_raises.
Theorem C185_item_raises {V C} (collate : list (arg V) -> res (option C)) bs cs l m rest e :
  hands_out collate bs cs -> Forall one_kind bs -> Forall (fun i => exists o, i = ICoro (Ok o)) l -> Forall coroutine m -> e <> StopIteration ->
  loop_over collate (bs ++ (l ++ ICoro (Err e) :: m) :: rest) = (cs, Err e).
Proof.
  intros H HF Hl Hm He. rewrite (loop_prefix collate bs cs _ H HF), (loop_raise collate _ rest e); [cbn [fst snd]; rewrite app_nil_r; reflexivity| |exact He].
  unfold call_collate.
  assert (E1 : forallb is_none_item (l ++ ICoro (Err e) :: m) = false) by (rewrite forallb_app; cbn [forallb is_none_item andb]; apply andb_false_r).
  assert (E2 : forallb is_coro (l ++ ICoro (Err e) :: m) = true).
  { apply coros_all, Forall_app. split; [eapply Forall_impl; [|exact Hl]; intros i [o ->]; eexists; reflexivity|].
    constructor; [eexists; reflexivity|exact Hm]. }
  rewrite E1, E2. assert (E3 : mapM await (l ++ ICoro (Err e) :: m) = Err e); [|rewrite E3; reflexivity].
  clear -Hl. induction Hl as [|i l [[v|] ->] _ IH]; [reflexivity| |]; cbn [app]; rewrite mapM_cons; cbn [await bind]; rewrite IH; reflexivity.
Qed.
Print Assumptions C185_item_raises.

(** ** A case: sums of numbers. *)
Definition value_in (a : arg Z) : res Z := match a with AValue v => Ok v | ACoro => Err TypeError end.
Definition total (l : list (arg Z)) : res (option Z) :=
  match l with [] => Err IndexError | _ => bind (mapM value_in l) (fun vs => Ok (Some (fold_right Z.add 0%Z vs))) end.
Ltac samples := repeat first [apply samples_nil | apply samples_some; [constructor|] | apply samples_skip; [constructor|]].
Definition some_batches : list (list (item Z)) :=
  [[IValue 1; INone; IValue 2]; [INone; INone]; [ICoro (Ok (Some 4)); ICoro (Ok None)]]%Z.
Example C185_case :
  hands_out total some_batches [3; 4]%Z /\ Forall one_kind some_batches /\ loop_over total some_batches = ([3; 4]%Z, Ok tt) /\
  loop_over total (some_batches ++ [[ICoro (Ok (Some 4)); ICoro (Err KeyError)]]%Z) = ([3; 4]%Z, Err KeyError).
Proof.
  split.
  { eapply hands_batch with (vs := [1; 2]%Z); [samples|discriminate|reflexivity|].
    apply hands_empty; [samples|]. eapply hands_batch with (vs := [4]%Z); [samples|discriminate|reflexivity|constructor]. }
  split; [|split; reflexivity].
  apply Forall_cons; [right; repeat constructor; intros [r H]; discriminate|].
  apply Forall_cons; [right; repeat constructor; intros [r H]; discriminate|].
  apply Forall_cons; [left; split; [repeat constructor; eexists; reflexivity|exists 4%Z; left; reflexivity]|constructor].
Qed.

(** [__getitem__] is asynchronous and a batch has no sample: the collate function is called with an empty list, and the default one raises. *)
Theorem C185_no_sample_refuted : exists (bs : list (list (item Z))) cs e,
  hands_out total bs cs /\ Forall (Forall coroutine) bs /\ loop_over total bs = ([], Err e).
Proof.
  exists [[ICoro (Ok None)]], [], IndexError. split; [apply hands_empty; [samples|constructor]|].
  split; [repeat constructor; eexists; reflexivity|reflexivity].
Qed.
Print Assumptions C185_no_sample_refuted.

(** [None] beside coroutines: they are not awaited, and the collate function gets them instead of the samples. *)
Theorem C185_mixed_refuted : exists (bs : list (list (item Z))) cs e,
  hands_out total bs cs /\ cs <> [] /\ loop_over total bs = ([], Err e).
Proof.
  exists [[INone; ICoro (Ok (Some 4%Z))]], [4%Z], TypeError. split; [|split; [discriminate|reflexivity]].
  eapply hands_batch with (vs := [4]%Z); [samples|discriminate|reflexivity|constructor].
Qed.
Print Assumptions C185_mixed_refuted.

(** A collate function that returns [None]: the batch is skipped without a word. *)
Theorem C185_none_refuted : exists (collate : list (arg Z) -> res (option Z)) bs,
  Forall one_kind bs /\ Forall (fun b => exists vs, samples_in b vs /\ vs <> []) bs /\ length bs = 2 /\ loop_over collate bs = ([5]%Z, Ok tt).
Proof.
  exists (fun l => match l with [AValue v] => Ok (if (v =? 0)%Z then None else Some v) | _ => Err TypeError end), [[IValue 0%Z]; [IValue 5%Z]].
  split; [repeat (apply Forall_cons; [right; repeat constructor; intros [r H]; discriminate|]); constructor|].
  split; [|split; reflexivity].
  apply Forall_cons; [exists [0%Z]; split; [samples|discriminate]|].
  apply Forall_cons; [exists [5%Z]; split; [samples|discriminate]|constructor].
Qed.
Print Assumptions C185_none_refuted.

(** StopIteration from the collate function, for instance from a [next] in it: the loop ends as if there were no more batches. *)
Theorem C185_stop_refuted : exists (collate : list (arg Z) -> res (option Z)) bs,
  Forall one_kind bs /\ collate [AValue 0%Z] = Err StopIteration /\ In [IValue 0%Z] bs /\ length bs = 3 /\ loop_over collate bs = ([5]%Z, Ok tt).
Proof.
  exists (fun l => match l with [AValue v] => if (v =? 0)%Z then Err StopIteration else Ok (Some v) | _ => Err TypeError end),
    [[IValue 5%Z]; [IValue 0%Z]; [IValue 7%Z]].
  split; [repeat (apply Forall_cons; [right; repeat constructor; intros [r H]; discriminate|]); constructor|].
  split; [reflexivity|]. split; [right; left; reflexivity|]. split; reflexivity.
Qed.
Print Assumptions C185_stop_refuted.
