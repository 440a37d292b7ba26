From Verif Require Import Base Tree_Model Sample_Proofs Collate_Model Collate_Spec.
Local Ltac Zify.zify_post_hook ::= idtac.

Section Collate.
Context {V C : Type} (collate : list (arg V) -> res (option C)).

Lemma none_all (b : list (item V)) : Forall (fun i : item V => ~ coroutine i) b -> samples_in b [] -> forallb is_none_item b = true.
Proof.
  induction b as [|i b IH]; intros HF H; [reflexivity|]. inversion HF as [|? ? Hc HF']; subst. inversion H as [| |? ? ? Hi Hb]; subst. cbn [forallb].
  rewrite (IH HF' Hb), andb_true_r. inversion Hi; subst; [reflexivity|]. exfalso. apply Hc. eexists. reflexivity.
Qed.
Lemma some_not_all (b : list (item V)) vs : samples_in b vs -> vs <> [] -> forallb is_none_item b = false.
Proof.
  induction 1 as [|i v b vs Hi _ IH|i b vs Hi _ IH]; intros Hne; [congruence| |].
  - cbn [forallb]. inversion Hi; reflexivity.
  - cbn [forallb]. rewrite (IH Hne), andb_false_r. reflexivity.
Qed.
Lemma coros_all (b : list (item V)) : Forall (fun i : item V => coroutine i) b -> forallb is_coro b = true.
Proof. induction 1 as [|i b [r ->] _ IH]; [reflexivity|]. exact IH. Qed.
Lemma no_coros (b : list (item V)) : Forall (fun i : item V => ~ coroutine i) b -> b <> [] -> forallb is_coro b = false.
Proof. intros HF Hne. destruct HF as [|i b Hi _]; [congruence|]. cbn [forallb]. destruct i; try reflexivity. exfalso. apply Hi. eexists. reflexivity. Qed.
Lemma awaited (b : list (item V)) vs : samples_in b vs -> Forall coroutine b -> exists items, mapM await b = Ok items /\ to_args items = map AValue vs.
Proof.
  induction 1 as [|i v b vs Hi _ IH|i b vs Hi _ IH]; intros HF; [exists []; split; reflexivity| |];
    inversion HF as [|? ? [r ->] HF']; subst; inversion Hi; subst; destruct (IH HF') as (items & E & T); rewrite mapM_cons; cbn [await bind]; rewrite E; cbn [bind].
  - eexists. split; [reflexivity|]. unfold to_args in *. cbn [flat_map app map]. rewrite T. reflexivity.
  - eexists. split; [reflexivity|]. unfold to_args in *. cbn [flat_map app map]. exact T.
Qed.
Lemma plain_args (b : list (item V)) vs : samples_in b vs -> Forall (fun i : item V => ~ coroutine i) b -> to_args b = map AValue vs.
Proof.
  unfold to_args. induction 1 as [|i v b vs Hi _ IH|i b vs Hi _ IH]; intros HF; [reflexivity| |];
    inversion HF as [|? ? Hc HF']; subst; inversion Hi; subst; cbn [flat_map app map];
    try (exfalso; apply Hc; eexists; reflexivity); rewrite (IH HF'); reflexivity.
Qed.

Lemma call_some (b : list (item V)) vs : samples_in b vs -> vs <> [] -> one_kind b -> call_collate collate b = collate (map AValue vs).
Proof.
  intros H Hne Hk. unfold call_collate. rewrite (some_not_all b vs H Hne). destruct Hk as [[HF _]|HF].
  - rewrite (coros_all b HF). destruct (awaited b vs H HF) as (items & -> & T). cbn [bind]. rewrite T. reflexivity.
  - rewrite (no_coros b HF). { cbn [bind]. rewrite (plain_args b vs H HF). reflexivity. }
    intros ->. inversion H; subst. congruence.
Qed.
Lemma samples_have (b : list (item V)) vs (v : V) : samples_in b vs -> In (ICoro (Ok (Some v))) b -> vs <> [].
Proof.
  induction 1 as [|i w b vs Hi _ IH|i b vs Hi _ IH]; [intros []|discriminate|].
  intros [->|Hin]; [inversion Hi|exact (IH Hin)].
Qed.
Lemma call_none (b : list (item V)) : samples_in b [] -> one_kind b -> call_collate collate b = Ok None.
Proof.
  intros H [[HF [v Hv]]|HF]; [exfalso; exact (samples_have b [] v H Hv eq_refl)|]. unfold call_collate. rewrite (none_all b HF H). reflexivity.
Qed.

Lemma next_shorter bs : forall c rest, next_data collate bs = Ok (c, rest) -> length rest < length bs.
Proof.
  induction bs as [|b bs IH]; intros c rest; [discriminate|]. cbn [next_data length]. destruct (call_collate collate b) as [[c'|]|]; cbn [bind]; [| |discriminate].
  - intros H; injection H as _ <-. lia.
  - intros H. apply IH in H. lia.
Qed.
Lemma fuel_more bs : forall n k, length bs < n -> length bs < k -> iterate collate n bs = iterate collate k bs.
Proof.
  assert (G : forall l bs, length bs <= l -> forall n k, length bs < n -> length bs < k -> iterate collate n bs = iterate collate k bs).
  { induction l as [|l IH]; intros b Hl [|n] [|k] Hn Hk; try lia.
    - destruct b; [reflexivity|cbn in Hl; lia].
    - cbn [iterate]. destruct (next_data collate b) as [[c rest]|] eqn:E; [|reflexivity].
      pose proof (next_shorter _ _ _ E) as Hlt. rewrite (IH rest ltac:(lia) n k) by lia. reflexivity. }
  intros n k. apply (G (length bs) bs (le_n _)).
Qed.
Lemma loop_nil : loop_over collate [] = ([], Ok tt). Proof. reflexivity. Qed.
Lemma loop_skip b bs : call_collate collate b = Ok None -> loop_over collate (b :: bs) = loop_over collate bs.
Proof.
  intros E. unfold loop_over. rewrite (fuel_more bs (S (length bs)) (S (S (length bs)))) by lia.
  cbn [length iterate next_data]. rewrite E. cbn [bind]. reflexivity.
Qed.
Lemma loop_give b bs c : call_collate collate b = Ok (Some c) ->
  loop_over collate (b :: bs) = (c :: fst (loop_over collate bs), snd (loop_over collate bs)).
Proof. intros E. unfold loop_over. cbn [length]. set (n := S (length bs)). cbn [iterate next_data]. rewrite E. cbn [bind]. reflexivity. Qed.
Lemma loop_raise b bs e : call_collate collate b = Err e -> e <> StopIteration -> loop_over collate (b :: bs) = ([], Err e).
Proof. intros E Hne. unfold loop_over. cbn [length iterate next_data]. rewrite E. cbn [bind]. destruct e; congruence. Qed.

Theorem loop_prefix bs cs rest : hands_out collate bs cs -> Forall one_kind bs ->
  loop_over collate (bs ++ rest) = (cs ++ fst (loop_over collate rest), snd (loop_over collate rest)).
Proof.
  induction 1 as [|b bs cs Hb _ IH|b vs bs c cs Hb Hne Hc _ IH]; intros HF.
  - cbn [app]. destruct (loop_over collate rest); reflexivity.
  - inversion HF as [|? ? Hk HF']; subst. cbn [app]. rewrite loop_skip by (apply call_none; assumption). exact (IH HF').
  - inversion HF as [|? ? Hk HF']; subst. cbn [app]. rewrite (loop_give b (bs ++ rest) c) by (rewrite (call_some b vs) by assumption; exact Hc).
    rewrite (IH HF'). reflexivity.
Qed.
End Collate.
