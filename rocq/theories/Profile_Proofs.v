(** Proofs about profiling. *)
From Verif Require Import Base Profile_Model Profile_Spec.
Local Ltac Zify.zify_post_hook ::= idtac.

Section Counting.
Context {B : Type}.
Implicit Types l past : list (res B).

Lemma batches_app l1 l2 : batches (l1 ++ l2) = batches l1 + batches l2.
Proof. unfold batches. rewrite filter_app, app_length. reflexivity. Qed.
Lemma batches_one (r : res B) : batches [r] = if success r then 1 else 0.
Proof. unfold batches. cbn [filter]. destruct (success r); reflexivity. Qed.
Lemma between_snoc a b past (r : res B) :
  calls_between a b (past ++ [r]) =
  calls_between a b past ++ (if (a <=? batches past) && (batches past <=? b) then [length past] else []).
Proof.
  unfold calls_between. rewrite app_length. cbn [length]. rewrite seq_app, filter_app. f_equal.
  - apply filter_ext_in. intros p Hp. apply in_seq in Hp. rewrite firstn_app.
    replace (p - length past) with 0 by lia. cbn [firstn]. rewrite app_nil_r. reflexivity.
  - cbn [seq filter Nat.add]. rewrite firstn_app, Nat.sub_diag. cbn [firstn]. rewrite app_nil_r, firstn_all.
    destruct (_ && _); reflexivity.
Qed.
Lemma batches_all l : forallb success l = true -> batches l = length l.
Proof.
  induction l as [|r l IH]; [reflexivity|]. cbn [forallb]. intros H. apply andb_true_iff in H as [H1 H2].
  unfold batches in *. cbn [filter]. rewrite H1. cbn [length]. rewrite IH by exact H2. reflexivity.
Qed.
Lemma filter_seq_window a b s m : s <= a -> a <= b -> b < s + m ->
  filter (fun p => (a <=? p) && (p <=? b)) (seq s m) = seq a (b - a + 1).
Proof.
  intros H1 H2 H3.
  replace m with ((a - s) + ((b - a + 1) + (s + m - (b + 1)))) by lia. rewrite seq_app, seq_app, !filter_app.
  assert (N : forall u v (f : nat -> bool), (forall p, u <= p < u + v -> f p = false) -> filter f (seq u v) = []).
  { clear. intros u v f. revert u. induction v as [|v IH]; intros u H; [reflexivity|]. cbn [seq filter].
    rewrite (H u) by lia. apply IH. intros p Hp. apply H. lia. }
  assert (Y : forall u v (f : nat -> bool), (forall p, u <= p < u + v -> f p = true) -> filter f (seq u v) = seq u v).
  { clear. intros u v f. revert u. induction v as [|v IH]; intros u H; [reflexivity|]. cbn [seq filter].
    rewrite (H u) by lia. f_equal. apply IH. intros p Hp. apply H. lia. }
  rewrite N by (intros; apply andb_false_iff; left; apply Nat.leb_gt; lia).
  rewrite Y by (intros; apply andb_true_iff; split; apply Nat.leb_le; lia).
  rewrite N by (intros; apply andb_false_iff; right; apply Nat.leb_gt; lia).
  rewrite app_nil_r. cbn [app]. f_equal. lia.
Qed.
(** Without failures: the calls number [a] to [b]. *)
Lemma between_all a b l : forallb success l = true -> a <= b -> b < length l -> calls_between a b l = seq a (b - a + 1).
Proof.
  intros H Ha Hb. unfold calls_between. rewrite <- (filter_seq_window a b 0 (length l)) by lia.
  apply filter_ext_in. intros p Hp. apply in_seq in Hp.
  assert (E : batches (firstn p l) = p).
  { rewrite batches_all; [apply firstn_length_le; lia|]. apply forallb_forall. intros x Hx.
    rewrite forallb_forall in H. apply H. rewrite <- (firstn_skipn p l). apply in_or_app. left. exact Hx. }
  rewrite E. reflexivity.
Qed.
End Counting.

Section Worker.
Context {F I B : Type} (fetch : F -> I -> res B * F).

Lemma call_result p k w i : fst (call fetch p k w i) = fst (fetch (w_fetcher w) i) /\
                            w_fetcher (snd (call fetch p k w i)) = snd (fetch (w_fetcher w) i).
Proof.
  unfold call. destruct (fetch (w_fetcher w) i) as [[b|e] f]; [|split; reflexivity].
  destruct (w_wrapped w); [|split; reflexivity].
  destruct (record _ _) as [[[|] l]|]; [|split; reflexivity|split; reflexivity].
  destruct (_ =? _)%Z; split; reflexivity.
Qed.
Lemma calls_results p k w l : fst (calls fetch p k w l) = plain_calls fetch (w_fetcher w) l.
Proof.
  revert w. induction l as [|i l IH]; intros w; [reflexivity|]. cbn [calls plain_calls].
  destruct (call_result p k w i) as [E1 E2]. destruct (call fetch p k w i) as [r w'].
  destruct (fetch (w_fetcher w) i) as [r' f']. cbn [fst snd] in *. subst r' f'.
  specialize (IH w'). destruct (calls fetch p k w' l) as [rs w'']. cbn [fst] in *. f_equal. exact IH.
Qed.

(** The phases of the first worker: waiting, recording, done. *)
Inductive phase (n k : nat) (file : option (list nat)) (past : list (res B)) : @worker F -> Prop :=
| Waiting f : 0 < k -> batches past <= k -> calls_between k (n + k) past = [] ->
    phase n k file past (Worker f (length past) true (Z.of_nat (batches past)) None file)
| Recording f : k <= batches past <= n + k -> (k = 0 \/ calls_between k (n + k) past <> []) ->
    phase n k file past (Worker f (length past) true (Z.of_nat (batches past))
                                (Some (Tracing true (calls_between k (n + k) past))) None)
| Finished f c : n + k < batches past ->
    phase n k file past (Worker f (length past) false c
                                (Some (Tracing false (calls_between k (n + k) past)))
                                (Some (calls_between k (n + k) past))).

Lemma app_one_not_nil {A} (l : list A) x : l ++ [x] <> [].
Proof. destruct l; discriminate. Qed.

Lemma phase_call n k file past w i :
  phase n k file past w ->
  let '(r, w') := call fetch (Z.of_nat n) (Z.of_nat k) w i in phase n k file (past ++ [r]) w'.
Proof.
  intros H. destruct (call fetch _ _ w i) as [r w'] eqn:E. revert E. unfold call.
  assert (L : forall r : res B, length (past ++ [r]) = S (length past)) by (intros; rewrite app_length; cbn [length]; lia).
  destruct H as [f K H Hc|f H Hc|f c H]; cbn [w_fetcher w_calls w_wrapped w_counter w_tracer w_file].
  - replace (0 <? Z.of_nat k)%Z with true by (symmetry; apply Z.ltb_lt; lia). cbn [andb].
    destruct (Z.of_nat k =? Z.of_nat (batches past))%Z eqn:Q; cbn [andb record app].
    + apply Z.eqb_eq in Q. destruct (fetch f i) as [[b|e] f'].
      * destruct (Z.of_nat (batches past) =? Z.of_nat n + Z.of_nat k)%Z eqn:T; intros [= <- <-].
        -- apply Z.eqb_eq in T. rewrite <- (L (Ok b)).
           assert (X : calls_between k (n + k) (past ++ [Ok b]) = [length past]).
           { rewrite between_snoc, Hc. cbn [app].
             replace ((k <=? batches past) && (batches past <=? n + k)) with true; [reflexivity|].
             symmetry. apply andb_true_iff. split; apply Nat.leb_le; lia. }
           rewrite <- X. apply Finished. rewrite batches_app, batches_one. cbn [success]. lia.
        -- apply Z.eqb_neq in T.
           assert (X : calls_between k (n + k) (past ++ [Ok b]) = [length past]).
           { rewrite between_snoc, Hc. cbn [app].
             replace ((k <=? batches past) && (batches past <=? n + k)) with true; [reflexivity|].
             symmetry. apply andb_true_iff. split; apply Nat.leb_le; lia. }
           rewrite <- X, <- (L (Ok b)).
           replace (Z.of_nat (batches past) + 1)%Z with (Z.of_nat (batches (past ++ [Ok b])))
             by (rewrite batches_app, batches_one; cbn [success]; lia).
           apply Recording; [|right; rewrite X; discriminate].
           rewrite batches_app, batches_one; cbn [success]. lia.
      * intros [= <- <-].
        assert (X : calls_between k (n + k) (past ++ [Err e]) = [length past]).
        { rewrite between_snoc, Hc. cbn [app].
          replace ((k <=? batches past) && (batches past <=? n + k)) with true; [reflexivity|].
          symmetry. apply andb_true_iff. split; apply Nat.leb_le; lia. }
        rewrite <- X, <- (L (Err e)).
        replace (batches past) with (batches (past ++ [Err e])) by (rewrite batches_app, batches_one; cbn [success]; lia).
        apply Recording; [|right; rewrite X; discriminate].
        rewrite batches_app, batches_one; cbn [success]. lia.
    + apply Z.eqb_neq in Q.
      assert (X : forall r : res B, calls_between k (n + k) (past ++ [r]) = []).
      { intros r0. rewrite between_snoc, Hc. cbn [app].
        replace (k <=? batches past) with false by (symmetry; apply Nat.leb_gt; lia). reflexivity. }
      destruct (fetch f i) as [[b|e] f']; intros [= <- <-].
      * rewrite <- (L (Ok b)).
        replace (Z.of_nat (batches past) + 1)%Z with (Z.of_nat (batches (past ++ [Ok b])))
          by (rewrite batches_app, batches_one; cbn [success]; lia).
        apply Waiting; [exact K| |apply X]. rewrite batches_app, batches_one; cbn [success]. lia.
      * rewrite <- (L (Err e)).
        replace (batches past) with (batches (past ++ [Err e])) by (rewrite batches_app, batches_one; cbn [success]; lia).
        apply Waiting; [exact K| |apply X]. rewrite batches_app, batches_one; cbn [success]. lia.
  - rewrite andb_false_r. cbn [record].
    assert (X : forall r : res B, calls_between k (n + k) (past ++ [r]) = calls_between k (n + k) past ++ [length past]).
    { intros r0. rewrite between_snoc.
      replace ((k <=? batches past) && (batches past <=? n + k)) with true; [reflexivity|].
      symmetry. apply andb_true_iff. split; apply Nat.leb_le; lia. }
    destruct (fetch f i) as [[b|e] f'].
    + destruct (Z.of_nat (batches past) =? Z.of_nat n + Z.of_nat k)%Z eqn:T; intros [= <- <-].
      * apply Z.eqb_eq in T. rewrite <- (L (Ok b)), <- (X (Ok b)). apply Finished.
        rewrite batches_app, batches_one; cbn [success]. lia.
      * apply Z.eqb_neq in T. rewrite <- (L (Ok b)), <- (X (Ok b)).
        replace (Z.of_nat (batches past) + 1)%Z with (Z.of_nat (batches (past ++ [Ok b])))
          by (rewrite batches_app, batches_one; cbn [success]; lia).
        apply Recording; [|right; rewrite X; apply app_one_not_nil].
        rewrite batches_app, batches_one; cbn [success]. lia.
    + intros [= <- <-]. rewrite <- (L (Err e)), <- (X (Err e)).
      replace (batches past) with (batches (past ++ [Err e])) by (rewrite batches_app, batches_one; cbn [success]; lia).
      apply Recording; [|right; rewrite X; apply app_one_not_nil].
      rewrite batches_app, batches_one; cbn [success]. lia.
  - cbn [andb record].
    assert (X : forall r : res B, calls_between k (n + k) (past ++ [r]) = calls_between k (n + k) past).
    { intros r0. rewrite between_snoc.
      replace (batches past <=? n + k) with false by (symmetry; apply Nat.leb_gt; lia).
      rewrite andb_false_r, app_nil_r. reflexivity. }
    destruct (fetch f i) as [[b|e] f']; intros [= <- <-].
    + rewrite <- (L (Ok b)), <- (X (Ok b)). apply Finished. rewrite batches_app. lia.
    + rewrite <- (L (Err e)), <- (X (Err e)). apply Finished. rewrite batches_app. lia.
Qed.

Lemma phase_calls n k file l : forall past w, phase n k file past w ->
  let '(rs, w') := calls fetch (Z.of_nat n) (Z.of_nat k) w l in phase n k file (past ++ rs) w'.
Proof.
  induction l as [|i l IH]; intros past w H; cbn [calls]; [rewrite app_nil_r; exact H|].
  pose proof (phase_call n k file past w i H) as C. destruct (call fetch _ _ w i) as [r w'].
  specialize (IH _ _ C). destruct (calls fetch _ _ w' l) as [rs w'']. rewrite <- app_assoc in IH. exact IH.
Qed.

(** The file after the loop of the first worker. *)
Definition expected (n k : nat) (file : option (list nat)) (rs : list (res B)) : option (list nat) :=
  if n + k <? batches rs then Some (calls_between k (n + k) rs)
  else if k =? 0 then None
  else match calls_between k (n + k) rs with [] => file | _ => None end.

Lemma first_phase n k f file : phase n k file [] (Worker f 0 true 0%Z
    (if (Z.of_nat k =? 0)%Z then Some (Tracing true []) else None) (if (Z.of_nat k =? 0)%Z then None else file)).
Proof.
  destruct (Z.eqb_spec (Z.of_nat k) 0) as [E|E].
  - change (@nil nat) with (calls_between k (n + k) (@nil (res B))). apply (Recording n k file []).
    + change (batches (@nil (res B))) with 0. lia.
    + left. lia.
  - apply (Waiting n k file []); [lia| |reflexivity]. change (batches (@nil (res B))) with 0. lia.
Qed.

Lemma phase_file n k file past w : phase n k file past w -> w_file w = expected n k file past.
Proof.
  intros [f K H Hc|f H Hc|f c H]; cbn [w_file]; unfold expected.
  - rewrite Hc. destruct (Nat.ltb_spec (n + k) (batches past)); [lia|]. destruct (Nat.eqb_spec k 0); [lia|]. reflexivity.
  - destruct (Nat.ltb_spec (n + k) (batches past)); [lia|].
    destruct (Nat.eqb_spec k 0); [reflexivity|]. destruct Hc as [Hc|Hc]; [lia|]. destruct (calls_between _ _ _); [congruence|reflexivity].
  - destruct (Nat.ltb_spec (n + k) (batches past)); [reflexivity|lia].
Qed.

Lemma loop_batches n k f file l :
  profile_loop fetch (Batches (Z.of_nat n)) (Z.of_nat k) 0 f file l =
  (plain_calls fetch f l, expected n k file (plain_calls fetch f l)).
Proof.
  unfold profile_loop. cbn [as_int Nat.eqb andb].
  pose proof (phase_calls n k file l [] _ (first_phase n k f file)) as P.
  pose proof (calls_results (Z.of_nat n) (Z.of_nat k) (Worker f 0 true 0%Z
    (if (Z.of_nat k =? 0)%Z then Some (Tracing true []) else None) (if (Z.of_nat k =? 0)%Z then None else file)) l) as R.
  destruct (calls fetch _ _ _ l) as [rs w]. cbn [fst app w_fetcher] in *. rewrite <- R. f_equal. apply phase_file. exact P.
Qed.
Lemma loop_all k f file l :
  profile_loop fetch All (Z.of_nat k) 0 f file l =
  (plain_calls fetch f l,
   if k =? 0 then Some (calls_between 0 1 (plain_calls fetch f l)) else expected 1 k file (plain_calls fetch f l)).
Proof.
  unfold profile_loop. cbn [as_int Nat.eqb andb].
  pose proof (phase_calls 1 k file l [] _ (first_phase 1 k f file)) as P. change (Z.of_nat 1) with 1%Z in P.
  pose proof (calls_results 1 (Z.of_nat k) (Worker f 0 true 0%Z
    (if (Z.of_nat k =? 0)%Z then Some (Tracing true []) else None) (if (Z.of_nat k =? 0)%Z then None else file)) l) as R.
  destruct (calls fetch _ _ _ l) as [rs w]. cbn [fst app w_fetcher] in *. rewrite <- R. f_equal.
  destruct (Z.eqb_spec (Z.of_nat k) 0) as [E|E]; destruct (Nat.eqb_spec k 0) as [E'|E']; try lia.
  - assert (k = 0) by lia. subst k. destruct P as [g K _ _|g _ _|g c _]; cbn [w_tracer]; [lia|reflexivity|reflexivity].
  - pose proof (phase_file _ _ _ _ _ P) as Q. destruct (w_tracer w) as [[e l']|]; exact Q.
Qed.

(** Workers other than the first one, and negative numbers. *)
Definition idle (file : option (list nat)) (w : @worker F) : Prop := w_wrapped w = false /\ w_tracer w = None /\ w_file w = file.
Lemma idle_call p k file w i : idle file w -> idle file (snd (call fetch p k w i)).
Proof.
  intros (H1 & H2 & H3). unfold call, idle. rewrite H1, H2, H3. cbn [andb record].
  destruct (fetch (w_fetcher w) i) as [[b|e] f]; cbn [snd w_wrapped w_tracer w_file]; auto.
Qed.
Lemma idle_calls p k file l : forall w, idle file w -> idle file (snd (calls fetch p k w l)).
Proof.
  induction l as [|i l IH]; intros w H; [exact H|]. cbn [calls]. pose proof (idle_call p k file w i H) as C.
  destruct (call fetch p k w i) as [r w']. specialize (IH w' C). destruct (calls fetch p k w' l) as [rs w'']. exact IH.
Qed.
Lemma loop_others p k id f file l : id <> 0 -> profile_loop fetch p k id f file l = (plain_calls fetch f l, file).
Proof.
  intros H. unfold profile_loop. replace (id =? 0) with false by (symmetry; apply Nat.eqb_neq; exact H). cbn [andb].
  pose proof (idle_calls (as_int p) k file l (Worker f 0 false 0%Z None file)) as P.
  pose proof (calls_results (as_int p) k (Worker f 0 false 0%Z None file) l) as R.
  destruct (calls fetch _ _ _ l) as [rs w]. cbn [fst snd w_fetcher] in *. rewrite <- R. f_equal.
  destruct P as (_ & E & E'); [repeat split|]. rewrite E, E'. destruct p; reflexivity.
Qed.

(** A negative number: nothing is ever saved. *)
Definition unsaved (n k : Z) (file : option (list nat)) (w : @worker F) : Prop :=
  w_wrapped w = true /\ (w_file w = file \/ w_file w = None) /\
  (match w_tracer w with None => True | Some (Tracing e _) => e = true /\ (k <= w_counter w)%Z end).
Lemma unsaved_call n k file w i : (n < 0)%Z -> unsaved n k file w -> unsaved n k file (snd (call fetch n k w i)).
Proof.
  intros Hn (H1 & H2 & H3). unfold call. rewrite H1. cbn [andb].
  destruct ((0 <? k)%Z && (k =? w_counter w)%Z && match w_tracer w with None => true | _ => false end) eqn:Q; cbn [record app].
  - apply andb_true_iff in Q as [Q _]. apply andb_true_iff in Q as [_ Q]. apply Z.eqb_eq in Q.
    destruct (fetch (w_fetcher w) i) as [[b|e] f].
    + replace (w_counter w =? n + k)%Z with false by (symmetry; apply Z.eqb_neq; lia).
      unfold unsaved. cbn [snd w_wrapped w_tracer w_file w_counter]. repeat split; auto. lia.
    + unfold unsaved. cbn [snd w_wrapped w_tracer w_file w_counter]. repeat split; auto. lia.
  - destruct (w_tracer w) as [[e l]|]; cbn [record].
    + destruct H3 as [-> H3]. destruct (fetch (w_fetcher w) i) as [[b|e] f].
      * replace (w_counter w =? n + k)%Z with false by (symmetry; apply Z.eqb_neq; lia).
        unfold unsaved. cbn [snd w_wrapped w_tracer w_file w_counter]. repeat split; auto. lia.
      * unfold unsaved. cbn [snd w_wrapped w_tracer w_file w_counter]. repeat split; auto.
    + destruct (fetch (w_fetcher w) i) as [[b|e] f]; unfold unsaved; cbn [snd w_wrapped w_tracer w_file w_counter]; repeat split; auto.
Qed.
Lemma unsaved_calls n k file l : (n < 0)%Z -> forall w, unsaved n k file w -> unsaved n k file (snd (calls fetch n k w l)).
Proof.
  intros Hn. induction l as [|i l IH]; intros w H; [exact H|]. cbn [calls]. pose proof (unsaved_call n k file w i Hn H) as C.
  destruct (call fetch n k w i) as [r w']. specialize (IH w' C). destruct (calls fetch n k w' l) as [rs w'']. exact IH.
Qed.
Lemma loop_negative n k f file l : (n < 0)%Z ->
  let file' := snd (profile_loop fetch (Batches n) k 0 f file l) in file' = file \/ file' = None.
Proof.
  intros Hn. unfold profile_loop. cbn [as_int Nat.eqb andb].
  pose proof (unsaved_calls n k file l Hn (Worker f 0 true 0%Z (if (k =? 0)%Z then Some (Tracing true []) else None)
                                                  (if (k =? 0)%Z then None else file))) as P.
  destruct (calls fetch _ _ _ l) as [rs w]. cbn [snd] in *. destruct P as (_ & P & _); [|exact P].
  unfold unsaved. cbn [w_wrapped w_tracer w_file w_counter]. destruct (Z.eqb_spec k 0) as [->|E]; repeat split; auto. lia.
Qed.
End Worker.
