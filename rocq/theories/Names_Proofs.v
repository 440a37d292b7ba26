From Coq Require Import String Ascii Decimal DecimalNat DecimalFacts.
From Verif Require Import Base Names_Model Names_Spec.
From Coq Require Import NArith.
Local Open Scope list_scope.
Local Open Scope nat_scope.
Local Ltac Zify.zify_post_hook ::= idtac.

Lemma undigits_digits u : undigits (digits u) = Some u.
Proof. induction u; cbn [digits undigits]; [reflexivity|..]; rewrite IHu; reflexivity. Qed.

Lemma dec_nonempty n : dec n <> [].
Proof.
  unfold dec. assert (H : Nat.to_uint n <> Decimal.Nil).
  { rewrite <- (Unsigned.of_to n), Unsigned.to_of. apply unorm_nonnil. }
  destruct (Nat.to_uint n); cbn; try discriminate. congruence.
Qed.

Lemma int_of_dec n : int_of (dec n) = Ok n.
Proof.
  pose proof (dec_nonempty n) as H. unfold int_of. destruct (dec n) as [|c s] eqn:E; [congruence|].
  rewrite <- E. unfold dec. rewrite undigits_digits. rewrite Unsigned.of_to. reflexivity.
Qed.

Lemma dec_inj a b : dec a = dec b -> a = b.
Proof. intros H. pose proof (int_of_dec a) as Ha. rewrite H, int_of_dec in Ha. congruence. Qed.

Lemma dec_digits n : Forall is_digit (dec n).
Proof.
  unfold dec. induction (Nat.to_uint n); cbn [digits]; [constructor|..]; constructor; auto; unfold is_digit; lia.
Qed.

Lemma split_none c s : ~ In c s -> split c s = [s].
Proof.
  induction s as [|x s IH]; intros H; [reflexivity|]. cbn [split].
  destruct (N.eqb_spec x c) as [->|]; [exfalso; apply H; left; reflexivity|].
  rewrite IH; [reflexivity|]. intros Hin; apply H; right; exact Hin.
Qed.

Lemma split_at c s t : ~ In c s -> split c (s ++ c :: t) = s :: split c t.
Proof.
  induction s as [|x s IH]; intros H; cbn [app split].
  - rewrite N.eqb_refl. reflexivity.
  - destruct (N.eqb_spec x c) as [->|]; [exfalso; apply H; left; reflexivity|].
    rewrite IH; [reflexivity|]. intros Hin; apply H; right; exact Hin.
Qed.

Lemma split_nonempty c s : split c s <> [].
Proof. destruct s as [|x s]; cbn; [discriminate|]. destruct (x =? c)%N; [discriminate|]. destruct (split c s); discriminate. Qed.

Lemma digits_not c s : Forall is_digit s -> ~ is_digit c -> ~ In c s.
Proof. intros H Hc Hin. rewrite Forall_forall in H. exact (Hc (H _ Hin)). Qed.

Lemma not_digit_dash : ~ is_digit dash. Proof. unfold is_digit, dash; lia. Qed.
Lemma not_digit_dot : ~ is_digit dot. Proof. unfold is_digit, dot; lia. Qed.

Lemma cut_mid a b s : cut (length a) (length b) (a ++ s ++ b) = s.
Proof.
  unfold cut. rewrite !app_length.
  replace (length a + (length s + length b) - length a - length b) with (length s) by lia.
  rewrite skipn_app, Nat.sub_diag, skipn_all2 by lia. cbn [app skipn].
  rewrite firstn_app, Nat.sub_diag, firstn_all. cbn [firstn]. apply app_nil_r.
Qed.

Lemma parse_chunk comp r i : dashless comp -> parse_name (chunk_name comp r i) = Ok (r, i).
Proof.
  intros Hc. unfold parse_name, chunk_name.
  set (suf := match comp with None | Some [] => [] | Some c => dot :: c end).
  assert (Hs : ~ In dash suf).
  { unfold suf. destruct comp as [[|x c]|]; cbn in *; try tauto.
    intros [H|[H|H]]; [unfold dot, dash in H; discriminate H|apply Hc; left; exact H|apply Hc; right; exact H]. }
  replace (codes "chunk-" ++ dec r ++ [dash] ++ dec i ++ suf ++ codes ".bin")
    with (codes "chunk-" ++ (dec r ++ dash :: dec i ++ suf) ++ codes ".bin")
    by (rewrite <- !app_assoc; cbn [app]; rewrite <- !app_assoc; reflexivity).
  change 6 with (length (codes "chunk-")). change 4 with (length (codes ".bin")). rewrite cut_mid.
  rewrite split_at by (apply digits_not; [apply dec_digits|exact not_digit_dash]).
  rewrite split_none.
  2:{ rewrite in_app_iff. intros [H|H]; [exact (digits_not _ _ (dec_digits i) not_digit_dash H)|exact (Hs H)]. }
  rewrite int_of_dec. cbn [bind].
  assert (E : exists ps, split dot (dec i ++ suf) = dec i :: ps).
  { unfold suf. destruct comp as [[|x c]|].
    - rewrite app_nil_r. exists []. apply split_none. apply digits_not; [apply dec_digits|exact not_digit_dot].
    - eexists. apply split_at. apply digits_not; [apply dec_digits|exact not_digit_dot].
    - rewrite app_nil_r. exists []. apply split_none. apply digits_not; [apply dec_digits|exact not_digit_dot]. }
  destruct E as [ps ->]. rewrite int_of_dec. reflexivity.
Qed.

(** Different pairs have different names, whatever the compressions. *)
Lemma chunk_name_inj comp comp' r i r' i' :
  chunk_name comp r i = chunk_name comp' r' i' -> r = r' /\ i = i'.
Proof.
  unfold chunk_name. intros H. apply app_inv_head in H.
  assert (split_dec : forall a a' x x' s s', ~ is_digit x -> ~ is_digit x' ->
            dec a ++ x :: s = dec a' ++ x' :: s' -> dec a = dec a' /\ s = s').
  { intros a a'. pose proof (dec_digits a) as Da. pose proof (dec_digits a') as Da'.
    revert Da'. generalize (dec a'). induction Da as [|c l Hc _ IH]; intros l' Da' x x' s s' Hx Hx' E.
    - destruct l' as [|c' l']; cbn in E; [injection E as _ E; split; auto|].
      injection E as -> _. pose proof (Forall_inv Da'). contradiction.
    - destruct l' as [|c' l']; cbn in E.
      + injection E as -> _. contradiction.
      + injection E as -> E. pose proof (Forall_inv_tail Da') as H2. destruct (IH l' H2 x x' s s' Hx Hx' E) as [-> ->]. split; reflexivity. }
  cbn [app] in H. apply split_dec in H; [|exact not_digit_dash|exact not_digit_dash]. destruct H as [Hr H].
  split; [exact (dec_inj _ _ Hr)|].
  assert (tail : forall c : option str, exists t,
            match c with None | Some [] => [] | Some c => dot :: c end ++ codes ".bin" = dot :: t).
  { intros [[|x c]|]; cbn; eexists; reflexivity. }
  destruct (tail comp) as [t Et], (tail comp') as [t' Et']. rewrite Et, Et' in H.
  apply split_dec in H; [|exact not_digit_dot|exact not_digit_dot]. apply dec_inj. tauto.
Qed.

(** Append mode: every recorded number is above all existing ones of its rank. *)
Lemma nth_upd {A} i j (f : A -> A) l d : i < length l -> nth j (upd i f l) d = if i =? j then f (nth j l d) else nth j l d.
Proof.
  revert i j. induction l as [|x l IH]; intros i j H; [cbn in H; lia|].
  destruct i as [|i], j as [|j]; cbn [upd nth Nat.eqb]; try reflexivity. apply IH. cbn in H; lia.
Qed.

Lemma next_indexes_ok nw pairs : forall names state,
  length state = nw ->
  Forall2 (fun name p => parse_name name = Ok p) names pairs ->
  exists st, next_indexes nw names state = Ok st /\ length st = nw /\
    (forall w, nth w state 0 <= nth w st 0) /\
    (forall w i, w < nw -> In (w, i) pairs -> i < nth w st 0) /\
    (forall w, w < nw -> nth w st 0 = nth w state 0 \/ exists i, In (w, i) pairs /\ nth w st 0 = i + 1).
Proof.
  induction pairs as [|[r i] pairs IH]; intros names state Hl F; inversion F as [|name p names' pairs' Hn F']; subst.
  - exists state. cbn. split; [reflexivity|]. split; [reflexivity|]. split; [reflexivity|]. split; [intros w i _ []|auto].
  - cbn [next_indexes]. rewrite Hn. cbn [bind].
    set (state' := if _ && _ then _ else _).
    assert (Hl' : length state' = length state) by (unfold state'; destruct (_ && _); [apply upd_length|reflexivity]).
    destruct (IH names' state' Hl' F') as (st & E & L & M & A & S). exists st. split; [exact E|]. split; [exact L|].
    assert (Up : forall w, nth w state 0 <= nth w state' 0).
    { intros w. unfold state'. destruct (r <? length state) eqn:Hr; cbn [andb]; [|lia].
      destruct (nth r state 0 <=? i) eqn:Hi; [|lia]. apply Nat.ltb_lt in Hr. apply Nat.leb_le in Hi.
      rewrite nth_upd by exact Hr. destruct (Nat.eqb_spec r w) as [<-|]; lia. }
    split; [intros w; specialize (Up w); specialize (M w); lia|]. split.
    + intros w j Hw [Heq|Hin]; [|apply A; assumption]. injection Heq as -> ->. specialize (M w).
      enough (j < nth w state' 0) by lia. unfold state'.
      replace (w <? length state) with true by (symmetry; apply Nat.ltb_lt; exact Hw). cbn [andb].
      destruct (Nat.leb_spec (nth w state 0) j); [|lia]. rewrite nth_upd by exact Hw. rewrite Nat.eqb_refl. lia.
    + intros w Hw. destruct (S w Hw) as [Hs|(j & Hj & Hs)]; [|right; exists j; split; [right; exact Hj|exact Hs]].
      rewrite Hs. unfold state'. destruct (r <? length state) eqn:Hr; cbn [andb]; [|left; reflexivity].
      destruct (nth r state 0 <=? i); [|left; reflexivity]. apply Nat.ltb_lt in Hr. rewrite nth_upd by exact Hr.
      destruct (Nat.eqb_spec r w) as [<-|]; [right; exists i; split; [left; reflexivity|reflexivity]|left; reflexivity].
Qed.

Lemma append_fresh nw existing : 
  Forall (fun e => dashless (fst e)) existing ->
  let names := map (fun e => chunk_name (fst e) (fst (snd e)) (snd (snd e))) existing in
  exists st, append_state nw names = Ok st /\ length st = nw /\
    (forall w j comp, w < nw -> ~ In (new_name comp st nw 0 w j) names) /\
    (forall w, w < nw -> nth w st 0 = 0 \/ exists i, In (w, i) (map snd existing) /\ nth w st 0 = i + 1).
Proof.
  intros Hd names. destruct (next_indexes_ok nw (map snd existing) names (repeat 0 nw)) as (st & E & L & _ & A & S).
  - apply repeat_length.
  - unfold names. induction Hd as [|[c [r i]] l Hc _ IH]; cbn [map]; constructor; [|exact IH]. apply parse_chunk. exact Hc.
  - exists st. split; [exact E|]. split; [exact L|]. split.
    + intros w j comp Hw Hin. unfold names in Hin. apply in_map_iff in Hin. destruct Hin as ([c [r i]] & Heq & Hin).
      unfold new_name in Heq. cbn [fst snd] in Heq. apply chunk_name_inj in Heq. destruct Heq as [-> ->].
      apply (in_map snd) in Hin. cbn [snd Nat.mul Nat.add] in Hin. specialize (A w _ Hw Hin). lia.
    + intros w Hw. destruct (S w Hw) as [H|H]; [left; rewrite H; apply nth_repeat|right; exact H].
Qed.

Lemma new_names_distinct comp st nw node w j node' w' j' :
  w < nw -> w' < nw -> new_name comp st nw node w j = new_name comp st nw node' w' j' -> node = node' /\ w = w' /\ j = j'.
Proof.
  intros Hw Hw' H. apply chunk_name_inj in H. destruct H as [H1 H2].
  assert (node = node' /\ w = w') as [-> ->].
  { assert (node = node').
    { assert ((node * nw + w) / nw = node) by (rewrite Nat.div_add_l by lia; rewrite Nat.div_small by lia; lia).
      assert ((node' * nw + w') / nw = node') by (rewrite Nat.div_add_l by lia; rewrite Nat.div_small by lia; lia). congruence. }
    subst. lia. }
  repeat split. lia.
Qed.

(** Checkpoints. *)
Lemma starts_app p s : starts p (p ++ s) = true.
Proof. induction p as [|a p IH]; [reflexivity|]. cbn. rewrite N.eqb_refl. exact IH. Qed.
Lemma contains_app a p s : contains p (a ++ p ++ s) = true.
Proof.
  induction a as [|x a IH]; cbn [app].
  - destruct p as [|y p]; [destruct s; reflexivity|]. cbn [app contains]. pose proof (starts_app (y :: p) s) as H. cbn [app] in H.
    rewrite H. reflexivity.
  - cbn [contains]. rewrite IH. apply orb_true_r.
Qed.

Lemma remove_uuid_checkpoint dir rank uuid :
  length uuid = 32 -> contains (codes ".checkpoints") dir = true ->
  remove_uuid (dir ++ checkpoint_name rank uuid) = dir ++ checkpoint_read rank.
Proof.
  intros Hu Hd. unfold remove_uuid.
  assert (C : forall p s t, contains p s = true -> contains p (s ++ t) = true).
  { intros p s t. revert p. induction s as [|x s IH]; intros p H; cbn [app].
    - destruct p; [destruct t; reflexivity|discriminate H].
    - cbn [contains] in *. apply orb_true_iff in H. destruct H as [H|H]; [|rewrite (IH _ H); apply orb_true_r].
      apply orb_true_iff; left. revert H. change (x :: s ++ t) with ((x :: s) ++ t). generalize (x :: s) as q. clear.
      induction p as [|a p IH]; intros q H; [reflexivity|]. destruct q as [|b q]; [discriminate H|]. cbn [starts app] in *.
      apply andb_true_iff in H. destruct H as [H1 H2]. rewrite H1. cbn. apply IH. exact H2. }
  rewrite C by exact Hd. unfold checkpoint_name, checkpoint_read. rewrite !app_assoc.
  f_equal. rewrite <- !app_assoc. set (a := dir ++ codes "checkpoint-" ++ dec rank).
  replace (dir ++ codes "checkpoint-" ++ dec rank ++ [dash] ++ uuid ++ codes ".json") with (a ++ [dash] ++ uuid ++ codes ".json")
    by (unfold a; rewrite <- !app_assoc; reflexivity).
  rewrite !app_length, Hu. change (length (codes ".json")) with 5. cbn [length].
  replace (length a + (1 + (32 + 5)) - 38) with (length a) by lia.
  rewrite firstn_app, Nat.sub_diag, firstn_all, firstn_O, app_nil_r. unfold a. rewrite <- ?app_assoc. reflexivity.
Qed.

(** ** Other names *)
Lemma split_length c s : length (split c s) = Datatypes.S (count_occ N.eq_dec s c).
Proof.
  induction s as [|x s IH]; [reflexivity|]. cbn [split count_occ]. destruct (N.eqb_spec x c) as [E|E], (N.eq_dec x c) as [E'|E']; try contradiction.
  - cbn [length]. rewrite IH. reflexivity.
  - destruct (split c s) as [|p ps]; [discriminate IH|]. exact IH.
Qed.

Lemma dashes_refused name : count_occ N.eq_dec (cut 6 4 name) dash <> 1 -> parse_name name = Err AssertionError.
Proof.
  intros H. unfold parse_name. pose proof (split_length dash (cut 6 4 name)) as L.
  destruct (split dash (cut 6 4 name)) as [|a [|b [|d l]]]; cbn [length] in L; try reflexivity. lia.
Qed.

Lemma letter_no_digit c : (58 <= c)%N -> digit c = None.
Proof. intros H. unfold digit. destruct (N.ltb_spec c 48); [lia|]. apply nth_error_None. cbn [length]. lia. Qed.
Lemma undigits_letter s c : In c s -> (58 <= c)%N -> undigits s = None.
Proof.
  induction s as [|x s IH]; intros Hi Hc; [destruct Hi|]. cbn [undigits]. destruct Hi as [->|Hi].
  - rewrite letter_no_digit by exact Hc. reflexivity.
  - rewrite (IH Hi Hc). destruct (digit x); reflexivity.
Qed.
Lemma int_of_letter s c : In c s -> (58 <= c)%N -> int_of s = Err ValueError.
Proof. intros Hi Hc. unfold int_of. rewrite (undigits_letter s c Hi Hc). destruct s; reflexivity. Qed.
Lemma int_of_err s e : int_of s = Err e -> e = ValueError.
Proof. unfold int_of. destruct s; [congruence|]. destruct (undigits _); congruence. Qed.

Lemma letters_refused name r i t c : cut 6 4 name = r ++ dash :: i ++ t -> ~ In dash r -> ~ In dash (i ++ t) ->
  ~ In dot i -> (t = [] \/ exists t', t = dot :: t') -> In c (r ++ i) -> (58 <= c)%N -> parse_name name = Err ValueError.
Proof.
  intros E Hr Hi Hd Ht Hc H58. unfold parse_name. rewrite E, (split_at dash r _ Hr), (split_none dash _ Hi).
  assert (S : exists ps, split dot (i ++ t) = i :: ps).
  { destruct Ht as [Z|[t' Z]]; subst t; [exists []; rewrite app_nil_r; apply split_none; exact Hd|eexists; apply split_at; exact Hd]. }
  destruct S as [ps ->]. apply in_app_iff in Hc. destruct Hc as [Hc|Hc].
  - rewrite (int_of_letter r c Hc H58). reflexivity.
  - rewrite (int_of_letter i c Hc H58). destruct (int_of r) as [n|e] eqn:Er; [reflexivity|]. apply int_of_err in Er. subst e. reflexivity.
Qed.

Lemma next_indexes_refused nw name post e : parse_name name = Err e -> forall pre st,
  Forall (fun n => exists p, parse_name n = Ok p) pre -> next_indexes nw (pre ++ name :: post) st = Err e.
Proof.
  intros E. induction pre as [|n pre IH]; intros st F; cbn [app next_indexes]; [rewrite E; reflexivity|].
  inversion F as [|? ? (p & Hp) F']; subst. rewrite Hp. cbn [bind]. destruct p as [a b]. apply IH. exact F'.
Qed.
