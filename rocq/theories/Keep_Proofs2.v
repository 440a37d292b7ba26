(** The programs of the workers, in any order: every schedule of them is proper. *)
From Coq Require Import Lia.
From Verif Require Import Base Keep_Model Keep_Spec Keep_Proofs.
Local Ltac Zify.zify_post_hook ::= idtac.

Definition got (c : nat) (l : list act) : nat := length (filter (is_get c) l).
Definition given (c : nat) (l : list act) : nat := length (filter (is_give c) l).

Lemma gets_worker w c es : gets w c es = got c (of_worker w es).
Proof.
  unfold gets, count, got, of_worker. induction es as [|[v a] es IH]; [reflexivity|]. cbn [filter fst snd].
  destruct (v =? w); cbn [andb map filter snd]; [|exact IH]. destruct (is_get c a); cbn [length]; rewrite IH; reflexivity.
Qed.
Lemma gives_worker w c es : gives w c es = given c (of_worker w es).
Proof.
  unfold gives, count, given, of_worker. induction es as [|[v a] es IH]; [reflexivity|]. cbn [filter fst snd].
  destruct (v =? w); cbn [andb map filter snd]; [|exact IH]. destruct (is_give c a); cbn [length]; rewrite IH; reflexivity.
Qed.
Lemma of_worker_app w es es' : of_worker w (es ++ es') = of_worker w es ++ of_worker w es'.
Proof. unfold of_worker. rewrite filter_app, map_app. reflexivity. Qed.

Lemma got_app c l l' : got c (l ++ l') = got c l + got c l'.
Proof. unfold got. rewrite filter_app, app_length. reflexivity. Qed.
Lemma given_app c l l' : given c (l ++ l') = given c l + given c l'.
Proof. unfold given. rewrite filter_app, app_length. reflexivity. Qed.

Lemma got_gets c cs : got c (map Get cs) = count_occ Nat.eq_dec cs c.
Proof.
  unfold got. induction cs as [|x cs IH]; [reflexivity|]. cbn [map filter is_get count_occ].
  destruct (Nat.eqb_spec x c) as [->|Hn]; destruct (Nat.eq_dec _ c) as [E|E]; cbn [length]; try congruence; rewrite IH; reflexivity.
Qed.
Lemma given_gets c cs : given c (map Get cs) = 0.
Proof. unfold given. induction cs as [|x cs IH]; [reflexivity|exact IH]. Qed.

Lemma got_consume c cs : forall ahead, got c (consume ahead cs) <= count_occ Nat.eq_dec ahead c.
Proof.
  induction cs as [|x cs IH]; intros ahead; [cbn; lia|]. cbn [consume]. unfold got. cbn [filter is_get].
  destruct ahead as [|y ahead]; [exact (IH [])|]. cbn [filter is_get count_occ]. specialize (IH ahead). unfold got in IH.
  destruct (Nat.eqb_spec y c) as [->|Hn]; destruct (Nat.eq_dec _ c) as [E|E]; cbn [length]; try congruence; lia.
Qed.

(** A prefix of what is left to do, with the chunks [pend] fetched and not given back. *)
Lemma consume_order c : forall n pend ahead q r, length (pend ++ ahead) = n -> NoDup (pend ++ ahead) -> (pend = [] -> ahead = []) ->
  consume ahead (pend ++ ahead) = q ++ r -> given c q <= got c q + count_occ Nat.eq_dec pend c.
Proof.
  induction n as [|n IH]; intros pend ahead q r Hn Hd He E.
  - destruct pend; [|discriminate Hn]. rewrite He in E by reflexivity. destruct q; [cbn; lia|discriminate E].
  - destruct pend as [|x pend]; [rewrite (He eq_refl) in Hn; discriminate Hn|]. cbn [app] in *. cbn [consume] in E. inversion Hd as [|? ? Hx Hd']; subst.
    destruct q as [|a q]; [cbn; lia|]. cbn [app] in E. injection E as <- E. unfold given, got. cbn [filter is_give is_get].
    assert (K : given c q <= got c q + count_occ Nat.eq_dec pend c).
    { destruct q as [|b q]; [cbn; lia|]. cbn [app] in E. injection E as <- E. unfold given, got. cbn [filter is_give is_get]. fold (given c q) (got c q).
      destruct ahead as [|y ahead].
      - rewrite app_nil_r in *. apply (IH pend [] q r); [rewrite app_nil_r; cbn [length] in Hn; lia|rewrite app_nil_r; exact Hd'|reflexivity|rewrite app_nil_r; exact E].
      - destruct q as [|b q]; [cbn; lia|]. cbn [app] in E. injection E as <- E. unfold given, got. cbn [filter is_give is_get]. fold (given c q) (got c q).
        assert (A : pend ++ y :: ahead = (pend ++ [y]) ++ ahead) by (rewrite <- app_assoc; reflexivity). rewrite A in *.
        pose proof (IH (pend ++ [y]) ahead q r) as IH'. rewrite count_occ_app in IH'. cbn [count_occ] in IH'.
        assert (X : given c q <= got c q + (count_occ Nat.eq_dec pend c + (if Nat.eq_dec y c then 1 else 0))).
        { apply IH'; [cbn [length] in Hn; lia|exact Hd'|intros F; destruct pend; discriminate F|exact E]. }
        destruct (Nat.eqb_spec y c), (Nat.eq_dec y c); cbn [length]; fold (got c q); try congruence; lia. }
    cbn [count_occ]. fold (given c q) (got c q). destruct (Nat.eqb_spec x c) as [->|Hne]; destruct (Nat.eq_dec _ c); cbn [length]; fold (given c q); try congruence; lia.
Qed.

Lemma firstn_app_split {A} (l q r : list A) m : l ++ m = q ++ r -> (exists r', l = q ++ r') \/ (exists q', q = l ++ q' /\ m = q' ++ r).
Proof.
  revert q. induction l as [|x l IH]; intros [|y q] E; [left; exists []; reflexivity|right; exists (y :: q); split; [reflexivity|exact E]|left; exists (x :: l); reflexivity|].
  cbn [app] in E. injection E as -> E. destruct (IH q E) as [(r' & ->)|(q' & -> & ->)]; [left; exists r'; reflexivity|right; exists q'; split; reflexivity].
Qed.

Lemma program_order p cs c q r : 1 <= p -> NoDup cs -> program p cs = q ++ r -> given c q <= got c q <= 1.
Proof.
  intros Hp Hd E. split.
  - unfold program in E. destruct (firstn_app_split _ _ _ _ E) as [(r' & E')|(q' & -> & E')].
    + assert (G : given c q = 0); [|lia]. pose proof (given_gets c (firstn p cs)) as G. rewrite E', given_app in G. lia.
    + rewrite given_app, got_app, given_gets, got_gets. rewrite <- (firstn_skipn p cs) in E' at 2. rewrite <- (firstn_skipn p cs) in Hd.
      pose proof (consume_order c (length (firstn p cs ++ skipn p cs)) (firstn p cs) (skipn p cs) q' r eq_refl Hd) as K.
      enough (given c q' <= got c q' + count_occ Nat.eq_dec (firstn p cs) c) by lia. apply K; [|exact E'].
      intros F. destruct p as [|p]; [lia|]. destruct cs; [reflexivity|discriminate F].
  - assert (G : got c (program p cs) <= 1).
    { unfold program. rewrite got_app, got_gets. pose proof (got_consume c cs (skipn p cs)) as K.
      pose proof (proj1 (NoDup_count_occ Nat.eq_dec cs) Hd c) as D. rewrite <- (firstn_skipn p cs), count_occ_app in D. lia. }
    rewrite E, got_app in G. lia.
Qed.

Lemma schedule_proper p css es : 1 <= p -> Forall (@NoDup nat) css -> schedule (map (program p) css) es -> proper es.
Proof.
  intros Hp Hd [Hw Hs] pre post w c ->. rewrite gets_worker, gives_worker. rewrite map_length in *.
  destruct (Nat.lt_ge_cases w (length css)) as [Hlt|Hge].
  - specialize (Hs w Hlt). rewrite of_worker_app in Hs. rewrite nth_indep with (d' := program p []) in Hs by (rewrite map_length; exact Hlt). rewrite map_nth in Hs.
    apply (program_order p (nth w css []) c _ (of_worker w post) Hp); [|symmetry; exact Hs]. rewrite Forall_forall in Hd. apply Hd, nth_In, Hlt.
  - assert (E : of_worker w pre = []).
    { apply Forall_app in Hw. destruct Hw as [Hw _]. clear -Hw Hge. unfold of_worker. induction Hw as [|[v a] es H _ IH]; [reflexivity|]. cbn [filter fst] in *. destruct (Nat.eqb_spec v w); [lia|exact IH]. }
    rewrite E. cbn. lia.
Qed.

(** * How often a chunk is downloaded *)
Lemma sum_zero (f : nat -> nat) l : (forall w, In w l -> f w = 0) -> list_sum (map f l) = 0.
Proof. induction l as [|x l IH]; intros H; [reflexivity|]. change (list_sum (map f (x :: l))) with (f x + list_sum (map f l)). rewrite H by (left; reflexivity). apply IH. intros w Hw. apply H. right. exact Hw. Qed.
Lemma sum_add (f g : nat -> nat) l : list_sum (map (fun w => f w + g w) l) = list_sum (map f l) + list_sum (map g l).
Proof. induction l as [|x l IH]; [reflexivity|]. change (list_sum (map ?h (x :: l))) with (h x + list_sum (map h l)) in *. cbn [map] in *. change (list_sum (?a :: ?b)) with (a + list_sum b). rewrite IH. lia. Qed.
Lemma sum_one v n : forall s, s <= v < s + n -> list_sum (map (fun w => if v =? w then 1 else 0) (seq s n)) = 1.
Proof.
  induction n as [|n IH]; intros s H; [lia|]. cbn [seq map]. change (list_sum (?a :: ?b)) with (a + list_sum b). destruct (Nat.eqb_spec v s) as [->|Hn].
  - rewrite sum_zero; [reflexivity|]. intros w Hw. apply in_seq in Hw. destruct (Nat.eqb_spec s w); [lia|reflexivity].
  - rewrite IH by lia. reflexivity.
Qed.

Lemma gets_total n c es : Forall (fun e : nat * act => fst e < n) es ->
  count (fun e => is_get c (snd e)) es = list_sum (map (fun w => gets w c es) (seq 0 n)).
Proof.
  induction 1 as [|[v a] es H _ IH]; [symmetry; apply sum_zero; reflexivity|].
  assert (E : forall w, gets w c ((v, a) :: es) = (if v =? w then (if is_get c a then 1 else 0) else 0) + gets w c es).
  { intros w. unfold gets, count. cbn [filter fst snd]. destruct (v =? w); cbn [andb]; [|reflexivity]. destruct (is_get c a); reflexivity. }
  rewrite (map_ext _ _ E), sum_add, <- IH. unfold count. cbn [filter snd]. destruct (is_get c a); cbn [length].
  - rewrite sum_one by (cbn in H; lia). reflexivity.
  - rewrite sum_zero; [reflexivity|]. intros w _. destruct (v =? w); reflexivity.
Qed.

Lemma got_program p cs c : NoDup cs -> got c (program p cs) <= (if in_dec Nat.eq_dec c cs then 1 else 0).
Proof.
  intros Hd. unfold program. rewrite got_app, got_gets. pose proof (got_consume c cs (skipn p cs)) as K.
  pose proof (proj1 (NoDup_count_occ Nat.eq_dec cs) Hd c) as D. pose proof (firstn_skipn p cs) as E.
  assert (T : count_occ Nat.eq_dec cs c = count_occ Nat.eq_dec (firstn p cs) c + count_occ Nat.eq_dec (skipn p cs) c) by (rewrite <- count_occ_app, E; reflexivity).
  destruct (in_dec Nat.eq_dec c cs) as [_|Hn]; [lia|]. apply (count_occ_not_In Nat.eq_dec) in Hn. lia.
Qed.

(** The workers that have a chunk. *)
Definition having (c : nat) (css : list (list nat)) : list nat :=
  filter (fun w => if in_dec Nat.eq_dec c (nth w css []) then true else false) (seq 0 (length css)).

Lemma sum_filter (P : nat -> bool) l : list_sum (map (fun w => if P w then 1 else 0) l) = length (filter P l).
Proof. induction l as [|x l IH]; [reflexivity|]. cbn [map filter]. change (list_sum (?a :: ?b)) with (a + list_sum b). rewrite IH. destruct (P x); reflexivity. Qed.

Lemma sum_le (f g : nat -> nat) l : (forall w, In w l -> f w <= g w) -> list_sum (map f l) <= list_sum (map g l).
Proof. induction l as [|x l IH]; intros H; [reflexivity|]. cbn [map]. change (list_sum (?a :: ?b)) with (a + list_sum b). pose proof (H x (or_introl eq_refl)). assert (list_sum (map f l) <= list_sum (map g l)) by (apply IH; intros w Hw; apply H; right; exact Hw). lia. Qed.

Lemma downloads_workers tell p css es c : Forall (@NoDup nat) css -> schedule (map (program p) css) es ->
  times c (n_downloads (run tell es n_init)) <= length (having c css).
Proof.
  intros Hd [Hw Hs]. rewrite map_length in *. pose proof (downloads_le tell c es n_init) as L. cbn [n_init n_downloads] in L. change (times c []) with 0 in L.
  rewrite (gets_total _ _ _ Hw) in L. etransitivity; [exact L|]. cbn [Nat.add]. unfold having. rewrite <- sum_filter. apply sum_le. intros w Hin. apply in_seq in Hin.
  rewrite gets_worker, Hs by lia. rewrite nth_indep with (d' := program p []) by (rewrite map_length; lia). rewrite map_nth.
  etransitivity; [apply got_program; rewrite Forall_forall in Hd; apply Hd, nth_In; lia|]. destruct (in_dec Nat.eq_dec c (nth w css [])); lia.
Qed.

Lemma downloads_some tell c es : forall s, (n_file s c = true -> 1 <= times c (n_downloads s)) ->
  1 <= times c (n_downloads s) \/ count (fun e => is_get c (snd e)) es <> 0 -> 1 <= times c (n_downloads (run tell es s)).
Proof.
  induction es as [|[w a] es IH]; intros s Hf H; [destruct H as [H|H]; [exact H|cbn in H; lia]|]. cbn [run].
  assert (M : times c (n_downloads s) <= times c (n_downloads (step (tell w) a s))).
  { destruct a; cbn [step]; unfold get, give, apply_delete; [|cbn [n_downloads]; lia|destruct (0 <? _); cbn [n_downloads]; lia]. cbn [n_downloads]. destruct (n_file s c0); [lia|]. rewrite times_app. lia. }
  assert (F : n_file (step (tell w) a s) c = true -> 1 <= times c (n_downloads (step (tell w) a s))).
  { destruct a as [x|x|x]; cbn [step].
    - unfold get. cbn [n_file n_downloads]. destruct (Nat.eq_dec x c) as [->|Hn].
      + intros _. destruct (n_file s c) eqn:E; [exact (Hf eq_refl)|]. rewrite times_app. unfold times at 2. cbn [count_occ]. destruct (Nat.eq_dec c c); [lia|congruence].
      + rewrite put_other by congruence. intros E. specialize (Hf E). destruct (n_file s x); [exact Hf|]. rewrite times_app. lia.
    - exact Hf.
    - unfold apply_delete. destruct (0 <? _); [exact Hf|]. cbn [n_file n_downloads]. unfold put. destruct (c =? x); [discriminate|exact Hf]. }
  apply IH; [exact F|]. destruct H as [H|H]; [left; lia|]. unfold count in H. cbn [filter snd] in H.
  destruct (is_get c a) eqn:E; [|right; exact H]. left. destruct a as [x|x|x]; try discriminate E. cbn [is_get] in E. apply Nat.eqb_eq in E. subst x. apply F. cbn [step get n_file]. apply put_same.
Qed.
