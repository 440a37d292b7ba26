(** Proofs about shared chunks on the disk of a node. *)
From Coq Require Import Lia.
From Verif Require Import Base Assign_Model Skip_Model Keep_Model Keep_Spec.
Local Ltac Zify.zify_post_hook ::= idtac.

Lemma told_unused t t' a s : step t a s = step t' a s.
Proof. destruct a; reflexivity. Qed.

Lemma run_unused tell tell' es : forall s, run tell es s = run tell' es s.
Proof. induction es as [|[w a] es IH]; intros s; [reflexivity|]. cbn [run]. rewrite (told_unused (tell w) (tell' w)). apply IH. Qed.

Lemma run_app tell es es' : forall s, run tell (es ++ es') s = run tell es' (run tell es s).
Proof. induction es as [|[w a] es IH]; intros s; [reflexivity|]. cbn [app run]. apply IH. Qed.

Lemma count_app P es es' : count P (es ++ es') = count P es + count P es'.
Proof. unfold count. rewrite filter_app, app_length. reflexivity. Qed.

Lemma gets_app w c es e : gets w c (es ++ [e]) = gets w c es + (if (fst e =? w) && is_get c (snd e) then 1 else 0).
Proof. unfold gets. rewrite count_app. f_equal. unfold count. cbn [filter]. destruct (_ && _); reflexivity. Qed.
Lemma gives_app w c es e : gives w c (es ++ [e]) = gives w c es + (if (fst e =? w) && is_give c (snd e) then 1 else 0).
Proof. unfold gives. rewrite count_app. f_equal. unfold count. cbn [filter]. destruct (_ && _); reflexivity. Qed.

Lemma proper_pre es e : proper (es ++ [e]) -> proper es.
Proof. intros H pre post w c ->. apply (H pre (post ++ [e])). rewrite app_assoc. reflexivity. Qed.

(** The counter is the number of the workers that use the chunk. *)
Definition counted (es : list (nat * act)) (s : node) : Prop :=
  forall c, exists hs, NoDup hs /\ n_count s c = length hs /\ (forall w, In w hs <-> in_use w c es) /\ (hs <> [] -> n_file s c = true).

Lemma put_same {A} (f : nat -> A) c v : put f c v c = v.
Proof. unfold put. rewrite Nat.eqb_refl. reflexivity. Qed.
Lemma put_other {A} (f : nat -> A) c v x : x <> c -> put f c v x = f x.
Proof. intros H. unfold put. destruct (Nat.eqb_spec x c); [congruence|reflexivity]. Qed.

Lemma counted_step t es w a s : proper (es ++ [(w, a)]) -> counted es s -> counted (es ++ [(w, a)]) (step t a s).
Proof.
  intros Hp Hc c. destruct (Hc c) as (hs & Hn & Hl & Hu & Hf).
  assert (Same : (forall c', a = Get c' -> c' <> c) -> (forall c', a = Give c' -> c' <> c) -> forall v, in_use v c (es ++ [(w, a)]) <-> in_use v c es).
  { intros H1 H2 v. unfold in_use. rewrite gets_app, gives_app. cbn [fst snd]. destruct a as [x|x|x]; cbn [is_get is_give].
    - destruct (Nat.eqb_spec x c) as [E|_]; [destruct (H1 x eq_refl E)|]. rewrite !andb_false_r. lia.
    - destruct (Nat.eqb_spec x c) as [E|_]; [destruct (H2 x eq_refl E)|]. rewrite !andb_false_r. lia.
    - rewrite !andb_false_r. lia. }
  pose proof (Hp es [(w, a)] w c eq_refl) as P1. pose proof (Hp (es ++ [(w, a)]) [] w c (eq_sym (app_nil_r _))) as P2. rewrite gets_app, gives_app in P2. cbn [fst snd] in P2. rewrite Nat.eqb_refl in P2. cbn [andb] in P2.
  destruct a as [x|x|x]; cbn [step is_get is_give] in *.
  - destruct (Nat.eq_dec x c) as [->|Hne].
    + rewrite Nat.eqb_refl in P2. exists (w :: hs). unfold get. cbn [n_count n_file]. rewrite !put_same. split; [|split; [cbn [length]; lia|split; [|reflexivity]]].
      * constructor; [|exact Hn]. intros K. apply Hu in K. unfold in_use in K. lia.
      * intros v. cbn [In]. rewrite Hu. unfold in_use. rewrite gets_app, gives_app. cbn [fst snd is_get is_give]. rewrite Nat.eqb_refl, andb_true_r, andb_false_r.
        destruct (Nat.eqb_spec w v) as [->|Hv]; [|split; [intros [K|K]; [congruence|lia]|intros K; right; lia]]. split; [intros _; lia|intros _; left; reflexivity].
    + exists hs. unfold get. cbn [n_count n_file]. rewrite !put_other by congruence. split; [exact Hn|]. split; [exact Hl|]. split; [|exact Hf].
      intros v. rewrite Hu. symmetry. apply Same; intros c' E; [injection E as <-; exact Hne|discriminate E].
  - destruct (Nat.eq_dec x c) as [->|Hne].
    + rewrite Nat.eqb_refl in P2. assert (Hin : In w hs) by (apply Hu; unfold in_use; lia). apply in_split in Hin. destruct Hin as (l & r & ->).
      exists (l ++ r). unfold give. cbn [n_count n_file]. rewrite put_same. split; [exact (NoDup_remove_1 _ _ _ Hn)|]. rewrite Hl, !app_length. cbn [length]. split; [lia|]. split.
      * intros v. unfold in_use. rewrite gets_app, gives_app. cbn [fst snd is_get is_give]. rewrite Nat.eqb_refl, andb_true_r, andb_false_r.
        specialize (Hu v). unfold in_use in Hu. rewrite in_app_iff in *. cbn [In] in Hu. pose proof (NoDup_remove_2 _ _ _ Hn) as Hw. rewrite in_app_iff in Hw.
        destruct (Nat.eqb_spec w v) as [->|Hv]; [split; [intros K; destruct (Hw K)|intros K; lia]|]. split; [intros K; apply Nat.lt_le_trans with (gets v c es); [|lia]; rewrite Nat.add_0_r; apply Hu; tauto|].
        intros K. assert (X : gives v c es < gets v c es) by lia. apply Hu in X. destruct X as [X|[X|X]]; [left; exact X|congruence|right; exact X].
      * intros _. apply Hf. intros K. destruct l; discriminate K.
    + exists hs. unfold give. cbn [n_count n_file]. rewrite !put_other by congruence. split; [exact Hn|]. split; [exact Hl|]. split; [|exact Hf].
      intros v. rewrite Hu. symmetry. apply Same; intros c' E; [discriminate E|injection E as <-; exact Hne].
  - exists hs. assert (S : forall v, In v hs <-> in_use v c (es ++ [(w, Remove x)])) by (intros v; rewrite Hu; symmetry; apply Same; intros c' E; discriminate E).
    unfold apply_delete. destruct (Nat.ltb_spec 0 (n_count s x)) as [Hx|Hx]; cbv zeta; [split; [exact Hn|]; split; [exact Hl|]; split; [exact S|exact Hf]|].
    cbn [n_count n_file]. split; [exact Hn|]. split; [exact Hl|]. split; [exact S|]. intros K. rewrite put_other; [exact (Hf K)|]. intros <-. destruct hs; [congruence|]. cbn [length] in Hl. lia.
Qed.

Lemma counted_run tell es : proper es -> counted es (run tell es n_init).
Proof.
  induction es as [|[w a] es IH] using rev_ind; intros Hp.
  - intros c. exists []. split; [constructor|]. split; [reflexivity|]. split; [intros w; unfold in_use, gets, gives, count; cbn; split; [intros []|lia]|congruence].
  - rewrite run_app. cbn [run]. apply counted_step; [exact Hp|]. apply IH. exact (proper_pre _ _ Hp).
Qed.

(** Downloads. *)
Lemma times_app c l l' : times c (l ++ l') = times c l + times c l'.
Proof. unfold times. apply count_occ_app. Qed.

Lemma downloads_le tell c es : forall s, times c (n_downloads (run tell es s)) <= times c (n_downloads s) + count (fun e => is_get c (snd e)) es.
Proof.
  induction es as [|[w a] es IH]; intros s; [cbn; lia|]. cbn [run]. etransitivity; [apply IH|]. unfold count. cbn [filter snd].
  destruct a as [x|x|x]; cbn [step is_get is_give].
  - unfold get. cbn [n_downloads]. destruct (n_file s x).
    + destruct (x =? c); cbn [length]; lia.
    + rewrite times_app. unfold times at 2. cbn [count_occ]. destruct (Nat.eq_dec x c) as [->|Hn]; [rewrite Nat.eqb_refl; cbn [length]; lia|].
      destruct (Nat.eqb_spec x c); [congruence|]. lia.
  - cbn [give n_downloads]. lia.
  - unfold apply_delete. destruct (0 <? _); cbn [n_downloads]; lia.
Qed.

(** A chunk that is there and is not removed is not downloaded again. *)
Lemma downloads_there tell c es : forall s, n_file s c = true -> count (fun e => is_remove c (snd e)) es = 0 ->
  times c (n_downloads (run tell es s)) = times c (n_downloads s) /\ n_file (run tell es s) c = true.
Proof.
  induction es as [|[w a] es IH]; intros s Hf H; [split; [reflexivity|exact Hf]|]. cbn [run]. unfold count in H. cbn [filter snd] in H.
  destruct a as [x|x|x]; cbn [step is_remove] in *.
  - destruct (IH (get x s)) as [E F]; [|exact H|].
    + unfold get. cbn [n_file]. unfold put. destruct (c =? x); [reflexivity|exact Hf].
    + split; [|exact F]. rewrite E. unfold get. cbn [n_downloads]. destruct (n_file s x) eqn:Ex; [reflexivity|]. rewrite times_app. unfold times at 2. cbn [count_occ].
      destruct (Nat.eq_dec x c) as [->|_]; [congruence|lia].
  - destruct (IH (give x s) Hf H) as [E F]. split; [rewrite E; reflexivity|exact F].
  - destruct (Nat.eqb_spec x c) as [->|Hn]; [cbn in H; lia|]. destruct (IH (apply_delete (tell w) x s)) as [E F]; [|exact H|].
    + unfold apply_delete. destruct (0 <? _); [exact Hf|]. cbn [n_file]. rewrite put_other by congruence. exact Hf.
    + split; [|exact F]. rewrite E. unfold apply_delete. destruct (0 <? _); reflexivity.
Qed.

Lemma no_gets tell c es s : count (fun e => is_get c (snd e)) es = 0 -> times c (n_downloads (run tell es s)) <= times c (n_downloads s).
Proof. intros H. pose proof (downloads_le tell c es s). lia. Qed.

Lemma downloads_once tell c es es' :
  count (fun e => is_remove c (snd e)) es = 0 -> count (fun e => is_get c (snd e)) es' = 0 ->
  times c (n_downloads (run tell (es ++ es') n_init)) <= 1.
Proof.
  intros H H'. rewrite run_app. etransitivity; [apply no_gets; exact H'|].
  assert (G : forall s, n_file s c = false -> times c (n_downloads s) = 0 -> count (fun e => is_remove c (snd e)) es = 0 -> times c (n_downloads (run tell es s)) <= 1).
  { clear H. induction es as [|[w a] es IH]; intros s Hf Ht H; [cbn; lia|]. cbn [run]. unfold count in H. cbn [filter snd] in H. destruct a as [x|x|x]; cbn [step is_remove] in *.
    - destruct (Nat.eq_dec x c) as [->|Hn].
      + destruct (downloads_there tell c es (get c s)) as [E _]; [unfold get; cbn [n_file]; apply put_same|exact H|]. rewrite E. unfold get. cbn [n_downloads]. rewrite Hf, times_app, Ht. unfold times. cbn [count_occ].
        destruct (Nat.eq_dec c c); lia.
      + apply IH; [| |exact H]; unfold get; cbn [n_file n_downloads]; [rewrite put_other by congruence; exact Hf|]. destruct (n_file s x); [exact Ht|]. rewrite times_app, Ht. unfold times. cbn [count_occ]. destruct (Nat.eq_dec x c); [congruence|lia].
    - apply IH; [exact Hf|exact Ht|exact H].
    - destruct (x =? c); [cbn in H; lia|]. apply IH; [| |exact H]; unfold apply_delete; destruct (0 <? _); cbn [n_file n_downloads]; try exact Hf; try exact Ht. unfold put. destruct (c =? x); [reflexivity|exact Hf]. }
  apply G; [reflexivity|reflexivity|exact H].
Qed.
