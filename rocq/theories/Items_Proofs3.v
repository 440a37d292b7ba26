From Verif Require Import Base Dict Format_Model Format_Proofs Loader_Model Encrypt_Model Items_Model Items_Spec.
Local Ltac Zify.zify_post_hook ::= idtac.

(** * Several datasets with one PyTreeLoader *)
Section PyTrees.
Context (num : path -> nat) (d : disk) (filesize : path -> nat) (fields : path -> list (list bytes)) (n : nat).
Context (Hd : forall p, d (num p) = Some (stored (fields p))) (Hs : forall p, filesize p <= length (stored (fields p))).
Context (Hsmall : forall p, (blen (stored (fields p)) < two32)%N) (Hn : forall p, Forall (fun fs => length fs = n) (fields p)).

Definition yinv (st : yst) : Prop :=
  ys_conf st = Yc None n /\ forall q, y_path (ys_loader st) = Some q -> exists f, d q = Some f /\ y_handle (ys_loader st) = Some f.
Notation yok := (alike n fields).

Lemma item_small items i x : (blen (chunk_data items) < two32)%N -> nth_error items i = Some x -> (blen x < two32)%N.
Proof.
  intros H E. unfold chunk_data in H. apply nth_error_split in E. destruct E as (l1 & l2 & -> & _). rewrite !concat_app in H. cbn [concat] in H.
  unfold blen in *. rewrite !app_length in H. lia.
Qed.

Lemma y_step_ok o st : yinv st -> yok o -> own_sample fields o (snd (y_step num None d filesize o st)) /\ yinv (fst (y_step num None d filesize o st)).
Proof.
  intros [Ic Ip] Ho. destruct o as [conf|p i]; cbn [alike y_step own_sample] in *.
  - split; [reflexivity|]. cbn [fst]. split; [exact Ho|exact Ip].
  - rewrite Ic. cbn [yc_enc yc_fields]. unfold load_bytes.
    assert (E : exists l, open_chunk d (num p) (filesize p) (ys_loader st) = Ok l /\ y_handle l = Some (stored (fields p)) /\
              forall q, y_path l = Some q -> exists f, d q = Some f /\ y_handle l = Some f).
    { unfold open_chunk, same_path. destruct (y_path (ys_loader st)) as [q|] eqn:Eq; [destruct (Nat.eqb_spec (num p) q) as [<-|]|].
      - exists (ys_loader st). split; [reflexivity|]. destruct (Ip _ eq_refl) as (f & F1 & F2). rewrite Hd in F1. injection F1 as <-. split; [exact F2|].
        intros q X. rewrite Eq in X. injection X as <-. exists (stored (fields p)). auto.
      - rewrite Hd. rewrite (proj2 (Nat.leb_le _ _) (Hs p)). eexists. split; [reflexivity|]. cbn. split; [reflexivity|]. intros q' X. injection X as <-. eauto.
      - rewrite Hd. rewrite (proj2 (Nat.leb_le _ _) (Hs p)). eexists. split; [reflexivity|]. cbn. split; [reflexivity|]. intros q' X. injection X as <-. eauto. }
    destruct E as (l & -> & Hh & Hq). cbn [bind]. rewrite Hh.
    destruct (nth_error (fields p) i) as [fs|] eqn:Ef; [|apply nth_error_None in Ef; lia].
    set (raws := map (fun fs => encode_fields fs (map blen fs)) (fields p)).
    assert (Er : nth_error raws i = Some (encode_fields fs (map blen fs))) by (unfold raws; rewrite nth_error_map, Ef; reflexivity).
    change (item_offset i 0) with (item_offset (0 + i) 0). fold (load_item (chunk_data raws) (0 + i) 0).
    change (stored (fields p)) with (chunk_data raws).
    pose proof (load_item_ok raws i _ 0 (Hsmall p) Er) as EL. unfold load_item in EL. rewrite EL. cbn [bind].
    assert (El : length fs = n). { pose proof (Hn p) as HF. rewrite Forall_forall in HF. apply HF. apply nth_error_In in Ef. exact Ef. }
    rewrite <- El, (decode_encode fs) by (apply (item_small raws i); [apply Hsmall|exact Er]).
    split; [exists fs; auto|]. cbn [fst]. rewrite El. split; [reflexivity|exact Hq].
Qed.

Theorem shared_pytree os : Forall yok os -> Forall2 (own_sample fields) os (snd (y_run num None d filesize os (Yst (Yc None n) new_loader))).
Proof.
  intros H. assert (I0 : yinv (Yst (Yc None n) new_loader)) by (split; [reflexivity|intros q X; discriminate]).
  revert H I0. generalize (Yst (Yc None n) new_loader) as st. induction os as [|o os IH]; intros st H I0; [constructor|].
  apply Forall_cons_iff in H. destruct H as [Ho H]. destruct (y_step_ok o st I0 Ho) as [A B]. cbn [y_run].
  destruct (y_step num None d filesize o st) as [st1 out]. cbn [fst snd] in *. specialize (IH st1 H B).
  destruct (y_run num None d filesize os st1) as [st2 outs]. cbn [snd] in *. constructor; assumption.
Qed.
End PyTrees.

(** * Copying *)

Definition base_ok (h : held) : Prop := match h_kind h with Parquet _ => True | _ => h_cache h = true -> h_queue h = true end.
Lemma read_base h c b : base_ok h -> base_ok (h_read h c b) /\ h_kind (h_read h c b) = h_kind h.
Proof.
  unfold base_ok, h_read. cbv zeta. intros H. destruct (b && h_remote _); cbn [h_kind h_cache h_queue]; split; auto; destruct (h_kind h); auto; intros X; rewrite (H X); apply orb_true_r.
Qed.
Lemma loop_base b : forall cs h, base_ok h -> base_ok (h_loop h cs b) /\ h_kind (h_loop h cs b) = h_kind h.
Proof.
  induction cs as [|c cs IH]; intros h H; [split; auto|]. destruct cs as [|c2 cs]; [apply read_base, H|].
  change (h_loop h (c :: c2 :: cs) b) with (h_loop (h_read h c false) (c2 :: cs) b). destruct (read_base h c false H) as [A B].
  destruct (IH _ A) as [A' B']. split; [exact A'|congruence].
Qed.
Lemma open_base h : base_ok (h_open h) /\ h_kind (h_open h) = h_kind h.
Proof. split; [|reflexivity]. unfold base_ok, h_open. cbn. destruct (h_kind h); auto. Qed.
Lemma use_base u h : base_ok h -> base_ok (h_use h u) /\ h_kind (h_use h u) = h_kind h.
Proof.
  intros H. destruct u as [c|cs b|]; cbn [h_use].
  - destruct (h_cache h); [apply read_base, H|]. destruct (open_base h) as [A B]. destruct (read_base (h_open h) c false A) as [A' B']. split; [exact A'|congruence].
  - destruct (open_base h) as [A B]. destruct (loop_base b cs (h_open h) A) as [A' B']. split; [exact A'|congruence].
  - split; [|reflexivity]. unfold base_ok in *. cbn. destruct (h_kind h); auto; discriminate.
Qed.
Lemma uses_base : forall us h, base_ok h -> base_ok (uses us h) /\ h_kind (uses us h) = h_kind h.
Proof.
  induction us as [|u us IH]; intros h H; [split; auto|]. destruct (use_base u h H) as [A B]. destruct (IH _ A) as [A' B'].
  split; [exact A'|]. unfold uses in *. cbn [fold_left]. congruence.
Qed.

Theorem copy_pytree remote us : exists h, copy_dataset (uses us (fresh_dataset PyTrees remote)) = Ok h.
Proof.
  destruct (uses_base us (fresh_dataset PyTrees remote)) as [A B]; [cbn; discriminate|]. unfold copy_dataset, base_ok in *. rewrite B in *. cbn [fresh_dataset h_kind] in *.
  destruct (h_cache _); [rewrite A by reflexivity|]; cbn; eauto.
Qed.

Lemma in_add_one c l : exists m, In (c, m) (add_one c l).
Proof. unfold add_one. destruct (find _ l) as [[c' m]|]; [exists (S m)|exists 1]; left; reflexivity. Qed.
Lemma in_close_other k p c m l : p <> c -> In (c, m) l -> exists m', In (c, m') (close_one k p l).
Proof.
  intros Hp H. unfold close_one. destruct k; [eauto| |].
  - exists m. apply in_flat_map. exists (c, m). split; [exact H|]. cbn [fst]. rewrite (proj2 (Nat.eqb_neq c p)) by congruence. left. reflexivity.
  - exists m. apply filter_In. split; [exact H|]. cbn [fst]. rewrite (proj2 (Nat.eqb_neq c p)) by congruence. reflexivity.
Qed.

Theorem copy_tokens_after_read remote us c : copy_dataset (uses (us ++ [UGet c]) (fresh_dataset Tokens remote)) = Err TypeError.
Proof.
  unfold uses. rewrite fold_left_app. fold (uses us (fresh_dataset Tokens remote)). cbn [fold_left].
  destruct (uses_base us (fresh_dataset Tokens remote)) as [A B]; [cbn; discriminate|]. cbn [fresh_dataset h_kind] in B.
  set (h := uses us (fresh_dataset Tokens remote)) in *. cbn [h_use].
  set (h1 := if h_cache h then h else h_open h).
  assert (H1 : h_kind h1 = Tokens /\ h_cache h1 = true /\ h_queue h1 = true).
  { subst h1. unfold base_ok in A. rewrite B in A. destruct (h_cache h) eqn:E; [auto|]. unfold h_open. cbn. rewrite B. auto. }
  destruct H1 as (K & C & Q). unfold h_read. rewrite K. cbn [andb]. unfold copy_dataset. cbn [h_cache h_queue h_kind h_held]. rewrite C, Q, orb_true_r. cbn [negb andb].
  set (l := match h_last h1 with Some p => _ | None => _ end).
  assert (X : exists m, In (c, m) l).
  { subst l. destruct (in_add_one c (h_held h1)) as (m & Hm). destruct (h_last h1) as [p|]; [|eauto]. destruct (Nat.eqb_spec p c) as [->|N]; [eauto|].
    apply (in_close_other Tokens p c m _ N Hm). }
  destruct X as (m & X). destruct l; [destruct X|reflexivity].
Qed.

(** Parquet: after a whole loop nothing is left open. *)
Definition only (c : nat) (l : list (nat * nat)) : Prop := Forall (fun x => fst x = c) l.
Lemma only_filter_out c l : only c l -> filter (fun x => negb (fst x =? c)) l = [].
Proof. induction l as [|x l IH]; intros H; [reflexivity|]. apply Forall_cons_iff in H. destruct H as [E H]. cbn [filter]. rewrite E, Nat.eqb_refl. cbn. apply IH, H. Qed.
Lemma add_one_last c p l : only p l -> p <> c -> only c (filter (fun x => negb (fst x =? p)) (add_one c l)).
Proof.
  intros H N. unfold add_one. destruct (find (fun x => fst x =? c) l) as [[c' m]|] eqn:E.
  - apply find_some in E. destruct E as [E1 E2]. cbn [fst] in E2. apply Nat.eqb_eq in E2. subst c'. unfold only in H. rewrite Forall_forall in H. specialize (H _ E1). cbn in H. congruence.
  - cbn [filter fst]. rewrite (proj2 (Nat.eqb_neq c p)) by congruence. cbn [negb]. rewrite only_filter_out by exact H. constructor; [reflexivity|constructor].
Qed.
Lemma add_one_same c l : only c l -> only c (add_one c l).
Proof.
  intros H. unfold add_one. destruct (find (fun x => fst x =? c) l) as [[c' m]|]; constructor; try reflexivity; [|exact H].
  apply Forall_forall. intros x Hx. apply filter_In in Hx. unfold only in H. rewrite Forall_forall in H. apply H, Hx.
Qed.
Definition tidy (low : bool) (h : held) : Prop :=
  h_kind h = Parquet low /\ h_remote h = true /\ match h_last h with Some p => only p (h_held h) | None => h_held h = [] end.
Lemma read_tidy low h c b : tidy low h -> tidy low (h_read h c b) /\ h_queue (h_read h c b) = true /\ (b = true -> h_held (h_read h c b) = []).
Proof.
  intros (K & R & T). unfold h_read. rewrite K, R. cbv zeta.
  set (l := match h_last h with Some p => _ | None => _ end).
  assert (L : only c l).
  { subst l. destruct (h_last h) as [p|].
    - destruct (Nat.eqb_spec p c) as [->|N]; [apply add_one_same, T|]. apply (add_one_last c p _ T N).
    - rewrite T. cbn. constructor; [reflexivity|constructor]. }
  cbn [h_remote h_kind h_cache h_queue]. destruct b; cbn [andb].
  - split; [|split; [reflexivity|intros _; cbn [h_held close_one]; apply only_filter_out, L]]. unfold tidy. cbn [h_kind h_remote h_last h_held close_one]. repeat split; auto. apply only_filter_out, L.
  - split; [|split; [reflexivity|discriminate]]. unfold tidy. cbn [h_kind h_remote h_last h_held]. auto.
Qed.
Lemma loop_tidy low : forall cs h, cs <> [] -> tidy low h -> tidy low (h_loop h cs true) /\ h_queue (h_loop h cs true) = true /\ h_held (h_loop h cs true) = [].
Proof.
  induction cs as [|c cs IH]; intros h N T; [congruence|]. destruct cs as [|c2 cs].
  - destruct (read_tidy low h c true T) as (A & B & C). cbn [h_loop]. auto.
  - change (h_loop h (c :: c2 :: cs) true) with (h_loop (h_read h c false) (c2 :: cs) true). apply IH; [discriminate|]. apply read_tidy, T.
Qed.
Theorem copy_parquet_after_loops low us : Forall whole_loop us -> exists h, copy_dataset (uses us (fresh_dataset (Parquet low) true)) = Ok h.
Proof.
  intros H. assert (X : forall us h, Forall whole_loop us -> h_kind h = Parquet low -> h_remote h = true -> h_held h = [] -> (h_cache h = true -> h_queue h = true) ->
    let h' := uses us h in h_kind h' = Parquet low /\ h_held h' = [] /\ (h_cache h' = true -> h_queue h' = true)).
  { clear. induction us as [|u us IH]; intros h HF K R E Q; [cbn; auto|]. apply Forall_cons_iff in HF. destruct HF as [Hu HF]. unfold uses. cbn [fold_left].
    fold (uses us (h_use h u)). destruct u as [c|cs b|]; cbn [whole_loop] in Hu; [destruct Hu| |].
    - destruct b; [|destruct Hu]. cbn [h_use].
      destruct (loop_tidy low cs (h_open h) Hu) as ((T1 & T2 & T3) & B & C); [unfold tidy, h_open; cbn; rewrite K; auto|].
      apply IH; auto.
    - cbn [h_use]. apply IH; cbn; auto. discriminate. }
  destruct (X us (fresh_dataset (Parquet low) true) H eq_refl eq_refl eq_refl) as (K & E & Q); [cbn; discriminate|].
  unfold copy_dataset. rewrite K, E. destruct (h_cache _); [rewrite Q by reflexivity|]; cbn; destruct low; eauto.
Qed.

(** * At most one chunk *)
Definition lean (low : bool) (h : held) : Prop :=
  h_kind h = Parquet low /\ NoDup (map fst (h_held h)) /\ (h_cache h = true -> match h_last h with Some p => only p (h_held h) | None => h_held h = [] end) /\ length (h_held h) <= 1.
Lemma only_one c l : only c l -> NoDup (map fst l) -> length l <= 1.
Proof.
  destruct l as [|x [|y l]]; cbn; try lia. intros H D. exfalso. apply Forall_cons_iff in H. destruct H as [E H]. apply Forall_cons_iff in H. destruct H as [E' _].
  apply NoDup_cons_iff in D. destruct D as [D _]. apply D. left. congruence.
Qed.
Lemma nodup_filter (f : nat * nat -> bool) l : NoDup (map fst l) -> NoDup (map fst (filter f l)).
Proof.
  induction l as [|x l IH]; intros H; [constructor|]. cbn [map] in H. apply NoDup_cons_iff in H. destruct H as [H1 H2]. cbn [filter]. destruct (f x); [|auto].
  cbn [map]. constructor; [|auto]. intros X. apply H1. apply in_map_iff in X. destruct X as (y & E & Hy). apply filter_In in Hy. rewrite <- E. apply in_map, Hy.
Qed.
Lemma nodup_add c l : NoDup (map fst l) -> NoDup (map fst (add_one c l)).
Proof.
  intros H. unfold add_one. destruct (find (fun x => fst x =? c) l) as [[c' m]|] eqn:E; cbn [map fst]; constructor.
  - intros X. apply in_map_iff in X. destruct X as (y & Ey & Hy). apply filter_In in Hy. destruct Hy as [_ Hy]. rewrite Ey, Nat.eqb_refl in Hy. discriminate.
  - apply nodup_filter, H.
  - intros X. apply in_map_iff in X. destruct X as (y & Ey & Hy). apply (find_none _ _ E) in Hy. rewrite Ey, Nat.eqb_refl in Hy. discriminate.
  - exact H.
Qed.
Lemma read_lean low h c b : lean low h -> h_cache h = true -> lean low (h_read h c b) /\ h_cache (h_read h c b) = true.
Proof.
  intros (K & D & T & _) C. specialize (T C). unfold h_read. rewrite K. cbv zeta.
  set (l := match h_last h with Some p => _ | None => _ end).
  assert (L : only c l).
  { subst l. destruct (h_last h) as [p|].
    - destruct (Nat.eqb_spec p c) as [->|N]; [apply add_one_same, T|]. apply (add_one_last c p _ T N).
    - rewrite T. cbn. constructor; [reflexivity|constructor]. }
  assert (N : NoDup (map fst l)).
  { subst l. destruct (h_last h) as [p|]; [destruct (p =? c); [|apply nodup_filter]|]; apply nodup_add, D. }
  cbn [h_remote h_kind h_cache h_queue]. destruct (b && h_remote h); unfold lean; cbn [h_kind h_held h_cache h_last close_one].
  - rewrite only_filter_out by exact L. cbn. repeat split; auto; try constructor; try lia.
  - repeat split; auto. apply (only_one c); assumption.
Qed.
Lemma loop_lean low b : forall cs h, lean low h -> h_cache h = true -> lean low (h_loop h cs b).
Proof.
  induction cs as [|c cs IH]; intros h H C; [exact H|]. destruct cs as [|c2 cs]; [apply (read_lean low h c b H C)|].
  change (h_loop h (c :: c2 :: cs) b) with (h_loop (h_read h c false) (c2 :: cs) b). destruct (read_lean low h c false H C). apply IH; assumption.
Qed.
Lemma open_lean low h : h_kind h = Parquet low -> lean low (h_open h) /\ h_cache (h_open h) = true.
Proof. intros K. split; [|reflexivity]. unfold lean, h_open. cbn. rewrite K. repeat split; auto; try constructor. Qed.
Theorem one_chunk low remote us : length (h_held (uses us (fresh_dataset (Parquet low) remote))) <= 1.
Proof.
  assert (X : forall us h, lean low h -> lean low (uses us h)).
  { clear. induction us as [|u us IH]; intros h H; [exact H|]. apply (IH (h_use h u)). destruct u as [c|cs b|]; cbn [h_use].
    - destruct (h_cache h) eqn:C; [apply (read_lean low h c false H C)|]. destruct (open_lean low h (proj1 H)) as [A B]. apply (read_lean low _ c false A B).
    - destruct (open_lean low h (proj1 H)) as [A B]. apply loop_lean; assumption.
    - destruct H as (K & D & T & N). unfold lean. cbn. repeat split; auto. discriminate. }
  apply (X us). unfold lean. cbn. repeat split; auto; constructor.
Qed.

(** After any use at all, a whole loop leaves a dataset that can be copied. *)
Lemma read_remote h c b : h_remote (h_read h c b) = h_remote h.
Proof. unfold h_read. cbv zeta. cbn [h_remote]. destruct (b && h_remote h); reflexivity. Qed.
Lemma loop_remote b : forall cs h, h_remote (h_loop h cs b) = h_remote h.
Proof.
  induction cs as [|c cs IH]; intros h; [reflexivity|]. destruct cs as [|c2 cs]; [apply read_remote|].
  change (h_loop h (c :: c2 :: cs) b) with (h_loop (h_read h c false) (c2 :: cs) b). rewrite IH. apply read_remote.
Qed.
Lemma uses_remote : forall us h, h_remote (uses us h) = h_remote h.
Proof.
  induction us as [|u us IH]; intros h; [reflexivity|]. change (uses (u :: us) h) with (uses us (h_use h u)). rewrite IH. destruct u as [c|cs b|]; cbn [h_use].
  - rewrite read_remote. destruct (h_cache h); reflexivity.
  - rewrite loop_remote. reflexivity.
  - reflexivity.
Qed.
Theorem copy_parquet_then_loop low us cs : cs <> [] -> exists h, copy_dataset (uses (us ++ [ULoop cs true]) (fresh_dataset (Parquet low) true)) = Ok h.
Proof.
  intros N. unfold uses. rewrite fold_left_app. cbn [fold_left]. change (fold_left h_use us (fresh_dataset (Parquet low) true)) with (uses us (fresh_dataset (Parquet low) true)).
  destruct (uses_base us (fresh_dataset (Parquet low) true)) as [_ B]; [cbn; auto|]. pose proof (uses_remote us (fresh_dataset (Parquet low) true)) as R.
  cbn [fresh_dataset h_kind h_remote] in B, R. cbn [h_use]. set (h := uses us (fresh_dataset (Parquet low) true)) in *.
  destruct (loop_tidy low cs (h_open h) N) as ((T1 & _ & _) & Q & E); [unfold tidy, h_open; cbn; rewrite B; auto|].
  unfold copy_dataset. rewrite T1, E, Q. rewrite andb_false_r. destruct low; eauto.
Qed.
