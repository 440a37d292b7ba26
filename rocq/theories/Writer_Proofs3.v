(** Consequences for single chunks. *)
From Verif Require Import Base Dict Format_Model Format_Proofs Writer_Model Writer_Spec Writer_Proofs Writer_Proofs2.
Local Ltac Zify.zify_post_hook ::= idtac.

Lemma read_written c first a l s decompress ch :
  Forall (fun x => 1 <= it_bytes x) l ->
  bind (add_all c (new_writer first) a l) (done c false) = Ok s ->
  (forall k d, c_seal c k d = d) -> (forall d, decompress (c_compress c d) = d) ->
  In ch (w_chunks s) -> (N.of_nat (ch_bytes ch) < two32)%N ->
  ch_bytes ch = length (decompress (ch_file ch)) /\
  forall i x begin, nth_error (ch_items ch) i = Some x ->
    load_item (decompress (ch_file ch)) (begin + i) begin = Ok (it_data x).
Proof.
  intros Hl Hs Hseal Hcomp Hin Hb.
  destruct (write_in_order c first a l Hl) as (s' & E & _ & _ & Hof & _).
  rewrite Hs in E. injection E as <-.
  apply In_nth_error in Hin. destruct Hin as [k Hk]. destruct (Hof k ch Hk) as (_ & Hf & Hby & _).
  rewrite Hseal in Hf, Hby. rewrite Hf, Hcomp. split; [exact Hby|].
  intros i x begin Hx. apply load_item_ok.
  - unfold blen. rewrite <- Hby. exact Hb.
  - rewrite nth_error_map, Hx. reflexivity.
Qed.

Lemma plain_units l : Forall (fun x => it_dim x = None) l -> sum (map weight l) = length l.
Proof. induction 1 as [|x l Hx H IH]; cbn; [reflexivity|]. unfold weight at 1. rewrite Hx, IH. lia. Qed.

Lemma tight_full c k : forall D,
  1 <= k -> c_bytes c = None -> c_size c = Some k ->
  Forall (Forall (fun x => it_dim x = None)) D ->
  Forall (fun ch => ch <> [] /\ (fits c ch \/ length ch = 1)) D -> tight c D ->
  forall pre ch post, D = pre ++ ch :: post -> length ch <= k /\ (post <> [] -> length ch = k).
Proof.
  intros D Hk Hb Hs. induction D as [|d D IH]; intros Hp Hf Ht pre ch post E; [destruct pre; discriminate|].
  inversion Hp as [|? ? Hp1 Hp2]; subst. inversion Hf as [|? ? [Hf1 Hf1'] Hf2]; subst.
  destruct pre as [|d' pre].
  - injection E as <- <-. assert (Hle : length d <= k).
    { destruct Hf1' as [[_ H]|H]; [|lia]. rewrite Hs in H. cbn [within] in H. rewrite plain_units in H by exact Hp1. lia. }
    split; [exact Hle|]. intros Hne. destruct D as [|d2 D]; [congruence|]. cbn [tight] in Ht.
    destruct Ht as [(x & m & -> & Hnf) _].
    destruct (Nat.lt_ge_cases (length d) k) as [Hlt|Hge]; [|lia]. exfalso. apply Hnf. unfold fits. rewrite Hb, Hs. cbn [within].
    split; [exact I|]. right. rewrite plain_units, app_length; [cbn; lia|].
    apply Forall_app. split; [exact Hp1|]. inversion Hp2 as [|? ? Hp3 ?]; subst. inversion Hp3; subst. constructor; [assumption|constructor].
  - injection E as <- E. eapply IH; eauto. destruct D as [|d2 D]; [destruct pre; discriminate|]. apply Ht.
Qed.

Lemma Forall_concat {A} (P : A -> Prop) D : Forall P (concat D) -> Forall (Forall P) D.
Proof.
  induction D as [|d D IH]; intros H; [constructor|]. cbn in H. apply Forall_app in H. constructor; [apply H|apply IH, H].
Qed.

Lemma limits_size c first a l s k :
  1 <= k -> c_bytes c = None -> c_size c = Some k ->
  Forall (fun x => 1 <= it_bytes x /\ it_dim x = None) l ->
  bind (add_all c (new_writer first) a l) (done c false) = Ok s ->
  forall pre ch post, w_chunks s = pre ++ ch :: post -> ch_size ch <= k /\ (post <> [] -> ch_size ch = k).
Proof.
  intros Hk Hb Hsz Hl Hs pre ch post E.
  destruct (write_in_order c first a l) as (s' & E' & _ & _ & Hof & Hst & Hf & Ht).
  { eapply Forall_impl; [|exact Hl]. cbn; tauto. }
  rewrite Hs in E'. injection E' as <-.
  assert (Hd : Forall (Forall (fun x => it_dim x = None)) (map ch_items (w_chunks s))).
  { apply Forall_concat. fold (stored s). rewrite Hst. eapply Forall_impl; [|exact Hl]. cbn; tauto. }
  assert (Hc : ch_size ch = length (ch_items ch)).
  { apply (Hof (length pre)). rewrite E, nth_error_app2, Nat.sub_diag by lia. reflexivity. }
  rewrite Hc. rewrite E in Hd, Hf, Ht. rewrite map_app in Hd, Hf, Ht. cbn [map] in Hd, Hf, Ht.
  destruct (tight_full c k _ Hk Hb Hsz Hd Hf Ht (map ch_items pre) (ch_items ch) (map ch_items post) eq_refl) as [H1 H2].
  split; [exact H1|]. intros Hp. apply H2. destruct post; [congruence|discriminate].
Qed.

Lemma limits_bytes c first a l s b :
  1 <= b -> c_bytes c = Some b -> c_size c = None ->
  Forall (fun x => 1 <= it_bytes x) l ->
  bind (add_all c (new_writer first) a l) (done c false) = Ok s ->
  (forall ch, In ch (w_chunks s) -> sum (map it_bytes (ch_items ch)) <= b \/ exists x, ch_items ch = [x] /\ b < it_bytes x) /\
  (forall pre ch x items post, map ch_items (w_chunks s) = pre ++ ch :: (x :: items) :: post ->
     b < sum (map it_bytes ch) + it_bytes x).
Proof.
  intros Hk Hb Hsz Hl Hs.
  destruct (write_in_order c first a l Hl) as (s' & E' & _ & _ & Hof & Hst & Hf & Ht).
  rewrite Hs in E'. injection E' as <-. split.
  - intros ch Hin. rewrite Forall_forall in Hf. specialize (Hf (ch_items ch) (in_map _ _ _ Hin)).
    destruct Hf as [Hn [[H _]|H]]; [rewrite Hb in H; cbn in H; left; lia|].
    destruct (ch_items ch) as [|x [|y m]]; [congruence| |cbn in H; lia].
    cbn [map sum]. destruct (Nat.le_gt_cases (it_bytes x) b); [left; lia|right; exists x; auto].
  - intros pre ch x items post E. rewrite E in Ht. clear -Ht Hb Hsz Hk. induction pre as [|d pre IH].
    + cbn [app tight] in Ht. destruct Ht as [(y & m & E & Hnf) _]. injection E as <- <-.
      destruct (Nat.le_gt_cases (sum (map it_bytes ch) + it_bytes x) b) as [H|H]; [|exact H]. exfalso. apply Hnf.
      unfold fits. rewrite Hb, Hsz. cbn [within]. rewrite map_app, sum_app. cbn [map sum]. split; [right; lia|exact I].
    + apply IH. destruct pre as [|d2 pre]; cbn [app tight] in *; apply Ht.
Qed.

Lemma add_all_any c : forall l s a, add_all c s a l = add_any c s (items_at a l).
Proof.
  induction l as [|x l IH]; intros s a; [reflexivity|]. rewrite items_at_cons. cbn [add_all add_any].
  destruct (add_item c s a x); cbn [bind]; [apply IH|reflexivity].
Qed.

Lemma map_snd_items_at a l : map snd (items_at a l) = l.
Proof. unfold items_at. apply map_snd_combine. reflexivity. Qed.

(** With items of any size, also none: nothing is lost unless an AssertionError is raised. *)
Lemma write_all_partial c first a l :
  (exists s, bind (add_all c (new_writer first) a l) (done c false) = Ok s /\ Permutation (stored s) l)
  \/ bind (add_all c (new_writer first) a l) (done c false) = Err AssertionError.
Proof.
  rewrite add_all_any.
  destruct (write_any_order c first (items_at a l)) as (s & -> & H).
  { rewrite items_at_keys. apply seq_NoDup. }
  cbn [bind]. destruct H as [(s' & E & Hp & _)|E]; [left|right; exact E].
  exists s'. rewrite map_snd_items_at in Hp. auto.
Qed.

Lemma single_chunk (D : list (list item)) x : Forall (fun ch => ch <> []) D -> concat D = [x] -> D = [[x]].
Proof.
  intros Hn H. destruct D as [|d D]; [discriminate|]. inversion Hn; subst. destruct d as [|y d]; [congruence|].
  cbn in H. injection H as -> H. apply app_eq_nil in H. destruct H as [-> H].
  destruct D as [|e D]; [reflexivity|]. inversion H3; subst. destruct e; [congruence|discriminate].
Qed.

(** A sample of 4 GiB is written without complaint and read back as nothing. *)
Lemma four_gib c first a x :
  (forall k d, c_seal c k d = d) -> (forall d, c_compress c d = d) ->
  blen (it_data x) = two32 ->
  exists s ch, bind (add_all c (new_writer first) a [x]) (done c false) = Ok s /\ w_chunks s = [ch] /\
    load_item (ch_file ch) 0 0 = Ok [].
Proof.
  intros Hseal Hcomp Hx.
  destruct (write_in_order c first a [x]) as (s & E & _ & _ & Hof & Hst & Hf & _).
  { constructor; [|constructor]. unfold it_bytes, blen in *. unfold two32 in Hx. lia. }
  assert (Hone : map ch_items (w_chunks s) = [[x]]).
  { apply single_chunk; [|exact Hst]. eapply Forall_impl; [|exact Hf]. cbn; tauto. }
  destruct (w_chunks s) as [|ch [|ch2 chs]] eqn:Ec; try discriminate. injection Hone as Hone.
  exists s, ch. split; [exact E|]. split; [exact Ec|].
  destruct (Hof 0 ch eq_refl) as (_ & Hfile & _). rewrite Hfile, Hcomp, Hseal, Hone. apply load_item_4gib, Hx.
Qed.

Lemma item_of_size n : exists x, blen (it_data x) = n.
Proof. exists (Item (repeat 0%N (N.to_nat n)) None). unfold blen. cbn [it_data]. rewrite repeat_length. apply N2Nat.id. Qed.

(** Pending indexes are refused. *)
Lemma pending_refused c first l s i x :
  NoDup (map fst l) -> add_any c (new_writer first) l = Ok s -> w_chunks s = [] -> In i (map fst l) ->
  add_item c s i x = Err ValueError.
Proof.
  intros Hn E Hc Hi. destruct (add_any_ok c l [] (new_writer first) (ginv_new c first) Hn) as (s' & E' & Hg).
  rewrite E in E'. injection E' as <-. destruct Hg as [Hk Hincl Hp _ _ _]. cbn [app] in *.
  unfold stored in Hp. rewrite Hc in Hp. cbn [map concat app] in Hp.
  assert (Hperm : incl (map fst l) (map fst (w_items s))).
  { apply NoDup_length_incl; [exact Hk| |].
    - apply Permutation_length in Hp. rewrite !map_length in *. lia.
    - intros k Hin. apply in_map_iff in Hin. destruct Hin as (z & <- & Hz). apply in_map, Hincl, Hz. }
  unfold add_item. destruct (dget i (w_items s)) eqn:Ed; [reflexivity|].
  apply dget_None in Ed. exfalso. apply Ed, Hperm, Hi.
Qed.
