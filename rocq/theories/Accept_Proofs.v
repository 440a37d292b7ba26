(** Proofs about resuming. *)
From Coq Require Import NArith ZArith Lia.
From Verif Require Import Base Names_Model Accept_Model Accept_Spec.
Local Ltac Zify.zify_post_hook ::= idtac.

Section Ind.
  Variable P : value -> Prop.
  Hypotheses (H0 : P PNone) (H1 : forall b, P (PBool b)) (H2 : forall z, P (PInt z)) (H3 : forall z, P (PFloat z))
    (H4 : P PNan) (H5 : forall s, P (PStr s)) (H6 : forall l, Forall P l -> P (PList l))
    (H7 : forall l, Forall P l -> P (PTuple l)) (H8 : forall d, Forall (fun e => P (snd e)) d -> P (PDict d))
    (H9 : forall n, P (PObject n)).
  Fixpoint value_ind' (v : value) : P v :=
    match v with
    | PNone => H0 | PBool b => H1 b | PInt z => H2 z | PFloat z => H3 z | PNan => H4 | PStr s => H5 s
    | PList l => H6 l ((fix go l : Forall P l := match l with [] => Forall_nil P | x :: l' => Forall_cons _ (value_ind' x) (go l') end) l)
    | PTuple l => H7 l ((fix go l : Forall P l := match l with [] => Forall_nil P | x :: l' => Forall_cons _ (value_ind' x) (go l') end) l)
    | PDict d => H8 d ((fix go d : Forall (fun e => P (snd e)) d :=
        match d with [] => Forall_nil _ | x :: d' => Forall_cons _ (value_ind' (snd x)) (go d') end) d)
    | PObject n => H9 n
    end.
End Ind.

(** The local functions of [json] and [equal]. *)
Fixpoint json_all (l : list value) : res (list value) :=
  match l with
  | [] => Ok []
  | x :: l' => bind (json x) (fun y => bind (json_all l') (fun r => Ok (y :: r)))
  end.
Fixpoint json_entries (d r : list (key * value)) : res (list (key * value)) :=
  match d with
  | [] => Ok r
  | (k, x) :: d' => bind (json_key k) (fun s => bind (json x) (fun y => json_entries d' (put_key s y r)))
  end.
Fixpoint equal_all (l m : list value) : bool :=
  match l, m with
  | [], [] => true
  | x :: l', y :: m' => equal x y && equal_all l' m'
  | _, _ => false
  end.
Fixpoint equal_entries (d e : list (key * value)) : bool :=
  match d with
  | [] => true
  | (k, x) :: d' => match lookup k e with Some y => equal x y | None => false end && equal_entries d' e
  end.

Lemma json_list l : json (PList l) = bind (json_all l) (fun r => Ok (PList r)).
Proof. reflexivity. Qed.
Lemma json_dict d : json (PDict d) = bind (json_entries d []) (fun r => Ok (PDict r)).
Proof. reflexivity. Qed.
Lemma equal_list l m : equal (PList l) (PList m) = equal_all l m.
Proof. reflexivity. Qed.
Lemma equal_dict d e : equal (PDict d) (PDict e) = (length d =? length e) && equal_entries d e.
Proof. reflexivity. Qed.

Lemma str_eqb_refl s : str_eqb s s = true.
Proof. unfold str_eqb. destruct (list_eq_dec N.eq_dec s s); [reflexivity|contradiction]. Qed.
Lemma str_eqb_eq s t : str_eqb s t = true -> s = t.
Proof. unfold str_eqb. destruct (list_eq_dec N.eq_dec s t); [auto|discriminate]. Qed.

Notation dict d := (map (fun e : str * value => (KStr (fst e), snd e)) d).

Lemma put_key_new k v r : ~ In k (map fst r) -> put_key k v (dict r) = dict (r ++ [(k, v)]).
Proof.
  induction r as [|[k' x] r IH]; intros H; [reflexivity|]. cbn [map put_key fst snd app] in *.
  destruct (list_eq_dec N.eq_dec k k') as [->|]; [exfalso; apply H; left; reflexivity|]. f_equal. apply IH. intros H'. apply H. right. exact H'.
Qed.

Lemma json_plain v : plain v -> json v = Ok v.
Proof.
  induction v as [| | | | | |l IH|l IH|d IH|] using value_ind'; intros H; try reflexivity; try (inversion H; fail).
  - rewrite json_list. inversion H as [| | | | |l' F E|]; subst. clear H.
    assert (E : json_all l = Ok l); [|rewrite E; reflexivity].
    induction l as [|x l IHl]; [reflexivity|]. cbn [json_all]. inversion IH as [|? ? Ix IH']; subst. inversion F as [|? ? Fx F']; subst.
    rewrite (Ix Fx). cbn [bind]. rewrite (IHl IH' F'). reflexivity.
  - rewrite json_dict. inversion H as [| | | | | |d' N F E]. clear H. subst d.
    assert (E : forall r, NoDup (map fst (r ++ d')) -> json_entries (dict d') (dict r) = Ok (dict (r ++ d'))); [|specialize (E [] N); cbn [map app] in E; rewrite E; reflexivity].
    clear N. induction d' as [|[k x] d IHd]; intros r N; [rewrite app_nil_r; reflexivity|]. cbn [map json_entries json_key bind fst snd].
    cbn [map] in IH. inversion IH as [|? ? Ix IH']; subst. inversion F as [|? ? Fx F']; subst.
    cbn [snd] in Ix, Fx. rewrite (Ix Fx). cbn [bind]. rewrite put_key_new.
    + specialize (IHd IH' F' (r ++ [(k, x)])). rewrite <- app_assoc in IHd. exact (IHd N).
    + rewrite map_app in N. cbn [map fst] in N. apply NoDup_remove_2 in N. intros H. apply N. apply in_or_app. left. exact H.
Qed.

Lemma lookup_dict d k v : NoDup (map fst d) -> In (k, v) d -> lookup (KStr k) (dict d) = Some v.
Proof.
  induction d as [|(k', v') d IH]; intros N H; [destruct H|]. cbn [map lookup fst snd key_eqb].
  cbn [map fst] in N. inversion N as [|? ? Nk N']; subst. destruct H as [H|H].
  - injection H as -> ->. rewrite str_eqb_refl. reflexivity.
  - destruct (str_eqb k k') eqn:E; [|apply IH; assumption]. apply str_eqb_eq in E. subst k'. exfalso. apply Nk.
    apply in_map_iff. exists (k, v). auto.
Qed.

Lemma equal_plain v : plain v -> equal v v = true.
Proof.
  induction v as [|b|z|z| |s|l IH|l IH|d IH|n] using value_ind'; intros H; try (inversion H; fail);
    try (cbn; try apply Z.eqb_refl; reflexivity).
  - cbn. apply str_eqb_refl.
  - rewrite equal_list. inversion H as [| | | | |l' F E|]; subst. clear H.
    induction l as [|x l IHl]; [reflexivity|]. cbn [equal_all]. inversion IH as [|? ? Ix IH']; subst. inversion F as [|? ? Fx F']; subst.
    rewrite (Ix Fx). apply (IHl IH' F').
  - rewrite equal_dict, Nat.eqb_refl. cbn [andb]. inversion H as [| | | | | |d' N F E]. clear H. subst d.
    assert (G : forall e, (forall x, In x e -> In x d') -> equal_entries (dict e) (dict d') = true); [|apply G; auto].
    induction e as [|(k, x) e IHe]; intros Hi; [reflexivity|]. cbn [map equal_entries fst snd].
    rewrite (lookup_dict d' k x N) by (apply Hi; left; reflexivity).
    assert (Ix : In (k, x) d') by (apply Hi; left; reflexivity).
    rewrite Forall_forall in IH, F.
    assert (Jx : equal x x = true).
    { apply (IH (KStr k, x)); [apply in_map_iff; exists (k, x); auto|]. apply (F _ Ix). }
    rewrite Jx. cbn [andb]. apply IHe. intros y Hy. apply Hi. right. exact Hy.
Qed.

Notation items_value items := (PList (map PList items)).

Lemma plain_items items : Forall (Forall plain) items -> plain (items_value items).
Proof.
  intros H. apply plain_list. apply Forall_map. eapply Forall_impl; [|exact H]. intros l Hl. apply plain_list, Hl.
Qed.

Lemma forallb_zero l : forallb (fun n => n =? 0) l = true -> l = repeat 0 (length l).
Proof.
  induction l as [|x l IH]; [reflexivity|]. cbn [forallb length repeat]. rewrite andb_true_iff, Nat.eqb_eq.
  intros (-> & H). f_equal. apply IH, H.
Qed.

Lemma combine_zero {A} (items : list (list A)) n : n = length items ->
  map (fun p => skipn (fst p) (snd p)) (combine (repeat 0 n) items) = items.
Proof. intros ->. induction items as [|x items IH]; [reflexivity|]. cbn [length repeat combine map fst snd skipn]. f_equal. exact IH. Qed.

Lemma combine_seq_nth {A} (f : nat -> nat) (items : list (list A)) : forall a,
  map (fun p => skipn (fst p) (snd p)) (combine (map f (seq a (length items))) items) =
  map (fun p => skipn (f (fst p)) (snd p)) (combine (seq a (length items)) items).
Proof. induction items as [|x items IH]; intros a; [reflexivity|]. cbn [length seq map combine fst snd]. f_equal. apply IH. Qed.

(** A job whose configuration is saved. *)
Lemma begin_saved remote items st :
  Forall (Forall plain) items -> j_config st = Config (length items) (items_value items) ->
  begin remote (length items) items st =
  Ok (map (fun p => skipn (match j_done st (fst p) with Some k => k | None => 0 end) (snd p)) (combine (seq 0 (length items)) items), st).
Proof.
  intros H E. pose proof (plain_items _ H) as P. unfold begin, load_config. rewrite E, Nat.eqb_refl, (equal_plain _ P). cbn [negb bind].
  set (f := fun w => match j_done st w with Some k => k | None => 0 end).
  assert (G : map (fun p => skipn (fst p) (snd p)) (combine (map f (seq 0 (length items))) items) =
    map (fun p => skipn (match j_done st (fst p) with Some k => k | None => 0 end) (snd p)) (combine (seq 0 (length items)) items))
    by exact (combine_seq_nth f items 0).
  destruct (forallb _ _) eqn:Z.
  - apply forallb_zero in Z. rewrite map_length, seq_length in Z. rewrite <- G, Z, combine_zero by reflexivity.
    f_equal. f_equal. unfold save_config. rewrite (json_plain _ P). destruct st as [c d]. cbn in *. subst c. reflexivity.
  - rewrite G. reflexivity.
Qed.

Lemma begin_fresh remote items done :
  Forall (Forall plain) items ->
  begin remote (length items) items (SavedJob Missing done) = Ok (items, SavedJob (Config (length items) (items_value items)) done).
Proof.
  intros H. unfold begin, load_config. cbn [j_config bind].
  replace (forallb (fun n => n =? 0) (repeat 0 (length items))) with true by (symmetry; apply forallb_forall; intros x Hx; apply repeat_spec in Hx; subst; reflexivity).
  unfold save_config. rewrite (json_plain _ (plain_items _ H)). reflexivity.
Qed.

Lemma nth_error_combine_seq {A} (l : list A) : forall a k x, nth_error l k = Some x -> nth_error (combine (seq a (length l)) l) k = Some (a + k, x).
Proof.
  induction l as [|y l IH]; intros a [|k] x H; cbn in *; try discriminate.
  - injection H as ->. rewrite Nat.add_0_r. reflexivity.
  - rewrite (IH (S a) k x H). f_equal. f_equal. lia.
Qed.

(** Values that are equal. *)
Lemma equal_str_l s v : equal (PStr s) v = true -> v = PStr s.
Proof. destruct v; cbn; try discriminate. intros H. apply str_eqb_eq in H. subst. reflexivity. Qed.
Lemma equal_str_r v s : equal v (PStr s) = true -> v = PStr s.
Proof. destruct v; cbn; try discriminate. intros H. apply str_eqb_eq in H. subst. reflexivity. Qed.

Lemma equal_all_nth l : forall m, equal_all l m = true -> length l = length m /\ forall k x y, nth_error l k = Some x -> nth_error m k = Some y -> equal x y = true.
Proof.
  induction l as [|x l IH]; intros [|y m] H; cbn in H; try discriminate.
  - split; [reflexivity|]. intros [|k] x y Hx; discriminate Hx.
  - rewrite andb_true_iff in H. destruct H as (Hx & H). destruct (IH m H) as (L & N). split; [cbn; congruence|].
    intros [|k] x' y' Ex Ey; cbn in *; [congruence|]. apply (N k); assumption.
Qed.

Lemma job_once remote items rest st' c done :
  begin remote (length items) items (SavedJob Missing (fun _ => None)) = Ok (rest, st') -> j_config st' = c ->
  jobs remote items (SavedJob c done).
Proof. intros B <-. eapply job_run; [apply job_new|exact B]. Qed.

(** ** Which inputs survive json *)
Lemma json_tuple l : json (PTuple l) = bind (json_all l) (fun r => Ok (PList r)).
Proof. reflexivity. Qed.

Lemma in_put_key k v r x : In x (put_key k v r) -> x = (KStr k, v) \/ In x r.
Proof.
  induction r as [|[t y] r IH]; intros H; [destruct H as [<-|[]]; auto|]. cbn [put_key] in H.
  destruct (match t with KStr s => if list_eq_dec N.eq_dec k s then true else false | _ => false end) eqn:E.
  - destruct t as [s| | | |]; try discriminate E. destruct (list_eq_dec N.eq_dec k s) as [<-|]; [|discriminate E].
    destruct H as [<-|H]; [left; reflexivity|right; right; exact H].
  - destruct H as [<-|H]; [right; left; reflexivity|]. destruct (IH H) as [->|H']; [left; reflexivity|right; right; exact H'].
Qed.
Lemma put_key_keys k v r : map fst (put_key k v r) = map fst r \/ map fst (put_key k v r) = map fst r ++ [KStr k] /\ ~ In (KStr k) (map fst r).
Proof.
  induction r as [|[t y] r IH]; [right; split; [reflexivity|intros []]|]. cbn [put_key map fst].
  destruct (match t with KStr s => if list_eq_dec N.eq_dec k s then true else false | _ => false end) eqn:E.
  - left. reflexivity.
  - assert (Hk : t <> KStr k).
    { intros ->. destruct (list_eq_dec N.eq_dec k k); [discriminate E|congruence]. }
    cbn [map fst]. destruct IH as [->|[-> H]]; [left; reflexivity|]. right. split; [reflexivity|]. intros [H'|H']; [congruence|exact (H H')].
Qed.
Lemma put_key_nodup k v r : NoDup (map fst r) -> NoDup (map fst (put_key k v r)).
Proof.
  intros H. destruct (put_key_keys k v r) as [->|[-> Hn]]; [exact H|]. apply (Permutation_NoDup (l := KStr k :: map fst r)); [apply Permutation_cons_append|constructor; assumption].
Qed.

(** What [json] makes of the entries: keys that are strings, each once. *)
Lemma json_entries_keys d : forall r o, json_entries d r = Ok o -> NoDup (map fst r) -> Forall (fun e => exists s, fst e = KStr s) r ->
  NoDup (map fst o) /\ Forall (fun e => exists s, fst e = KStr s) o /\ length o <= length r + length d.
Proof.
  induction d as [|[k x] d IH]; intros r o H HN HF; cbn [json_entries] in H.
  { injection H as <-. repeat split; auto. lia. }
  destruct (json_key k) as [s|] eqn:Ek; [|discriminate H]. cbn [bind] in H. destruct (json x) as [y|] eqn:Ex; [|discriminate H]. cbn [bind] in H.
  destruct (IH _ _ H (put_key_nodup s y r HN)) as (I1 & I2 & I3).
  { apply Forall_forall. intros e He. apply in_put_key in He. destruct He as [->|He]; [exists s; reflexivity|]. rewrite Forall_forall in HF. apply HF, He. }
  split; [exact I1|]. split; [exact I2|]. cbn [length].
  assert (length (put_key s y r) <= S (length r)); [|lia].
  rewrite <- (map_length fst (put_key s y r)), <- (map_length fst r). destruct (put_key_keys s y r) as [->|[-> _]]; [lia|]. rewrite app_length. cbn [length]. lia.
Qed.

Lemma lookup_str s e v : lookup (KStr s) e = Some v -> In (KStr s, v) e.
Proof.
  induction e as [|[k y] e IH]; intros H; [discriminate H|]. cbn [lookup] in H. destruct (key_eqb (KStr s) k) eqn:E.
  - injection H as ->. left. f_equal. destruct k as [t|z|b| |]; cbn in E; try discriminate E. apply str_eqb_eq in E. congruence.
  - right. apply IH, H.
Qed.
Lemma equal_entries_in d e : equal_entries d e = true -> forall k x, In (k, x) d -> exists y, lookup k e = Some y /\ equal x y = true.
Proof.
  induction d as [|[k x] d IH]; intros H k' x' Hin; [destruct Hin|]. cbn [equal_entries] in H. apply andb_true_iff in H. destruct H as [H1 H2].
  destruct Hin as [E|Hin]; [injection E as <- <-|exact (IH H2 _ _ Hin)]. destruct (lookup k e) as [y|]; [eauto|discriminate H1].
Qed.
Lemma string_keys (d : list (key * value)) : Forall (fun e => exists s, fst e = KStr s) d -> exists e, d = dict e.
Proof.
  induction 1 as [|[k x] d [s Hs] _ [e ->]]; [exists []; reflexivity|]. cbn [fst] in Hs. subst k. exists ((s, x) :: e). reflexivity.
Qed.
Lemma key_eq_dec (a b : key) : {a = b} + {a <> b}.
Proof. decide equality; try apply (list_eq_dec N.eq_dec); try apply Z.eq_dec; apply Bool.bool_dec. Qed.

Lemma json_entries_new e : forall r o, NoDup (map fst (r ++ e)) -> json_entries (dict e) (dict r) = Ok o ->
  exists ys, o = dict (r ++ combine (map fst e) ys) /\ Forall2 (fun x y => json (snd x) = Ok y) e ys.
Proof.
  induction e as [|[k x] e IH]; intros r o N H; cbn [map json_entries fst snd] in H.
  { injection H as <-. exists []. rewrite app_nil_r. split; [reflexivity|constructor]. }
  cbn [json_key bind] in H. destruct (json x) as [y|] eqn:Ex; [|discriminate H]. cbn [bind] in H.
  rewrite put_key_new in H.
  2: { rewrite map_app in N. cbn [map fst] in N. apply NoDup_remove_2 in N. intros H'. apply N. apply in_or_app. left. exact H'. }
  destruct (IH (r ++ [(k, y)]) o) as (ys & -> & HF).
  { rewrite map_app in N |- *. rewrite map_app. cbn [map fst] in *. rewrite <- app_assoc. exact N. }
  { exact H. }
  exists (y :: ys). rewrite <- app_assoc. split; [reflexivity|constructor; assumption].
Qed.

Theorem survives v : forall j, proper v -> json v = Ok j -> equal j v = true -> plain v.
Proof.
  induction v as [|b|z|z| |s|l IH|l IH|d IH|n] using value_ind'; intros j Hp Hj He; try constructor.
  - cbn in Hj. injection Hj as <-. discriminate He.
  - rewrite json_list in Hj. destruct (json_all l) as [m|] eqn:Em; [|discriminate Hj]. injection Hj as <-. rewrite equal_list in He.
    inversion Hp as [| | | | | |l' HF| | |]; subst. clear Hp. revert m Em He.
    induction l as [|x l IHl]; intros m Em He; [constructor|]. cbn [json_all] in Em. destruct (json x) as [y|] eqn:Ex; [|discriminate Em]. cbn [bind] in Em.
    destruct (json_all l) as [m'|] eqn:Em'; [|discriminate Em]. injection Em as <-. cbn [equal_all] in He. apply andb_true_iff in He. destruct He as [He1 He2].
    inversion IH as [|? ? I1 I2]; subst. inversion HF as [|? ? F1 F2]; subst. constructor; [exact (I1 y F1 Ex He1)|exact (IHl I2 F2 m' eq_refl He2)].
  - rewrite json_tuple in Hj. destruct (json_all l) as [m|]; [|discriminate Hj]. injection Hj as <-. discriminate He.
  - rewrite json_dict in Hj. destruct (json_entries d []) as [o|] eqn:Eo; [|discriminate Hj]. injection Hj as <-. rewrite equal_dict in He.
    apply andb_true_iff in He. destruct He as [He1 He2]. apply Nat.eqb_eq in He1.
    inversion Hp as [| | | | | | | |d' HN HF|]; subst. clear Hp.
    destruct (json_entries_keys d [] o Eo (NoDup_nil _) (Forall_nil _)) as (N1 & S1 & _).
    assert (Hincl : incl (map fst o) (map fst d)).
    { intros k Hk. apply in_map_iff in Hk. destruct Hk as ([k' x] & Ek & Hin). cbn [fst] in Ek. subst k'.
      destruct (equal_entries_in _ _ He2 _ _ Hin) as (y & Hy & _). rewrite Forall_forall in S1. destruct (S1 _ Hin) as [s Hs]. cbn [fst] in Hs. subst k.
      apply lookup_str in Hy. apply in_map_iff. exists (KStr s, y). auto. }
    assert (Hback : incl (map fst d) (map fst o)) by (apply NoDup_length_incl; [exact N1|rewrite !map_length; lia|exact Hincl]).
    assert (S2 : Forall (fun e => exists s, fst e = KStr s) d).
    { apply Forall_forall. intros [k x] Hin. assert (Hk : In k (map fst o)) by (apply Hback, in_map_iff; exists (k, x); auto).
      apply in_map_iff in Hk. destruct Hk as ([k' y] & Ek & Hin'). cbn [fst] in *. subst k'. rewrite Forall_forall in S1. exact (S1 _ Hin'). }
    destruct (string_keys d S2) as [e ->].
    assert (HNe : NoDup (map fst e)) by (rewrite map_map in HN; cbn [fst] in HN; apply (NoDup_map_inv KStr); rewrite map_map; exact HN).
    apply plain_dict; [exact HNe|].
    destruct (json_entries_new e [] o HNe Eo) as (ys & -> & HJ). cbn [app] in *.
    apply Forall_forall. intros [k x] Hin. cbn [snd].
    assert (Hy : exists y, json x = Ok y /\ In (k, y) (combine (map fst e) ys)).
    { clear -HJ Hin. revert Hin. induction HJ as [|[k' x'] y e ys Hxy _ IH]; intros Hin; [destruct Hin|]. destruct Hin as [E|Hin].
      - injection E as -> ->. exists y. split; [exact Hxy|left; reflexivity].
      - destruct (IH Hin) as (w & W1 & W2). exists w. split; [exact W1|right; exact W2]. }
    destruct Hy as (y & Hy1 & Hy2).
    assert (Hy3 : In (KStr k, y) (dict (combine (map fst e) ys))) by (apply in_map_iff; exists (k, y); auto).
    destruct (equal_entries_in _ _ He2 _ _ Hy3) as (w & W1 & W2). rewrite (lookup_dict e k x HNe Hin) in W1. injection W1 as <-.
    rewrite Forall_forall in IH, HF. assert (Hin2 : In (KStr k, x) (dict e)) by (apply in_map_iff; exists (k, x); auto).
    exact (IH _ Hin2 y (HF _ Hin2) Hy1 W2).
  - discriminate Hj.
Qed.

(** ** What is taken for the same inputs *)
Lemma number_counts v z : number v = Some z -> counts_as v z.
Proof. destruct v as [|[]| | | | | | | |]; cbn; try discriminate; intros H; injection H as <-; constructor. Qed.
Lemma equal_same v : plain v -> forall w, equal v w = true -> same v w.
Proof.
  induction v as [|b|z|z| |s|l IH|l IH|d IH|n] using value_ind'; intros H w He; try (inversion H; fail).
  - destruct w; cbn in He; try discriminate He. constructor.
  - assert (G : exists y, number w = Some y /\ number (PBool b) = Some y).
    { destruct w; cbn in He |- *; try discriminate He; apply Z.eqb_eq in He; rewrite He; eauto. }
    destruct G as (y & G1 & G2). eapply same_number; apply number_counts; eassumption.
  - assert (G : exists y, number w = Some y /\ number (PInt z) = Some y).
    { destruct w; cbn in He |- *; try discriminate He; apply Z.eqb_eq in He; rewrite He; eauto. }
    destruct G as (y & G1 & G2). eapply same_number; apply number_counts; eassumption.
  - assert (G : exists y, number w = Some y /\ number (PFloat z) = Some y).
    { destruct w; cbn in He |- *; try discriminate He; apply Z.eqb_eq in He; rewrite He; eauto. }
    destruct G as (y & G1 & G2). eapply same_number; apply number_counts; eassumption.
  - apply equal_str_l in He. subst w. constructor.
  - destruct w as [| | | | | |m| | |]; try discriminate He. rewrite equal_list in He. inversion H as [| | | | |l' F E|]; subst. clear H.
    apply same_list. revert m He. induction l as [|x l IHl]; intros [|y m] He; try discriminate He; [constructor|]. cbn [equal_all] in He.
    apply andb_true_iff in He. destruct He as [He1 He2]. inversion IH; subst. inversion F; subst. constructor; auto.
  - destruct w as [| | | | | | | |e|]; try discriminate He. rewrite equal_dict in He. inversion H as [| | | | | |d' N F E]. clear H. subst d.
    apply andb_true_iff in He. destruct He as [He1 He2]. apply Nat.eqb_eq in He1. apply same_dict; [exact He1|].
    apply Forall_forall. intros [k x] Hin. destruct (equal_entries_in _ _ He2 _ _ Hin) as (y & Hy1 & Hy2). cbn [fst snd].
    pose proof Hin as Hin'. apply in_map_iff in Hin'. destruct Hin' as ([t u] & Et & Hu). cbn [fst snd] in Et. injection Et as <- <-.
    exists y. split; [apply lookup_str, Hy1|]. rewrite Forall_forall in IH, F. exact (IH _ Hin (F _ Hu) y Hy2).
Qed.
