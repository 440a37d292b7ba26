From Verif Require Import Base Format_Proofs Tree_Model Tree_Spec.
From Coq Require Import NArith ZArith Lia.
Local Ltac Zify.zify_post_hook ::= idtac.
Local Open Scope nat_scope.

Section TreeInd.
Context {L : Type} (P : tree L -> Prop).
Context (HL : forall l, P (Leaf l)) (HN : forall k ts, Forall P ts -> P (Node k ts)).
Fixpoint tree_ind2 (t : tree L) : P t :=
  match t with
  | Leaf l => HL l
  | Node k ts => HN k ts ((fix go ts : Forall P ts :=
      match ts with [] => Forall_nil P | t :: ts' => Forall_cons t (tree_ind2 t) (go ts') end) ts)
  end.
End TreeInd.

Fixpoint spec_of {L} (t : tree L) : spec key :=
  match t with Leaf _ => SLeaf | Node k ts => SNode k (map spec_of ts) end.

Lemma flatten_onto_ok {L} (t : tree L) : forall acc, flatten_onto t acc = (acc ++ leaves t, spec_of t).
Proof.
  induction t as [l|k ts IH] using tree_ind2; intros acc; [reflexivity|].
  cbn [flatten_onto leaves spec_of].
  match goal with |- context [fst (?g ts acc)] => set (go := g) end.
  assert (H : forall acc, go ts acc = (acc ++ flat_map leaves ts, map spec_of ts)).
  { clear acc. induction IH as [|t ts Ht _ IHts]; intros acc; cbn.
    - rewrite app_nil_r. reflexivity.
    - rewrite Ht. cbn [fst snd]. rewrite IHts. cbn [fst snd]. rewrite <- app_assoc. reflexivity. }
  rewrite H. reflexivity.
Qed.

Lemma tree_flatten_ok {L} (t : tree L) : tree_flatten t = (leaves t, spec_of t).
Proof. unfold tree_flatten. rewrite flatten_onto_ok. reflexivity. Qed.

Lemma num_leaves_ok {L} (t : tree L) : num_leaves (spec_of t) = length (leaves t).
Proof.
  induction t as [l|k ts IH] using tree_ind2; [reflexivity|]. cbn [spec_of num_leaves leaves].
  induction IH as [|t ts Ht _ IHts]; [reflexivity|]. cbn [map sum flat_map]. rewrite app_length, Ht, IHts. reflexivity.
Qed.

Lemma spec_of_tmap {A B} (f : A -> B) t : spec_of (tmap f t) = spec_of t.
Proof.
  induction t as [l|k ts IH] using tree_ind2; [reflexivity|]. cbn [tmap spec_of]. f_equal. rewrite map_map.
  apply map_ext_in. intros t Ht. rewrite Forall_forall in IH. apply IH, Ht.
Qed.

Lemma leaves_tmap {A B} (f : A -> B) t : leaves (tmap f t) = map f (leaves t).
Proof.
  induction t as [l|k ts IH] using tree_ind2; [reflexivity|]. cbn [tmap leaves].
  induction IH as [|t ts Ht _ IHts]; [reflexivity|]. cbn [map flat_map]. rewrite map_app, Ht, IHts. reflexivity.
Qed.

Lemma tmap_id {A} (t : tree A) : tmap (fun x => x) t = t.
Proof.
  induction t as [l|k ts IH] using tree_ind2; [reflexivity|]. cbn [tmap]. f_equal.
  induction IH as [|t ts Ht _ IHts]; [reflexivity|]. cbn [map]. rewrite Ht, IHts. reflexivity.
Qed.

Lemma rebuild_ok {A B} (f : A -> B) k ts :
  node_valid k (length ts) -> rebuild k (map (tmap f) ts) = Ok (Node k (map (tmap f) ts)).
Proof.
  destruct k as [| |keys|keys|fa keys|[m|]|c]; cbn [node_valid rebuild]; intros H; try reflexivity;
    try (rewrite H; reflexivity).
  unfold lastn. rewrite map_length. replace (length ts - m) with 0 by lia. reflexivity.
Qed.

Lemma slice_mid {A} (pre mid post : list A) : slice (length pre) (length pre + length mid) (pre ++ mid ++ post) = mid.
Proof.
  unfold slice. rewrite skipn_app_exact by reflexivity.
  replace (length pre + length mid - length pre) with (length mid) by lia. apply firstn_app_exact. reflexivity.
Qed.

Lemma unflatten_ok {A B} (f : A -> B) (t : tree A) :
  tree_valid t -> unflatten (spec_of t) (map f (leaves t)) = Ok (tmap f t).
Proof.
  induction t as [l|k ts IH] using tree_ind2; intros Hv; [reflexivity|].
  cbn [tree_valid] in Hv. destruct Hv as [Hk Hts].
  cbn [spec_of unflatten tmap].
  rewrite (proj2 (Nat.eqb_eq (length (map f (leaves (Node k ts)))) (num_leaves (SNode k (map spec_of ts))))).
  2: { rewrite map_length. symmetry. exact (num_leaves_ok (Node k ts)). }
  cbn [negb leaves].
  match goal with |- bind (?g (map spec_of ts) 0) _ = _ => set (go := g) end.
  assert (H : forall ts0 pre, Forall (fun t => tree_valid t -> unflatten (spec_of t) (map f (leaves t)) = Ok (tmap f t)) ts0 ->
            fold_right (fun t P => tree_valid t /\ P) True ts0 ->
            map f (flat_map leaves ts) = pre ++ map f (flat_map leaves ts0) ->
            go (map spec_of ts0) (length pre) = Ok (map (tmap f) ts0)).
  { induction ts0 as [|t ts0 IH0]; intros pre HI HV HE; [reflexivity|].
    inversion HI as [|? ? Ht HI']; subst. cbn [fold_right] in HV. destruct HV as [HVt HV].
    cbn [map]. cbn [go]. unfold go. fold go. cbv zeta. rewrite HE at 1. cbn [flat_map]. rewrite map_app.
    rewrite num_leaves_ok. rewrite <- (map_length f (leaves t)). rewrite slice_mid. rewrite Ht by exact HVt. cbn [bind].
    rewrite <- app_length. rewrite (IH0 (pre ++ map f (leaves t))); [reflexivity|exact HI'|exact HV|].
    rewrite HE. cbn [flat_map]. rewrite map_app, app_assoc. reflexivity. }
  change 0 with (length (@nil B)). rewrite (H ts [] IH Hts eq_refl). cbn [bind]. apply rebuild_ok. exact Hk.
Qed.

Lemma unflatten_count {L} s (ls : list L) : length ls <> num_leaves s -> unflatten s ls = Err ValueError.
Proof. intros H. apply Nat.eqb_neq in H. destruct s; cbn [unflatten]; rewrite H; reflexivity. Qed.

(** * JSON *)
Lemma mapM_ok {A B} (f : A -> res B) (g : A -> B) l : Forall (fun x => f x = Ok (g x)) l -> mapM f l = Ok (map g l).
Proof. induction 1 as [|x l Hx _ IH]; [reflexivity|]. cbn. rewrite Hx. cbn [bind]. fold (mapM f). rewrite IH. reflexivity. Qed.

Lemma plain_keys keys : Forall plain_key keys -> exists js, mapM key_to_json keys = Ok js /\ map json_to_key js = keys.
Proof.
  induction 1 as [|k keys Hk _ IH]; [exists []; split; reflexivity|].
  destruct IH as (js & E & M). cbn. fold (mapM key_to_json). rewrite E.
  destruct k; try contradiction; cbn [key_to_json bind]; eexists; (split; [reflexivity|]); cbn; rewrite M; reflexivity.
Qed.

Lemma kind_json rw rr k :
  node_plain rw rr k -> exists j, kind_to_json rw k = Ok j /\ kind_of_json rr j = Ok k.
Proof.
  destruct k as [| |keys|keys|fa keys|m|c]; cbn [node_plain kind_to_json]; intros H.
  - eexists; split; reflexivity.
  - eexists; split; reflexivity.
  - destruct (plain_keys keys H) as (js & E & M). rewrite E. eexists; split; [reflexivity|]. cbn. rewrite M. reflexivity.
  - destruct (plain_keys keys H) as (js & E & M). rewrite E. eexists; split; [reflexivity|]. cbn. rewrite M. reflexivity.
  - destruct H as [H (i & ->)]. destruct (plain_keys keys H) as (js & E & M). rewrite E. eexists; split; [reflexivity|].
    cbn. rewrite M. reflexivity.
  - eexists; split; reflexivity.
  - destruct H as [H1 H2]. rewrite H1. eexists; split; [reflexivity|]. cbn. rewrite H2. reflexivity.
Qed.

Lemma is_leaf_node {K} (k : kind K) ss : is_leaf (SNode k ss) = false.
Proof.
  unfold is_leaf. destruct ss as [|s ss]; cbn [num_nodes num_leaves map sum].
  - rewrite andb_false_r. reflexivity.
  - assert (1 <= num_nodes s) by (destruct s; cbn; lia).
    replace (1 + (num_nodes s + sum (map num_nodes ss)) =? 1) with false; [reflexivity|]. symmetry. apply Nat.eqb_neq. lia.
Qed.

Lemma spec_json rw rr {L} (t : tree L) :
  tree_plain rw rr t -> exists j, spec_to_json rw (spec_of t) = Ok j /\ spec_of_json rr j = Ok (spec_of t).
Proof.
  induction t as [l|k ts IH] using tree_ind2; intros Hp; [exists SLeaf; split; reflexivity|].
  cbn [tree_plain] in Hp. destruct Hp as [Hk Hts].
  destruct (kind_json rw rr k Hk) as (jk & E & D).
  assert (H : exists js, mapM (spec_to_json rw) (map spec_of ts) = Ok js /\ mapM (spec_of_json rr) js = Ok (map spec_of ts)).
  { clear E D Hk. induction IH as [|t ts Ht _ IHts]; [exists []; split; reflexivity|].
    cbn [fold_right] in Hts. destruct Hts as [H1 H2]. destruct (Ht H1) as (j & Ej & Dj).
    destruct (IHts H2) as (js & Ejs & Djs). exists (j :: js). cbn.
    fold (mapM (spec_to_json rw)). fold (mapM (spec_of_json rr)).
    rewrite Ej. cbn [bind]. rewrite Ejs, Dj. cbn [bind]. rewrite Djs. split; reflexivity. }
  destruct H as (js & Ejs & Djs). exists (SNode jk js). cbn [spec_of spec_to_json spec_of_json].
  rewrite is_leaf_node, E, D. cbn [bind]. rewrite Ejs, Djs. split; reflexivity.
Qed.

Lemma flat_keys keys js :
  Forall flat_key keys -> mapM key_to_json keys = Ok js -> map json_to_key js = keys.
Proof.
  intros H; revert js; induction H as [|k keys Hk _ IH]; intros js E.
  - cbn in E. injection E as <-. reflexivity.
  - cbn in E. fold (mapM key_to_json) in E. destruct (key_to_json k) as [j|] eqn:Ek; [|discriminate E].
    cbn [bind] in E. destruct (mapM key_to_json keys) as [js'|] eqn:E'; [|discriminate E].
    cbn [bind] in E. injection E as <-. cbn [map]. rewrite (IH js' eq_refl). f_equal.
    destruct k; cbn in Ek, Hk; try contradiction; try discriminate Ek; injection Ek as <-; reflexivity.
Qed.

Lemma kind_stored rw rr k j :
  node_flat rw rr k -> kind_to_json rw k = Ok j -> kind_of_json rr j = Ok k.
Proof.
  destruct k as [| |keys|keys|fa keys|m|c]; cbn [node_flat kind_to_json]; intros H E.
  - injection E as <-; reflexivity.
  - injection E as <-; reflexivity.
  - destruct (mapM key_to_json keys) as [js|] eqn:M; [|discriminate E]. injection E as <-. cbn. rewrite (flat_keys _ _ H M). reflexivity.
  - destruct (mapM key_to_json keys) as [js|] eqn:M; [|discriminate E]. injection E as <-. cbn. rewrite (flat_keys _ _ H M). reflexivity.
  - destruct H as [H Hf]. destruct fa as [|i|i]; [discriminate E| |exfalso; apply (Hf i); reflexivity].
    destruct (mapM key_to_json keys) as [js|] eqn:M; [|discriminate E]. injection E as <-. cbn. rewrite (flat_keys _ _ H M). reflexivity.
  - injection E as <-; reflexivity.
  - destruct (rw c) eqn:Rc; [|discriminate E]. injection E as <-. cbn. rewrite (H eq_refl). reflexivity.
Qed.

Lemma spec_stored rw rr {L} (t : tree L) : forall j,
  tree_flat rw rr t -> spec_to_json rw (spec_of t) = Ok j -> spec_of_json rr j = Ok (spec_of t).
Proof.
  induction t as [l|k ts IH] using tree_ind2; intros j Hp E; [cbn in E; injection E as <-; reflexivity|].
  cbn [tree_flat] in Hp. destruct Hp as [Hk Hts].
  cbn [spec_of spec_to_json] in E. rewrite is_leaf_node in E.
  destruct (kind_to_json rw k) as [jk|] eqn:Ek; [|discriminate E]. cbn [bind] in E.
  destruct (mapM (spec_to_json rw) (map spec_of ts)) as [js|] eqn:Ejs; [|discriminate E]. cbn [bind] in E.
  injection E as <-. cbn [spec_of_json]. rewrite (kind_stored _ _ _ _ Hk Ek). cbn [bind].
  assert (H : mapM (spec_of_json rr) js = Ok (map spec_of ts)); [|rewrite H; reflexivity].
  clear Ek Hk. revert js Ejs. induction IH as [|t ts Ht _ IHts]; intros js Ejs; [cbn in Ejs; injection Ejs as <-; reflexivity|].
  cbn [fold_right] in Hts. destruct Hts as [H1 H2]. cbn in Ejs. fold (mapM (spec_to_json rw)) in Ejs.
  destruct (spec_to_json rw (spec_of t)) as [j|] eqn:Ej; [|discriminate Ejs]. cbn [bind] in Ejs.
  destruct (mapM (spec_to_json rw) (map spec_of ts)) as [js'|] eqn:E'; [|discriminate Ejs]. cbn [bind] in Ejs.
  injection Ejs as <-. cbn. fold (mapM (spec_of_json rr)). rewrite (Ht j H1 eq_refl), (IHts H2 js' eq_refl). reflexivity.
Qed.

Lemma same_structure_spec {A B} (t : tree A) (u : tree B) : same_structure t u -> spec_of t = spec_of u.
Proof. unfold same_structure. intros H. rewrite <- (spec_of_tmap (fun _ => tt) t), H. apply spec_of_tmap. Qed.

Lemma same_structure_leaves {A B} (t : tree A) (u : tree B) : same_structure t u -> length (leaves t) = length (leaves u).
Proof. intros H. apply same_structure_spec in H. rewrite <- !num_leaves_ok, H. reflexivity. Qed.
