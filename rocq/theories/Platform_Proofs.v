(** Proofs about the surroundings. *)
From Coq Require Import String NArith ZArith Lia.
From Verif Require Import Base Names_Model Names_Proofs Size_Model Paths_Model Paths_Proofs Platform_Model Platform_Spec.
Local Open Scope list_scope.
Local Open Scope nat_scope.
Local Ltac Zify.zify_post_hook ::= idtac.

(** ** The client *)
Lemma use_some interval n l made t1 t2 t3 : use interval (Client (Some n) (Some l) made) t1 t2 t3 =
  if (interval <? t2 - l)%Z then Client (Some made) (Some t3) (S made) else Client (Some n) (Some l) made.
Proof. reflexivity. Qed.
Lemma use_none interval last made t1 t2 t3 : use interval (Client None last made) t1 t2 t3 =
  if (interval <? t2 - t1)%Z then Client (Some (S made)) (Some t3) (S (S made)) else Client (Some made) (Some t1) (S made).
Proof. reflexivity. Qed.
Lemma uses_later interval : forall ts n l made from j r t1 t2 t3,
  n < made -> clock from ts ->
  nth_error (uses interval (Client (Some n) (Some l) made) ts) j = Some r -> nth_error ts j = Some (t1, t2, t3) ->
  exists m, r = Some m /\ n <= m /\ (m = n -> (t2 - l <= interval)%Z).
Proof.
  induction ts as [|((s1 & s2) & s3) ts IH]; intros n l made from j r t1 t2 t3 Hm Hc Hr Ht; [destruct j; discriminate Ht|].
  cbn [uses] in Hr. rewrite use_some in Hr. destruct Hc as (Hc1 & Hc2).
  destruct (interval <? s2 - l)%Z eqn:E; cbn [c_client] in Hr; destruct j as [|j]; cbn [nth_error] in *.
  - injection Hr as <-. injection Ht as <- <- <-. exists made. split; [reflexivity|]. split; lia.
  - destruct (IH made s3 (S made) s3 j r t1 t2 t3) as (m & -> & Hle & _); [lia|exact Hc2|exact Hr|exact Ht|].
    exists m. split; [reflexivity|]. split; lia.
  - injection Hr as <-. injection Ht as <- <- <-. exists n. split; [reflexivity|]. apply Z.ltb_ge in E. split; lia.
  - exact (IH n l made s3 j r t1 t2 t3 Hm Hc2 Hr Ht).
Qed.

Lemma uses_same interval : forall ts c from i j r t1 t2 t3 s1 s2 s3,
  (match c_client c with Some n => n < c_made c /\ exists l, c_last c = Some l /\ (l <= from)%Z | None => True end) -> clock from ts -> i < j ->
  nth_error (uses interval c ts) i = Some r -> nth_error (uses interval c ts) j = Some r ->
  nth_error ts i = Some (t1, t2, t3) -> nth_error ts j = Some (s1, s2, s3) ->
  (s2 - t3 <= interval)%Z.
Proof.
  induction ts as [|((u1 & u2) & u3) ts IH]; intros c from i j r t1 t2 t3 s1 s2 s3 Hc Hk Hij Hi Hj Ti Tj; [destruct i; discriminate Ti|].
  cbn [uses] in Hi, Hj. set (c' := use interval c u1 u2 u3) in *. destruct Hk as (Hk1 & Hk2).
  assert (C : exists n l, c' = Client (Some n) (Some l) (c_made c') /\ n < c_made c' /\ (l <= u3)%Z).
  { unfold c'. destruct c as [[n|] last made]; cbn [c_client c_last c_made create] in *.
    - destruct Hc as (Hn & l & -> & Hl). rewrite use_some. destruct (interval <? u2 - l)%Z; cbn [c_made].
      + exists made, u3. split; [reflexivity|]. split; lia.
      + exists n, l. split; [reflexivity|]. split; lia.
    - rewrite use_none. destruct (interval <? u2 - u1)%Z; cbn [c_made].
      + exists (S made), u3. split; [reflexivity|]. split; lia.
      + exists made, u1. split; [reflexivity|]. split; lia. }
  destruct C as (n & l & Ec & Hn & Hl). destruct j as [|j]; [lia|]. cbn [nth_error] in Hj, Tj. destruct i as [|i].
  - cbn [nth_error] in Hi, Ti. injection Ti as <- <- <-. injection Hi as <-. rewrite Ec in Hj.
    destruct (uses_later interval ts n l (c_made c') u3 j _ s1 s2 s3 Hn Hk2 Hj Tj) as (m & E & _ & G). cbn [c_client] in E.
    injection E as <-. specialize (G eq_refl). lia.
  - cbn [nth_error] in Hi, Ti. apply (IH c' u3 i j r t1 t2 t3 s1 s2 s3); try assumption; [|lia].
    rewrite Ec. cbn [c_client c_made c_last]. split; [exact Hn|]. exists l. split; [reflexivity|exact Hl].
Qed.

Lemma kept_until interval : forall ts n l made from j s1 s2 s3, clock from ts -> nth_error ts j = Some (s1, s2, s3) -> (s2 - l <= interval)%Z ->
  nth_error (uses interval (Client (Some n) (Some l) made) ts) j = Some (Some n).
Proof.
  induction ts as [|((t1 & t2) & t3) ts IH]; intros n l made from j s1 s2 s3 Hk Hj Hs; [destruct j; discriminate Hj|].
  destruct Hk as (Hk1 & Hk2). cbn [uses]. rewrite use_some.
  assert (T : (t2 <= s2)%Z).
  { destruct j as [|j]; cbn [nth_error] in Hj; [injection Hj as <- <- <-; lia|].
    assert (G : forall ts from j, clock from ts -> nth_error ts j = Some (s1, s2, s3) -> (from <= s2)%Z).
    { clear. induction ts as [|((t1 & t2) & t3) ts IH]; intros from j Hk Hj; [destruct j; discriminate Hj|]. destruct Hk as (Hk1 & Hk2).
      destruct j as [|j]; cbn [nth_error] in Hj; [injection Hj as <- <- <-; lia|]. specialize (IH t3 j Hk2 Hj). lia. }
    specialize (G ts t3 j Hk2 Hj). lia. }
  replace (interval <? t2 - l)%Z with false by (symmetry; apply Z.ltb_ge; lia). destruct j as [|j]; cbn [nth_error c_client] in *; [reflexivity|].
  exact (IH n l made t3 j s1 s2 s3 Hk2 Hj Hs).
Qed.
Definition before (l : list (option nat)) (c : option nat) (i : nat) : option nat := match i with 0 => c | S k => nth k l None end.
Lemma uses_new interval : forall ts c from i j r t1 t2 t3 s1 s2 s3,
  (match c_client c with Some n => n < c_made c /\ exists l, c_last c = Some l | None => True end) -> clock from ts -> i <= j ->
  nth_error (uses interval c ts) i = Some r -> before (uses interval c ts) (c_client c) i <> r ->
  nth_error ts i = Some (t1, t2, t3) -> nth_error ts j = Some (s1, s2, s3) -> (s2 - t1 <= interval)%Z ->
  nth_error (uses interval c ts) j = Some r.
Proof.
  induction ts as [|((u1 & u2) & u3) ts IH]; intros c from i j r t1 t2 t3 s1 s2 s3 Hc Hk Hij Hi Hb Ti Tj Hs; [destruct i; discriminate Ti|].
  cbn [uses] in *. set (c' := use interval c u1 u2 u3) in *. destruct Hk as (Hk1 & Hk2).
  assert (C : exists n l, c' = Client (Some n) (Some l) (c_made c') /\ n < c_made c' /\ (c_client c <> Some n -> (u1 <= l)%Z)).
  { unfold c'. destruct c as [[n|] last made]; cbn [c_client c_last c_made create] in *.
    - destruct Hc as (Hn & l & ->). rewrite use_some. destruct (interval <? u2 - l)%Z; cbn [c_made].
      + exists made, u3. split; [reflexivity|]. split; lia.
      + exists n, l. split; [reflexivity|]. split; [lia|congruence].
    - rewrite use_none. destruct (interval <? u2 - u1)%Z; cbn [c_made].
      + exists (S made), u3. split; [reflexivity|]. split; lia.
      + exists made, u1. split; [reflexivity|]. split; lia. }
  destruct C as (n & l & Ec & Hn & Hl). destruct i as [|i].
  - cbn [nth_error before] in *. injection Ti as <- <- <-. injection Hi as <-. destruct j as [|j]; cbn [nth_error] in *; [reflexivity|].
    rewrite Ec in *. cbn [c_client] in *. specialize (Hl Hb). apply (kept_until interval ts n l _ u3 j s1 s2 s3 Hk2 Tj). lia.
  - destruct j as [|j]; [lia|]. cbn [nth_error] in *.
    apply (IH c' u3 i j r t1 t2 t3 s1 s2 s3); try assumption; try lia.
    + rewrite Ec. cbn [c_client c_made c_last]. split; [exact Hn|]. exists l. reflexivity.
Qed.
Lemma uses_length interval : forall ts c, length (uses interval c ts) = length ts.
Proof. induction ts as [|((t1 & t2) & t3) ts IH]; intros c; [reflexivity|]. cbn [uses length]. rewrite IH. reflexivity. Qed.
Lemma use_client interval c t1 t2 t3 : exists n, c_client (use interval c t1 t2 t3) = Some n.
Proof.
  destruct c as [[n|] [l|] made]; [rewrite use_some|exists made; reflexivity|rewrite use_none|rewrite use_none];
    match goal with |- context [if ?b then _ else _] => destruct b end; eexists; reflexivity.
Qed.
Lemma uses_some interval : forall ts c i, i < length ts -> exists n, nth_error (uses interval c ts) i = Some (Some n).
Proof.
  induction ts as [|((t1 & t2) & t3) ts IH]; intros c i H; [inversion H|]. cbn [uses]. destruct i as [|i]; cbn [nth_error].
  - destruct (use_client interval c t1 t2 t3) as (n & E). exists n. f_equal. exact E.
  - apply IH. cbn [length] in H. lia.
Qed.

(** ** Folders *)
Lemma split_path names : Forall name_ok names -> split slash (path names) = [] :: names \/ (names = [] /\ split slash (path names) = [[]]).
Proof.
  destruct names as [|n names]; intros H; [right; auto|]. left. revert n H. induction names as [|m names IH]; intros n H.
  - cbn [path map concat]. rewrite app_nil_r. change (slash :: n) with ([] ++ slash :: n). rewrite split_at; [|intros []].
    rewrite split_none; [reflexivity|]. apply (Forall_inv H).
  - pose proof (Forall_inv H) as (_ & Hn). specialize (IH m (Forall_inv_tail H)).
    change (path (n :: m :: names)) with ([] ++ slash :: n ++ path (m :: names)). rewrite split_at; [|intros []]. f_equal.
    change (path (m :: names)) with (slash :: m ++ path names) in *. rewrite split_at; [|exact Hn]. f_equal.
    change (slash :: m ++ path names) with ([] ++ slash :: m ++ path names) in IH. rewrite split_at in IH; [|intros []].
    injection IH as IH. exact IH.
Qed.
Lemma split_names names : names <> [] -> Forall name_ok names -> split slash (path names) = [] :: names.
Proof. intros N H. destruct (split_path names H) as [E|(E & _)]; [exact E|contradiction]. Qed.

Lemma ends_name a n : name_ok n -> ends [slash] (a ++ slash :: n) = false.
Proof.
  intros (N1 & N2). unfold ends. rewrite rev_app_distr. cbn [rev]. rewrite <- app_assoc. destruct (rev n) as [|c r] eqn:E.
  - exfalso. apply N1. apply (f_equal (@rev N)) in E. rewrite rev_involutive in E. exact E.
  - cbn [app starts]. rewrite andb_true_r. apply N.eqb_neq. intros <-. apply N2. apply in_rev. rewrite E. left. reflexivity.
Qed.
Lemma join_name a n : a <> [] -> ends [slash] a = false -> name_ok n -> join a n = a ++ slash :: n /\ ends [slash] (a ++ slash :: n) = false.
Proof.
  intros Ha He (N1 & N2). split.
  - apply join_plain; [exact Ha|exact He|]. destruct (starts [slash] n) eqn:E; [|reflexivity]. apply starts_slash in E.
    destruct E as (r & ->). exfalso. apply N2. left. reflexivity.
  - apply ends_name. split; assumption.
Qed.
Lemma join_all_path names : forall a, a <> [] -> ends [slash] a = false -> Forall name_ok names -> join_all a names = a ++ path names.
Proof.
  induction names as [|n names IH]; intros a Ha He H; [unfold join_all, path; cbn; rewrite app_nil_r; reflexivity|].
  unfold join_all in *. cbn [fold_left]. destruct (join_name a n Ha He (Forall_inv H)) as (-> & E).
  rewrite IH; [|destruct a; discriminate|exact E|exact (Forall_inv_tail H)]. unfold path. cbn [map concat]. rewrite <- app_assoc. reflexivity.
Qed.
Lemma join_all_slash n names a : Forall name_ok (n :: names) -> join_all (a ++ [slash]) (n :: names) = a ++ path (n :: names).
Proof.
  intros H. pose proof (Forall_inv H) as (N1 & N2).
  assert (J : join (a ++ [slash]) n = a ++ slash :: n).
  { unfold join. destruct (starts [slash] n) eqn:E.
    - apply starts_slash in E. destruct E as (r & ->). exfalso. apply N2. left. reflexivity.
    - replace (ends [slash] (a ++ [slash])) with true.
      + destruct (a ++ [slash]) eqn:G; [destruct a; discriminate G|]. rewrite <- G, <- app_assoc. reflexivity.
      + unfold ends. rewrite rev_app_distr. reflexivity. }
  unfold join_all. cbn [fold_left]. rewrite J. fold (join_all (a ++ slash :: n) names).
  rewrite join_all_path.
  - unfold path. cbn [map concat]. rewrite <- app_assoc. reflexivity.
  - destruct a; discriminate.
  - apply ends_name. split; assumption.
  - exact (Forall_inv_tail H).
Qed.

Lemma same_iff a b : same_str a b = true <-> a = b.
Proof. unfold same_str. destruct (list_eq_dec N.eq_dec a b); split; congruence. Qed.
Lemma find_only {A} (f : A -> bool) l x : In x l -> f x = true -> (forall y, In y l -> f y = true -> y = x) -> find f l = Some x.
Proof.
  intros H Hx U. destruct (find f l) as [y|] eqn:E.
  - apply find_some in E. destruct E as (E1 & E2). rewrite (U y E1 E2). reflexivity.
  - rewrite (find_none f l E x H) in Hx. discriminate Hx.
Qed.

Lemma starts_path_studios name rest : starts (codes "/teamspace/studios/this_studio") (path (codes "teamspace" :: codes "studios" :: name :: rest)) =
  starts (codes "this_studio") (name ++ path rest).
Proof. reflexivity. Qed.
Lemma starts_folder p n r : ~ In slash p -> (r = [] \/ exists r', r = slash :: r') -> starts p (n ++ r) = true -> exists q, n = p ++ q.
Proof.
  intros Hp Hr. revert n. induction p as [|c p IH]; intros n H; [exists n; reflexivity|]. destruct n as [|d n]; cbn [app starts] in H.
  - destruct Hr as [->|(r' & ->)]; cbn in H; [discriminate H|]. apply andb_true_iff in H. destruct H as (H & _). apply N.eqb_eq in H. exfalso. apply Hp. left. exact H.
  - apply andb_true_iff in H. destruct H as (H1 & H2). apply N.eqb_eq in H1. subst d.
    destruct (IH (fun G => Hp (or_intror G)) n H2) as (q & ->). exists q. reflexivity.
Qed.
Lemma path_nil_or names : path names = [] \/ exists r, path names = slash :: r.
Proof. destruct names as [|n names]; [left; reflexivity|right]. eexists. reflexivity. Qed.
Lemma plain_codes (s : str) : forallb (fun c => negb (c =? slash)%N) s = true -> ~ In slash s.
Proof. intros H G. rewrite forallb_forall in H. specialize (H slash G). rewrite N.eqb_refl in H. discriminate H. Qed.
Lemma const_ok (s : str) : (match s with [] => false | _ => true end) && forallb (fun c => negb (c =? slash)%N) s = true -> name_ok s.
Proof. intros H. apply andb_true_iff in H. destruct H as (H1 & H2). split; [destruct s; [discriminate H1|discriminate]|apply plain_codes; exact H2]. Qed.

Section Resolve.
  Variables (lower : str -> str) (studios : list studio) (clusters : list cluster) (connections : list connection) (project this_studio : str).
  Notation resolve := (resolve lower studios clusters connections project this_studio).

  Lemma match_iff n s : match_studio lower n s = true <-> goes_by lower s n.
  Proof.
    unfold match_studio, goes_by. rewrite orb_true_iff. split.
    - intros [H|H].
      + destruct (s_name s) as [m|]; [|discriminate H]. exists m. split; [left; reflexivity|apply same_iff; exact H].
      + destruct (s_display s) as [m|]; [|discriminate H]. exists m. split; [right; reflexivity|apply same_iff; exact H].
    - intros (m & [E|E] & H); rewrite E; [left|right]; apply same_iff; exact H.
  Qed.
  Lemma find_one {A} (f : A -> bool) (P : A -> Prop) l x : (forall y, f y = true <-> P y) -> the_one P l x -> find f l = Some x.
  Proof. intros E (H1 & H2 & H3). apply find_only; [exact H1|apply E; exact H2|]. intros y Hy Fy. apply H3; [exact Hy|apply E; exact Fy]. Qed.
  Lemma bucket_one id k : the_one (fun k => k_id k = id) clusters k -> bucket_of clusters id = Ok (k_bucket k).
  Proof.
    intros H. unfold bucket_of. rewrite (find_one (fun k0 => same_str (k_id k0) id) _ _ k (fun y => same_iff (k_id y) id) H). reflexivity.
  Qed.

  Lemma split_dir a b rest : name_ok a -> name_ok b -> Forall name_ok rest -> split slash (path (a :: b :: rest)) = [] :: a :: b :: rest.
  Proof. intros Ha Hb H. apply split_names; [discriminate|]. constructor; [exact Ha|]. constructor; [exact Hb|exact H]. Qed.

  Lemma resolve_in_studio name rest s k : Forall name_ok (name :: rest) -> ~ like_this_studio name ->
    the_one (fun s => goes_by lower s name) studios s -> the_one (fun k => k_id k = s_cluster s) clusters k ->
    resolve (path (codes "teamspace" :: codes "studios" :: name :: rest)) =
    Ok (Some (codes "s3://" ++ k_bucket k ++ codes "/projects/" ++ project ++ codes "/cloudspaces/" ++ s_id s ++ codes "/code/content" ++ path rest)).
  Proof.
    intros H N S K. unfold Platform_Model.resolve. rewrite starts_path_studios.
    destruct (starts (codes "this_studio") (name ++ path rest)) eqn:E.
    { exfalso. apply N. destruct (starts_folder (codes "this_studio") name (path rest)) as (q & ->); [apply plain_codes; reflexivity|apply path_nil_or|exact E|].
      exists q. reflexivity. }
    unfold folder_of. rewrite split_dir; [|apply const_ok; reflexivity|apply const_ok; reflexivity|exact H].
    replace (starts (codes "/teamspace/studios") (path (codes "teamspace" :: codes "studios" :: name :: rest))) with true by reflexivity.
    cbn [length Nat.ltb Nat.leb andb nth]. unfold resolve_studio. rewrite (find_one (match_studio lower name) _ _ s (match_iff name) S).
    rewrite (bucket_one _ k K). cbn [bind]. rewrite split_dir; [|apply const_ok; reflexivity|apply const_ok; reflexivity|exact H]. cbn [skipn].
    rewrite join_all_path; [rewrite <- !app_assoc; reflexivity|discriminate| |exact (Forall_inv_tail H)].
    rewrite !app_assoc. change (codes "/code/content") with (codes "/code" ++ slash :: codes "content"). rewrite app_assoc. apply ends_name. apply const_ok. reflexivity.
  Qed.

  Lemma resolve_in_connection folder name rest c base : In folder [codes "s3_connections"; codes "s3_folders"] ->
    Forall name_ok (name :: rest) -> the_one (fun c => d_name c = name) connections c ->
    base <> [] -> ends [slash] base = false -> d_source c = base \/ (d_source c = base ++ [slash] /\ rest <> []) ->
    resolve (path (codes "teamspace" :: folder :: name :: rest)) = Ok (Some (base ++ path rest)).
  Proof.
    intros F H C B1 B2 B3.
    assert (G : resolve_connection connections (path (codes "teamspace" :: folder :: name :: rest)) = Ok (base ++ path rest)).
    { assert (Fo : name_ok folder) by (destruct F as [<-|[<-|[]]]; apply const_ok; reflexivity).
      unfold resolve_connection. rewrite split_dir; [|apply const_ok; reflexivity|exact Fo|exact H]. cbn [nth].
      rewrite (find_one (fun c0 => same_str (d_name c0) name) _ _ c (fun y => same_iff (d_name y) name) C). cbn [skipn]. f_equal.
      destruct B3 as [->|(-> & R)]; [apply join_all_path; [exact B1|exact B2|exact (Forall_inv_tail H)]|].
      destruct rest as [|r rest]; [contradiction|]. apply join_all_slash. exact (Forall_inv_tail H). }
    unfold Platform_Model.resolve, folder_of. rewrite G.
    destruct F as [<-|[<-|[]]]; (rewrite split_dir; [|apply const_ok; reflexivity|apply const_ok; reflexivity|exact H]);
      cbn [length Nat.ltb Nat.leb]; reflexivity.
  Qed.

  Lemma resolve_in_datasets rest s k : rest <> [] -> Forall name_ok rest ->
    the_one (fun s => s_id s = this_studio) studios s -> the_one (fun k => k_id k = s_cluster s) clusters k ->
    resolve (path (codes "teamspace" :: codes "datasets" :: rest)) =
    Ok (Some (codes "s3://" ++ k_bucket k ++ codes "/projects/" ++ project ++ codes "/datasets" ++ path rest)).
  Proof.
    intros R H S K.
    assert (G : resolve_datasets studios clusters project this_studio (path (codes "teamspace" :: codes "datasets" :: rest)) =
                Ok (codes "s3://" ++ k_bucket k ++ codes "/projects/" ++ project ++ codes "/datasets" ++ path rest)).
    { unfold resolve_datasets. rewrite (find_one (fun s0 => same_str (s_id s0) this_studio) _ _ s (fun y => same_iff (s_id y) this_studio) S).
      rewrite (bucket_one _ k K). cbn [bind]. rewrite split_dir; [|apply const_ok; reflexivity|apply const_ok; reflexivity|exact H]. cbn [skipn].
      f_equal. destruct rest as [|r rest]; [contradiction|]. change (codes "/datasets/") with (codes "/datasets" ++ [slash]).
      rewrite !app_assoc. rewrite join_all_slash; [reflexivity|exact H]. }
    unfold Platform_Model.resolve, folder_of. rewrite G. rewrite split_dir; [|apply const_ok; reflexivity|apply const_ok; reflexivity|exact H].
    destruct rest as [|r rest]; [contradiction|]. cbn [length Nat.ltb Nat.leb]. reflexivity.
  Qed.

  Lemma find_no {A} (f : A -> bool) (P : A -> Prop) l : (forall y, f y = true <-> P y) -> (forall y, In y l -> ~ P y) -> find f l = None.
  Proof.
    intros E N. destruct (find f l) as [y|] eqn:F; [|reflexivity]. apply find_some in F. destruct F as (F1 & F2). destruct (N y F1). apply E. exact F2.
  Qed.
  Lemma unknown_studio name rest : Forall name_ok (name :: rest) -> ~ like_this_studio name ->
    (forall s, In s studios -> ~ goes_by lower s name) \/
    (exists s, the_one (fun s => goes_by lower s name) studios s /\ forall k, In k clusters -> k_id k <> s_cluster s) ->
    resolve (path (codes "teamspace" :: codes "studios" :: name :: rest)) = Err ValueError.
  Proof.
    intros H N S. unfold Platform_Model.resolve. rewrite starts_path_studios.
    destruct (starts (codes "this_studio") (name ++ path rest)) eqn:E.
    { exfalso. apply N. destruct (starts_folder (codes "this_studio") name (path rest)) as (q & ->); [apply plain_codes; reflexivity|apply path_nil_or|exact E|].
      exists q. reflexivity. }
    unfold folder_of. rewrite split_dir; [|apply const_ok; reflexivity|apply const_ok; reflexivity|exact H].
    replace (starts (codes "/teamspace/studios") (path (codes "teamspace" :: codes "studios" :: name :: rest))) with true by reflexivity.
    cbn [length Nat.ltb Nat.leb andb nth]. unfold resolve_studio. destruct S as [S|(s & S & K)].
    - rewrite (find_no (match_studio lower name) _ _ (match_iff name) S). reflexivity.
    - rewrite (find_one (match_studio lower name) _ _ s (match_iff name) S). unfold bucket_of.
      rewrite (find_no (fun k => same_str (k_id k) (s_cluster s)) _ _ (fun y => same_iff (k_id y) (s_cluster s)) K). reflexivity.
  Qed.
  Lemma unknown_connection folder name rest : In folder [codes "s3_connections"; codes "s3_folders"] ->
    Forall name_ok (name :: rest) -> (forall c, In c connections -> d_name c <> name) ->
    resolve (path (codes "teamspace" :: folder :: name :: rest)) = Err ValueError.
  Proof.
    intros F H C.
    assert (G : resolve_connection connections (path (codes "teamspace" :: folder :: name :: rest)) = Err ValueError).
    { assert (Fo : name_ok folder) by (destruct F as [<-|[<-|[]]]; apply const_ok; reflexivity).
      unfold resolve_connection. rewrite split_dir; [|apply const_ok; reflexivity|exact Fo|exact H]. cbn [nth].
      rewrite (find_no (fun c0 => same_str (d_name c0) name) _ _ (fun y => same_iff (d_name y) name) C). reflexivity. }
    unfold Platform_Model.resolve, folder_of. rewrite G.
    destruct F as [<-|[<-|[]]]; (rewrite split_dir; [|apply const_ok; reflexivity|apply const_ok; reflexivity|exact H]);
      cbn [length Nat.ltb Nat.leb]; reflexivity.
  Qed.
  Lemma unknown_here rest : rest <> [] -> Forall name_ok rest ->
    (forall s, In s studios -> s_id s <> this_studio) \/
    (exists s, the_one (fun s => s_id s = this_studio) studios s /\ forall k, In k clusters -> k_id k <> s_cluster s) ->
    resolve (path (codes "teamspace" :: codes "datasets" :: rest)) = Err ValueError.
  Proof.
    intros R H S.
    assert (G : resolve_datasets studios clusters project this_studio (path (codes "teamspace" :: codes "datasets" :: rest)) = Err ValueError).
    { unfold resolve_datasets. destruct S as [S|(s & S & K)].
      - rewrite (find_no (fun s0 => same_str (s_id s0) this_studio) _ _ (fun y => same_iff (s_id y) this_studio) S). reflexivity.
      - rewrite (find_one (fun s0 => same_str (s_id s0) this_studio) _ _ s (fun y => same_iff (s_id y) this_studio) S). unfold bucket_of.
        rewrite (find_no (fun k => same_str (k_id k) (s_cluster s)) _ _ (fun y => same_iff (k_id y) (s_cluster s)) K). reflexivity. }
    unfold Platform_Model.resolve, folder_of. rewrite G. rewrite split_dir; [|apply const_ok; reflexivity|apply const_ok; reflexivity|exact H].
    destruct rest as [|r rest]; [contradiction|]. cbn [length Nat.ltb Nat.leb]. reflexivity.
  Qed.

  Lemma resolve_elsewhere dir : (forall f r, In f ["studios"; "s3_connections"; "s3_folders"; "datasets"]%string -> dir <> codes "/teamspace/" ++ codes f ++ r) ->
    resolve dir = Ok None.
  Proof.
    intros H. assert (S : forall f q, In f ["studios"; "s3_connections"; "s3_folders"; "datasets"]%string -> starts (codes "/teamspace/" ++ codes f ++ q) dir = false).
    { intros f q Hf. destruct (starts (codes "/teamspace/" ++ codes f ++ q) dir) eqn:E; [|reflexivity]. apply starts_iff in E. destruct E as (r & E).
      exfalso. apply (H f (q ++ r) Hf). rewrite E, <- !app_assoc. reflexivity. }
    unfold Platform_Model.resolve, folder_of.
    replace (starts (codes "/teamspace/studios/this_studio") dir) with false by (symmetry; apply (S "studios"%string (codes "/this_studio")); cbn; tauto).
    replace (starts (codes "/teamspace/studios") dir) with false by (symmetry; apply (S "studios"%string []); cbn; tauto).
    replace (starts (codes "/teamspace/s3_connections") dir) with false by (symmetry; apply (S "s3_connections"%string []); cbn; tauto).
    replace (starts (codes "/teamspace/s3_folders") dir) with false by (symmetry; apply (S "s3_folders"%string []); cbn; tauto).
    replace (starts (codes "/teamspace/datasets") dir) with false by (symmetry; apply (S "datasets"%string []); cbn; tauto).
    reflexivity.
  Qed.
End Resolve.

(** ** Name servers *)
Lemma set_id (enable : bool) ls : Forall (fun l => local_server l = true -> l = (if enable then codes "nameserver 127.0.0.1" else codes "nameserver 127.0.0.53") ++ [10%N]) ls ->
  set_servers enable ls = ls.
Proof.
  intros H. unfold set_servers. induction ls as [|l ls IH]; [reflexivity|]. cbn [map]. rewrite (IH (Forall_inv_tail H)). f_equal.
  pose proof (Forall_inv H) as E. unfold local_server in E. destruct (contains (codes "nameserver 127") l); [symmetry; apply E; reflexivity|reflexivity].
Qed.
Lemma set_back ls : Forall (fun l => local_server l = true -> l = systemd_line) ls -> set_servers false (set_servers true ls) = ls.
Proof.
  intros H. unfold set_servers. rewrite map_map. induction ls as [|l ls IH]; [reflexivity|]. cbn [map]. rewrite (IH (Forall_inv_tail H)). f_equal.
  pose proof (Forall_inv H) as E. unfold local_server in E. destruct (contains (codes "nameserver 127") l) eqn:C.
  - change (contains (codes "nameserver 127") (codes "nameserver 127.0.0.1" ++ [10%N])) with true. cbv iota. symmetry. apply E. reflexivity.
  - rewrite C. reflexivity.
Qed.
Lemma set_had ls : Forall (fun l => local_server l = true -> l = systemd_line) ls -> existsb (contains (codes "127.0.0.1")) (set_servers true ls) = false ->
  set_servers true ls = ls.
Proof.
  intros H E. unfold set_servers in *. induction ls as [|l ls IH]; [reflexivity|]. cbn [map existsb] in *. apply orb_false_iff in E. destruct E as (E1 & E2).
  rewrite (IH (Forall_inv_tail H) E2). f_equal. destruct (contains (codes "nameserver 127") l); [|reflexivity]. vm_compute in E1. discriminate E1.
Qed.
Lemma restored in_studio enable o ls : Forall (fun l => local_server l = true -> l = systemd_line) ls -> o <> Interrupted ->
  around_job in_studio enable o ls = ls.
Proof.
  intros H Ho. assert (H' : Forall (fun l => local_server l = true -> l = codes "nameserver 127.0.0.53" ++ [10%N]) ls) by exact H.
  unfold around_job.
  assert (G : optimize_dns in_studio false (optimize_dns in_studio enable ls) = ls).
  { unfold optimize_dns. destruct in_studio; cbn [negb]; [|reflexivity]. destruct enable; cbn [negb andb orb].
    - rewrite orb_false_r. destruct (existsb (contains (codes "127.0.0.53")) ls).
      + destruct (existsb (contains (codes "127.0.0.1")) (set_servers true ls)) eqn:E; [apply set_back; exact H|apply set_had; assumption].
      + destruct (existsb (contains (codes "127.0.0.1")) ls); [apply set_id; exact H'|reflexivity].
    - destruct (existsb (contains (codes "127.0.0.1")) ls) eqn:E.
      + rewrite (set_id false ls H'). rewrite E. apply (set_id false ls H').
      + rewrite E. reflexivity. }
  destruct o; [exact G|exact G|contradiction].
Qed.
Lemma dns_other in_studio enable ls i l : nth_error ls i = Some l -> local_server l = false -> nth_error (optimize_dns in_studio enable ls) i = Some l.
Proof.
  intros H E. unfold optimize_dns. destruct (negb in_studio); [exact H|].
  match goal with |- context [if ?b then _ else _] => destruct b end; [|exact H].
  unfold set_servers. rewrite nth_error_map, H. cbn [option_map]. unfold local_server in E. rewrite E. reflexivity.
Qed.
Lemma dns_length in_studio enable ls : length (optimize_dns in_studio enable ls) = length ls.
Proof.
  unfold optimize_dns. destruct (negb in_studio); [reflexivity|]. match goal with |- context [if ?b then _ else _] => destruct b end; [|reflexivity].
  unfold set_servers. apply map_length.
Qed.
Lemma around_other in_studio enable o ls : length (around_job in_studio enable o ls) = length ls /\
  forall i l, nth_error ls i = Some l -> local_server l = false -> nth_error (around_job in_studio enable o ls) i = Some l.
Proof.
  unfold around_job. split.
  - destruct o; rewrite ?dns_length; reflexivity.
  - intros i l H E. destruct o; repeat apply dns_other; assumption.
Qed.
