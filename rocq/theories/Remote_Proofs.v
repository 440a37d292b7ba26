(** Proofs about files in buckets. *)
From Coq Require Import String NArith Lia.
From Verif Require Import Base Names_Model Names_Spec Names_Proofs Size_Model Paths_Model Paths_Proofs Output_Model Output_Proofs
  Remote_Model Remote_Spec.
From Verif Require Config_Model.
Local Open Scope list_scope.
Local Open Scope nat_scope.
Local Ltac Zify.zify_post_hook ::= idtac.

Lemma eqb_iff a b : str_eqb a b = true <-> a = b.
Proof. unfold str_eqb. destruct (list_eq_dec N.eq_dec a b); split; congruence. Qed.
Lemma eqb_same a : str_eqb a a = true.
Proof. apply eqb_iff. reflexivity. Qed.
Lemma eqb_false a b : str_eqb a b = false <-> a <> b.
Proof. rewrite <- eqb_iff. destruct (str_eqb a b); split; congruence. Qed.

Lemma span_stop keep a c r : (forall x, In x a -> keep x = true) -> keep c = false -> span keep (a ++ c :: r) = (a, c :: r).
Proof.
  intros H Hc. induction a as [|x a IH]; cbn [app span].
  - rewrite Hc. reflexivity.
  - rewrite (H x (or_introl eq_refl)), IH; [reflexivity|]. intros y Hy. apply H. right. exact Hy.
Qed.
Lemma span_all keep a : (forall x, In x a -> keep x = true) -> span keep a = (a, []).
Proof.
  intros H. induction a as [|x a IH]; [reflexivity|]. cbn [span]. rewrite (H x (or_introl eq_refl)), IH; [reflexivity|].
  intros y Hy. apply H. right. exact Hy.
Qed.
Lemma filter_all {A} (f : A -> bool) l : (forall x, In x l -> f x = true) -> filter f l = l.
Proof.
  intros H. induction l as [|x l IH]; [reflexivity|]. cbn [filter]. rewrite (H x (or_introl eq_refl)), IH; [reflexivity|].
  intros y Hy. apply H. right. exact Hy.
Qed.

Lemma not_reserved c : ~ In c reserved ->
  (c =? question)%N = false /\ (c =? hash)%N = false /\ unsafe c = false.
Proof.
  intros H. unfold unsafe. rewrite !orb_false_iff, !N.eqb_neq. unfold reserved, question, hash in *. cbn [In] in H.
  repeat split; intros ->; apply H; auto 6.
Qed.

Lemma parse_plain p b k : bucket_ok b -> (forall c, In c k -> ~ In c reserved) ->
  urlparse (object_url p b k) = (scheme_of p, b, slash :: k).
Proof.
  intros Hb Hk. unfold urlparse.
  assert (F : filter (fun c => negb (unsafe c)) (object_url p b k) = object_url p b k).
  { apply filter_all. unfold object_url. intros c Hc. apply negb_true_iff. rewrite !in_app_iff in Hc. cbn [In] in Hc.
    destruct Hc as [Hc|[Hc|[Hc|[Hc|Hc]]]].
    - destruct p; cbn in Hc; repeat destruct Hc as [<-|Hc]; try reflexivity; destruct Hc.
    - cbn in Hc; repeat destruct Hc as [<-|Hc]; try reflexivity; destruct Hc.
    - apply not_reserved. apply (Hb c Hc).
    - subst c. reflexivity.
    - apply not_reserved. exact (Hk c Hc). }
  rewrite F. unfold object_url.
  assert (E : split_scheme (scheme_name p ++ codes "://" ++ b ++ slash :: k) = (scheme_of p, slash :: slash :: b ++ slash :: k)).
  { destruct p; reflexivity. }
  rewrite E. cbn [starts skipn andb]. change ((slash =? slash)%N && ((slash =? slash)%N && true)) with true. cbv iota.
  rewrite (span_stop _ b slash k).
  - rewrite (span_all (fun c => negb (c =? hash)%N) (slash :: k)).
    + rewrite (span_all (fun c => negb (c =? question)%N) (slash :: k)); [reflexivity|].
      intros c [<-|Hc]; [reflexivity|]. destruct (not_reserved c (Hk c Hc)) as (-> & _). reflexivity.
    + intros c [<-|Hc]; [reflexivity|]. destruct (not_reserved c (Hk c Hc)) as (_ & -> & _). reflexivity.
  - intros c Hc. destruct (Hb c Hc) as (Hs & Hr). destruct (not_reserved c Hr) as (-> & -> & _).
    apply N.eqb_neq in Hs. rewrite Hs. reflexivity.
  - reflexivity.
Qed.

Lemma bucket_plain p b k : bucket_ok b -> (forall c, In c k -> ~ In c reserved) ->
  bucket_and_path p (object_url p b k) = Ok (b, k).
Proof. intros Hb Hk. unfold bucket_and_path. rewrite (parse_plain p b k Hb Hk), eqb_same. reflexivity. Qed.

Lemma fetch_plain p st b k : bucket_ok b -> key_ok k ->
  fetch p st (object_url p b k) = match get st b k with Some d => Ok d | None => Err GenericException end.
Proof.
  intros Hb (_ & Hs & Hk). unfold fetch. rewrite (parse_plain p b k Hb Hk), eqb_same. cbn [negb]. cbv iota.
  destruct p; cbn [bind lstrip_slash]; change (slash =? slash)%N with true; cbv iota; [rewrite (lstrip_id k Hs)|]; reflexivity.
Qed.
Lemma download_plain p st b k : bucket_ok b -> key_ok k ->
  download p st (object_url p b k) = match get st b k with Some d => Ok d | None => Err GenericException end.
Proof. intros Hb (_ & _ & Hk). unfold download. rewrite (bucket_plain p b k Hb Hk). reflexivity. Qed.
Lemma upload_plain p st b k d : bucket_ok b -> key_ok k -> upload p st (object_url p b k) d = Ok (put st b k d).
Proof. intros Hb (_ & _ & Hk). unfold upload. rewrite (bucket_plain p b k Hb Hk). reflexivity. Qed.

(** Urls tell objects apart. *)
Lemma first_slash b k b' k' : ~ In slash b -> ~ In slash b' -> b ++ slash :: k = b' ++ slash :: k' -> b = b' /\ k = k'.
Proof.
  revert b'. induction b as [|x b IH]; intros [|y b'] H H' E; cbn [app] in E.
  - injection E as <-. auto.
  - injection E as <- _. exfalso. apply H'. left. reflexivity.
  - injection E as -> _. exfalso. apply H. left. reflexivity.
  - injection E as <- E. destruct (IH b') as (<- & <-); try (intros G; first [apply H; right; exact G|apply H'; right; exact G]); auto.
Qed.
Lemma url_inj p b k b' k' : ~ In slash b -> ~ In slash b' -> object_url p b k = object_url p b' k' -> b = b' /\ k = k'.
Proof.
  intros H H' E. unfold object_url in E. apply app_inv_head, app_inv_head in E. apply (first_slash b k b' k' H H' E).
Qed.
Lemma bucket_slash b : bucket_ok b -> ~ In slash b.
Proof. intros H G. destruct (H slash G) as (E & _). contradiction. Qed.

Lemma is_object_iff b k o : is_object b k o = true <-> fst o = (b, k).
Proof.
  unfold is_object. destruct o as ((b', k') & d). cbn [fst snd]. rewrite andb_true_iff, !eqb_iff. split; [intros (-> & ->)|intros [= -> ->]]; auto.
Qed.
Lemma file_get p st b k : buckets_ok st -> bucket_ok b -> file_at p st (object_url p b k) = get st b k.
Proof.
  intros Hs Hb. unfold file_at, get. induction st as [|o st IH]; [reflexivity|]. cbn [find].
  assert (E : str_eqb (object_url p (fst (fst o)) (snd (fst o))) (object_url p b k) = is_object b k o).
  { destruct (is_object b k o) eqn:E.
    - apply is_object_iff in E. rewrite E. apply eqb_same.
    - apply eqb_false. intros G. apply url_inj in G; [|apply Hs; left; reflexivity|apply bucket_slash; exact Hb].
      destruct G as (G1 & G2). assert (is_object b k o = true); [|congruence]. apply is_object_iff. rewrite <- G1, <- G2.
      destruct (fst o); reflexivity. }
  rewrite E. destruct (is_object b k o); [reflexivity|]. apply IH. intros x Hx. apply Hs. right. exact Hx.
Qed.

Lemma find_app {A} (f : A -> bool) l l' : find f (l ++ l') = match find f l with Some x => Some x | None => find f l' end.
Proof. induction l as [|x l IH]; [reflexivity|]. cbn [app find]. destruct (f x); [reflexivity|exact IH]. Qed.
Lemma get_put st b k d b' k' : get (put st b k d) b' k' = if str_eqb b' b && str_eqb k' k then Some d else get st b' k'.
Proof.
  unfold get, put. rewrite find_app. destruct (str_eqb b' b && str_eqb k' k) eqn:E.
  - apply andb_true_iff in E. rewrite !eqb_iff in E. destruct E as (-> & ->).
    assert (G : find (is_object b k) (filter (fun o => negb (is_object b k o)) st) = None).
    { induction st as [|o st IH]; [reflexivity|]. cbn [filter]. destruct (is_object b k o) eqn:E; cbn [negb]; [exact IH|].
      cbn [find]. rewrite E. exact IH. }
    rewrite G. cbn [find]. unfold is_object at 1. cbn [fst snd]. rewrite !eqb_same. reflexivity.
  - assert (G : find (is_object b' k') (filter (fun o => negb (is_object b k o)) st) = find (is_object b' k') st).
    { induction st as [|o st IH]; [reflexivity|]. cbn [filter find]. destruct (is_object b k o) eqn:E1; cbn [negb].
      - destruct (is_object b' k' o) eqn:E2; [|exact IH]. exfalso. apply is_object_iff in E1, E2. rewrite E1 in E2.
        injection E2 as <- <-. rewrite !eqb_same in E. discriminate E.
      - cbn [find]. destruct (is_object b' k' o); [reflexivity|exact IH]. }
    rewrite G. destruct (find (is_object b' k') st); [reflexivity|]. cbn [find]. unfold is_object. cbn [fst snd].
    destruct (str_eqb b b') eqn:E1; [|reflexivity]. apply eqb_iff in E1. subst b'. rewrite eqb_same in E. cbn [andb] in *.
    destruct (str_eqb k k') eqn:E2; [|reflexivity]. apply eqb_iff in E2. subst k'. rewrite eqb_same in E. discriminate E.
Qed.
Lemma put_buckets st b k d : buckets_ok st -> ~ In slash b -> buckets_ok (put st b k d).
Proof.
  intros H Hb o Ho. unfold put in Ho. apply in_app_iff in Ho. destruct Ho as [Ho|[<-|[]]]; [|exact Hb].
  apply filter_In in Ho. apply H. apply Ho.
Qed.

(** The store [st] holds the files [f]. *)
Definition holds (p : provider) (st : objects) (f : files) : Prop :=
  buckets_ok st /\ forall b k, bucket_ok b -> key_ok k -> get st b k = f (object_url p b k).

Lemma holds_start p st : buckets_ok st -> holds p st (file_at p st).
Proof. intros H. split; [exact H|]. intros b k Hb Hk. symmetry. apply file_get; assumption. Qed.

Lemma holds_put p st f b k d : holds p st f -> bucket_ok b -> key_ok k -> holds p (put st b k d) (set_file f (object_url p b k) d).
Proof.
  intros (H1 & H2) Hb Hk. split; [apply put_buckets; [exact H1|apply bucket_slash; exact Hb]|]. intros b' k' Hb' Hk'.
  rewrite get_put. unfold set_file. destruct (str_eqb b' b && str_eqb k' k) eqn:E.
  - apply andb_true_iff in E. rewrite !eqb_iff in E. destruct E as (-> & ->). rewrite eqb_same. reflexivity.
  - replace (str_eqb (object_url p b' k') (object_url p b k)) with false; [apply H2; assumption|]. symmetry. apply eqb_false.
    intros G. apply url_inj in G; [|apply bucket_slash; assumption..]. destruct G as (-> & ->). rewrite !eqb_same in E. discriminate E.
Qed.

Lemma act_plain p st f a : holds p st f -> Forall (plain_url p) (urls a) ->
  match should f a with
  | Some f' => exists st', act p st a = Ok st' /\ holds p st' f'
  | None => exists e, act p st a = Err e
  end.
Proof.
  intros H U. destruct a as [u d|src dst]; cbn [urls] in U; cbn [act should].
  - apply Forall_inv in U. destruct U as (b & k & Hb & Hk & ->). rewrite (upload_plain p st b k d Hb Hk).
    eexists. split; [reflexivity|]. apply holds_put; assumption.
  - pose proof (Forall_inv U) as (b & k & Hb & Hk & ->). pose proof (Forall_inv (Forall_inv_tail U)) as (b' & k' & Hb' & Hk' & ->).
    destruct H as (H1 & H2). rewrite <- (H2 b k Hb Hk).
    assert (E : copy p st (object_url p b k) (object_url p b' k') =
                match get st b k with Some d => Ok (put st b' k' d) | None => Err (match p with S3 => GenericException | GCP => FileNotFoundError end) end).
    { unfold copy. destruct Hk as (K1 & K2 & K3), Hk' as (K1' & K2' & K3'). destruct p.
      - rewrite (parse_plain S3 b k Hb K3), (parse_plain S3 b' k' Hb' K3'). cbn [lstrip_slash]. change (slash =? slash)%N with true.
        cbv iota. rewrite (lstrip_id k K2), (lstrip_id k' K2'). reflexivity.
      - rewrite (bucket_plain GCP b k Hb K3), (bucket_plain GCP b' k' Hb' K3'). reflexivity. }
    rewrite E. destruct (get st b k) as [d|]; [|eexists; reflexivity].
    eexists. split; [reflexivity|]. apply holds_put; [split|..]; assumption.
Qed.

Lemma act_all_plain p l : forall st f, holds p st f -> Forall (fun a => Forall (plain_url p) (urls a)) l ->
  match should_all f l with
  | Some f' => exists st', act_all p st l = Ok st' /\ holds p st' f'
  | None => exists e, act_all p st l = Err e
  end.
Proof.
  induction l as [|a l IH]; intros st f H U; cbn [should_all act_all].
  - exists st. auto.
  - pose proof (act_plain p st f a H (Forall_inv U)) as A. destruct (should f a) as [f'|].
    + destruct A as (st' & -> & H'). cbn [bind]. apply IH; [exact H'|]. exact (Forall_inv_tail U).
    + destruct A as (e & ->). exists e. reflexivity.
Qed.

Lemma stored_under_url p st l : buckets_ok st -> Forall (fun a => Forall (plain_url p) (urls a)) l ->
  match should_all (file_at p st) l with
  | Some f => exists st', act_all p st l = Ok st' /\
      forall u, plain_url p u ->
        fetch p st' u = (match f u with Some d => Ok d | None => Err GenericException end) /\
        download p st' u = (match f u with Some d => Ok d | None => Err GenericException end) /\ file_at p st' u = f u
  | None => exists e, act_all p st l = Err e
  end.
Proof.
  intros H U. pose proof (act_all_plain p l st (file_at p st) (holds_start p st H) U) as A.
  destruct (should_all (file_at p st) l) as [f|]; [|exact A]. destruct A as (st' & E & H1 & H2). exists st'. split; [exact E|].
  intros u (b & k & Hb & Hk & ->). rewrite <- (H2 b k Hb Hk), (fetch_plain p st' b k Hb Hk), (download_plain p st' b k Hb Hk).
  repeat split. apply file_get; assumption.
Qed.

(** ** Directories *)
Lemma ends_app c a b : b <> [] -> ends [c] (a ++ b) = ends [c] b.
Proof.
  intros H. unfold ends. rewrite rev_app_distr. destruct (rev b) as [|x r] eqn:E; [|reflexivity].
  exfalso. apply H. apply (f_equal (@rev N)) in E. rewrite rev_involutive in E. exact E.
Qed.
Lemma ends_slash s : ends [slash] s = true <-> exists t, s = t ++ [slash].
Proof.
  unfold ends. cbn [rev app]. rewrite starts_slash. split; intros (r & E).
  - exists (rev r). apply (f_equal (@rev N)) in E. rewrite rev_involutive in E. exact E.
  - exists (rev r). subst s. rewrite rev_app_distr. reflexivity.
Qed.
Lemma dir_key p b k : key_ok k -> ends [slash] (object_url p b k) = ends [slash] k.
Proof.
  intros (K & _). unfold object_url. change (slash :: k) with ([slash] ++ k). rewrite !app_assoc. apply ends_app. exact K.
Qed.
Lemma join_dir dir u name : ends [slash] dir = false -> dir <> [] -> written_as dir u -> starts [slash] name = false ->
  join u name = below dir name.
Proof.
  intros He Hd [->| ->] Hn; unfold below.
  - apply join_plain; assumption.
  - unfold join. rewrite Hn. replace (ends [slash] (dir ++ [slash])) with true by (symmetry; apply ends_slash; eauto).
    destruct (dir ++ [slash]) eqn:E; [destruct dir; discriminate E|]. rewrite <- E, <- app_assoc. reflexivity.
Qed.
Lemma strip_dir dir u : ends [slash] dir = false -> written_as dir u -> rstrip_slash u = dir.
Proof. intros He [->| ->]; [|rewrite rstrip_app]; apply rstrip_id; exact He. Qed.
Lemma url_nonempty p b k : object_url p b k <> [].
Proof. unfold object_url. destruct p; discriminate. Qed.

Lemma below_url p b k name : below (object_url p b k) name = object_url p b (k ++ slash :: name).
Proof. unfold below, object_url. rewrite <- !app_assoc. reflexivity. Qed.
Lemma key_below k name : key_ok k -> (forall c, In c name -> ~ In c reserved) -> key_ok (k ++ slash :: name).
Proof.
  intros (K1 & K2 & K3) H. split; [destruct k; [contradiction|discriminate]|]. split.
  - destruct k; [contradiction|exact K2].
  - intros c Hc. apply in_app_iff in Hc. destruct Hc as [Hc|[<-|Hc]]; [exact (K3 c Hc)|vm_compute; intuition discriminate|exact (H c Hc)].
Qed.
Lemma plain_below p dir name : plain_url p dir -> (forall c, In c name -> ~ In c reserved) -> plain_url p (below dir name).
Proof.
  intros (b & k & Hb & Hk & ->) H. exists b, (k ++ slash :: name). split; [exact Hb|]. split; [apply key_below; assumption|apply below_url].
Qed.

Lemma starts_url p b k b' k' : ~ In slash b -> ~ In slash b' ->
  starts (object_url p b k) (object_url p b' k') = str_eqb b' b && starts k k'.
Proof.
  intros H H'. destruct (str_eqb b' b && starts k k') eqn:E.
  - apply andb_true_iff in E. rewrite eqb_iff, starts_iff in E. destruct E as (-> & r & ->). apply starts_iff. exists r.
    unfold object_url. rewrite <- !app_assoc. reflexivity.
  - destruct (starts (object_url p b k) (object_url p b' k')) eqn:G; [|reflexivity]. exfalso. apply starts_iff in G.
    destruct G as (r & G). unfold object_url in G. rewrite <- !app_assoc in G. apply app_inv_head, app_inv_head in G.
    cbn [app] in G. apply (first_slash b' k' b (k ++ r) H' H) in G. destruct G as (-> & ->).
    rewrite eqb_same, starts_app in E. discriminate E.
Qed.

Lemma keys_in st b k : In k (keys_of st b) <-> exists d, In ((b, k), d) st.
Proof.
  unfold keys_of. rewrite in_map_iff. split.
  - intros (((b' & k') & d) & E & H). apply filter_In in H. cbn in *. destruct H as (H & G). apply eqb_iff in G. subst. eauto.
  - intros (d & H). exists ((b, k), d). split; [reflexivity|]. apply filter_In. split; [exact H|]. apply eqb_same.
Qed.

Lemma delete_exact p limit st b k st' : bucket_ok b -> (forall c, In c k -> ~ In c reserved) ->
  delete_url p limit st (object_url p b k) = Ok st' ->
  (forall o, In o st -> str_eqb (fst (fst o)) b && starts k (snd (fst o)) = false -> In o st') /\
  (forall o, In o st' -> In o st) /\
  (p = GCP \/ length (filter (starts k) (keys_of st b)) <= limit ->
   forall o, In o st' -> str_eqb (fst (fst o)) b && starts k (snd (fst o)) = false).
Proof.
  intros Hb Hk. unfold delete_url. rewrite (bucket_plain p b k Hb Hk). cbn [bind fst snd]. intros [= <-]. split; [|split].
  - intros o Ho E. apply filter_In. split; [exact Ho|]. apply negb_true_iff. destruct (str_eqb (fst (fst o)) b) eqn:Eb; [|reflexivity].
    cbn [andb] in *. apply mem_false. intros G. apply listed_starts in G. destruct G as (_ & G). congruence.
  - intros o Ho. apply filter_In in Ho. apply Ho.
  - intros Hp o Ho. apply filter_In in Ho. destruct Ho as (Ho & E). apply negb_true_iff in E.
    destruct (str_eqb (fst (fst o)) b) eqn:Eb; [|reflexivity]. cbn [andb] in *. rewrite (listed_all p limit k _ Hp) in E.
    apply mem_false in E. destruct (starts k (snd (fst o))) eqn:Es; [|reflexivity]. exfalso. apply E. apply filter_In. split; [|exact Es].
    apply eqb_iff in Eb. apply keys_in. exists (snd o). rewrite <- Eb. destruct o as ((? & ?) & ?). exact Ho.
Qed.

(** [s] is [s.rstrip("/")] and slashes. *)
Lemma rstrip_split s : exists n, s = rstrip_slash s ++ repeat slash n.
Proof.
  unfold rstrip_slash.
  assert (H : forall t, exists n, t = repeat slash n ++ lstrip_slash t).
  { induction t as [|c t (n & IH)]; [exists 0; reflexivity|]. cbn [lstrip_slash]. destruct (c =? slash)%N eqn:E.
    - apply N.eqb_eq in E. subst c. exists (S n). cbn [repeat app]. rewrite <- IH. reflexivity.
    - exists 0. reflexivity. }
  destruct (H (rev s)) as (n & E). exists n. apply (f_equal (@rev N)) in E. rewrite rev_involutive, rev_app_distr in E.
  rewrite E at 1. f_equal. clear. induction n as [|n IH]; [reflexivity|]. cbn [repeat rev]. rewrite IH. symmetry. apply repeat_cons.
Qed.
Lemma strip_starts s x : ends [slash] s = true -> starts s x = true -> starts (rstrip_slash s ++ [slash]) x = true.
Proof.
  intros He Hs. destruct (rstrip_split s) as (n & E). destruct n as [|n].
  - rewrite app_nil_r in E. assert (N : ends [slash] (rstrip_slash s) = false).
    { unfold rstrip_slash, ends. rewrite rev_involutive. cbn [rev app]. clear. induction (rev s) as [|c t IH]; [reflexivity|].
      cbn [lstrip_slash]. destruct (c =? slash)%N eqn:E; [exact IH|]. cbn [starts]. rewrite N.eqb_sym, E. reflexivity. }
    rewrite <- E in N. congruence.
  - apply starts_iff in Hs. destruct Hs as (r & ->). apply starts_iff. exists (repeat slash n ++ r). rewrite E at 1. cbn [repeat].
    rewrite <- !app_assoc. reflexivity.
Qed.

Lemma empty_exact p st b k e : bucket_ok b -> key_ok k -> ends [slash] k = true ->
  is_empty_url p st (object_url p b k) = Ok e -> e = true -> forall o, In o st -> str_eqb (fst (fst o)) b && starts k (snd (fst o)) = false.
Proof.
  intros Hb Hk He. unfold is_empty_url. destruct Hk as (K1 & K2 & K3).
  intros E -> o Ho. destruct (str_eqb (fst (fst o)) b) eqn:Eb; [|reflexivity]. cbn [andb]. destruct (starts k (snd (fst o))) eqn:Es; [|reflexivity].
  exfalso. apply eqb_iff in Eb.
  assert (I : In (snd (fst o)) (keys_of st b)).
  { apply keys_in. exists (snd o). rewrite <- Eb. destruct o as ((? & ?) & ?). exact Ho. }
  destruct p.
  - rewrite (parse_plain S3 b k Hb K3) in E. cbn [lstrip_slash] in E. change (slash =? slash)%N with true in E. cbv iota in E.
    rewrite (lstrip_id k K2) in E. injection E as E. apply negb_true_iff in E.
    assert (G : existsb (starts (rstrip_slash k ++ [slash])) (keys_of st b) = true); [|congruence].
    apply existsb_exists. exists (snd (fst o)). split; [exact I|]. apply strip_starts; assumption.
  - rewrite (bucket_plain GCP b k Hb K3) in E. cbn [bind fst snd] in E. injection E as E. apply negb_true_iff in E.
    assert (G : existsb (starts k) (keys_of st b) = true); [|congruence]. apply existsb_exists. eauto.
Qed.

Lemma overwrite_url p limit md ck broken u st st' :
  plain_url p u -> ends [slash] u = true -> buckets_ok st -> prepare_url p limit md ck broken u st = Ok st' ->
  (forall o, In o st -> starts u (object_url p (fst (fst o)) (snd (fst o))) = false -> In o st') /\
  (forall o, In o st' -> In o st) /\
  (md = Overwrite ->
   (p = GCP \/ length (filter (fun o => starts u (object_url p (fst (fst o)) (snd (fst o)))) st) <= limit) ->
   forall o, In o st' -> starts u (object_url p (fst (fst o)) (snd (fst o))) = false).
Proof.
  intros (b & k & Hb & Hk & ->) He Hst H. rewrite (dir_key p b k Hk) in He.
  assert (Bb := bucket_slash b Hb). unfold prepare_url in H. destruct Hk as (K1 & K2 & K3).
  assert (Same : st' = st -> md <> Overwrite ->
    (forall o, In o st -> starts (object_url p b k) (object_url p (fst (fst o)) (snd (fst o))) = false -> In o st') /\
    (forall o, In o st' -> In o st) /\
    (md = Overwrite -> (p = GCP \/ length (filter (fun o => starts (object_url p b k) (object_url p (fst (fst o)) (snd (fst o)))) st) <= limit) ->
     forall o, In o st' -> starts (object_url p b k) (object_url p (fst (fst o)) (snd (fst o))) = false)).
  { intros -> N. split; [auto|]. split; [auto|]. intros; contradiction. }
  assert (Gone : delete_url p limit st (object_url p b k) = Ok st' ->
    (forall o, In o st -> starts (object_url p b k) (object_url p (fst (fst o)) (snd (fst o))) = false -> In o st') /\
    (forall o, In o st' -> In o st) /\
    (md = Overwrite -> (p = GCP \/ length (filter (fun o => starts (object_url p b k) (object_url p (fst (fst o)) (snd (fst o)))) st) <= limit) ->
     forall o, In o st' -> starts (object_url p b k) (object_url p (fst (fst o)) (snd (fst o))) = false)).
  { intros D. destruct (delete_exact p limit st b k st' Hb K3 D) as (D1 & D2 & D3). split; [|split; [exact D2|]].
    - intros o Ho S. apply D1; [exact Ho|]. rewrite starts_url in S; [exact S|exact Bb|apply Hst; exact Ho].
    - intros _ L o Ho. rewrite starts_url; [|exact Bb|apply Hst, D2; exact Ho]. apply D3; [|exact Ho].
      destruct L as [L|L]; [left; exact L|right]. etransitivity; [|exact L]. clear - Bb Hst. unfold keys_of.
      induction st as [|o st IH]; [reflexivity|]. cbn [filter map length].
      assert (Hst' : buckets_ok st) by (intros x Hx; apply Hst; right; exact Hx). specialize (IH Hst').
      rewrite starts_url; [|exact Bb|apply Hst; left; reflexivity].
      destruct (str_eqb (fst (fst o)) b); cbn [map filter andb]; [|exact IH].
      destruct (starts k (snd (fst o))); cbn [length]; lia. }
  destruct md; [|apply Same; [congruence|discriminate]|].
  - destruct (is_empty_url p st (object_url p b k)) as [e|] eqn:Ee; cbn [bind] in H; [|discriminate H].
    destruct e; [apply Same; [congruence|discriminate]|].
    match type of H with context [if ?x then Err RuntimeError else _] => destruct x end; [discriminate H|].
    destruct ck; [apply Same; [congruence|discriminate]|apply Gone; exact H].
  - destruct (is_empty_url p st (object_url p b k)) as [e|] eqn:Ee; cbn [bind] in H; [|discriminate H].
    destruct e; [|apply Gone; exact H]. injection H as <-. split; [auto|]. split; [auto|]. intros _ _ o Ho.
    rewrite starts_url; [|exact Bb|apply Hst; exact Ho].
    exact (empty_exact p st b k true Hb (conj K1 (conj K2 K3)) He Ee eq_refl o Ho).
Qed.

Lemma name_index c : In c index_name -> ~ In c reserved.
Proof.
  vm_compute. intros H G. repeat destruct H as [<-|H]; try destruct H; repeat destruct G as [G|G]; try discriminate G; exact G.
Qed.

Lemma refused_url p limit ck dir u st d :
  directory p dir -> written_as dir u -> buckets_ok st -> file_at p st (below dir index_name) = Some d ->
  prepare_url p limit NoMode ck false u st = Err RuntimeError.
Proof.
  intros ((b & k & Hb & Hk & ->) & He) Hu Hst Hf. assert (He' := He). rewrite (dir_key p b k Hk) in He'.
  rewrite below_url in Hf. rewrite (file_get p st b _ Hst Hb) in Hf.
  assert (I : In (k ++ slash :: index_name) (keys_of st b)).
  { unfold get in Hf. destruct (find (is_object b (k ++ slash :: index_name)) st) as [o|] eqn:F; [|discriminate Hf].
    apply find_some in F. destruct F as (F1 & F2). apply is_object_iff in F2. apply keys_in. exists (snd o). rewrite <- F2.
    destruct o; exact F1. }
  unfold prepare_url.
  assert (E : is_empty_url p st u = Ok false).
  { assert (U : exists k', u = object_url p b k' /\ key_ok k' /\ rstrip_slash k' = k /\ starts k' (k ++ slash :: index_name) = true).
    { destruct Hu as [->| ->].
      - exists k. split; [reflexivity|]. split; [exact Hk|]. split; [apply rstrip_id; exact He'|apply starts_app].
      - exists (k ++ [slash]). split; [unfold object_url; rewrite <- !app_assoc; reflexivity|].
        split; [exact (key_below k [] Hk (fun c H => match H with end))|].
        split; [rewrite rstrip_app; apply rstrip_id; exact He'|]. apply starts_iff. exists index_name. rewrite <- app_assoc. reflexivity. }
    destruct U as (k' & -> & (K1 & K2 & K3) & R & S). unfold is_empty_url. destruct p.
    - rewrite (parse_plain S3 b k' Hb K3). cbn [lstrip_slash]. change (slash =? slash)%N with true. cbv iota.
      rewrite (lstrip_id k' K2), R. f_equal. apply negb_false_iff. apply existsb_exists. eexists. split; [exact I|].
      apply starts_iff. exists index_name. rewrite <- app_assoc. reflexivity.
    - rewrite (bucket_plain GCP b k' Hb K3). cbn [bind fst snd]. f_equal. apply negb_false_iff. apply existsb_exists. eauto. }
  rewrite E. cbn [bind]. rewrite (strip_dir _ u He Hu).
  replace (join (object_url p b k ++ [slash]) index_name) with (below (object_url p b k) index_name).
  - rewrite below_url, (bucket_plain p b _ Hb); [reflexivity|]. apply (key_below k index_name Hk name_index).
  - symmetry. apply join_dir; [exact He|apply url_nonempty|right; reflexivity|reflexivity].
Qed.

(** ** s5cmd *)
Lemma plain_not_space c : shell_plain c = true -> c <> space.
Proof. intros H ->. vm_compute in H. discriminate H. Qed.
Lemma word_fix (w : str) r : w <> [] -> filter (fun w => negb (str_eqb w [])) (w :: r) = w :: filter (fun w => negb (str_eqb w [])) r.
Proof. intros H. cbn [filter]. apply eqb_false in H. rewrite H. reflexivity. Qed.
Lemma s5cmd_plain other no_sign remote local : path_ok remote -> path_ok local -> s5cmd other no_sign remote local = Ok (remote, local).
Proof.
  intros (R1 & R2) (L1 & L2). unfold s5cmd.
  assert (W : words (remote ++ [space] ++ local) = [remote; local]).
  { unfold words. change ([space] ++ local) with (space :: local). rewrite split_at, split_none, !word_fix; auto.
    - intros H. rewrite Forall_forall in L2. apply (plain_not_space space); [apply L2; exact H|reflexivity].
    - intros H. rewrite Forall_forall in R2. apply (plain_not_space space); [apply R2; exact H|reflexivity]. }
  assert (C : forall pre, words (pre ++ space :: remote ++ [space] ++ local) = words pre ++ [remote; local]).
  { intros pre. unfold words in *. rewrite <- W.
    assert (S : forall a b, split space (a ++ space :: b) = split space a ++ split space b).
    { induction a as [|c a IH]; intros b.
      - rewrite (split_at space [] b); [reflexivity|intros []].
      - cbn [app split]. destruct (c =? space)%N; [rewrite IH; reflexivity|]. rewrite IH.
        destruct (split space a) eqn:E; [exfalso; exact (split_nonempty _ _ E)|reflexivity]. }
    rewrite S, filter_app. reflexivity. }
  assert (P : forallb (fun c => shell_plain c || (c =? space)%N) (command no_sign remote local) = true).
  { apply forallb_forall. unfold command. rewrite Forall_forall in R2, L2. intros c H. rewrite !in_app_iff in H.
    destruct H as [H|[H|[H|[H|[H|H]]]]].
    - cbn in H; repeat destruct H as [<-|H]; try reflexivity; destruct H.
    - destruct no_sign; cbn in H; repeat destruct H as [<-|H]; try reflexivity; destruct H.
    - cbn in H; repeat destruct H as [<-|H]; try reflexivity; destruct H.
    - rewrite (R2 c H). reflexivity.
    - destruct H as [<-|[]]. reflexivity.
    - rewrite (L2 c H). reflexivity. }
  rewrite P.
  replace (words (command no_sign remote local)) with
    ((if no_sign then [codes "s5cmd"; codes "--no-sign-request"; codes "cp"] else [codes "s5cmd"; codes "cp"]) ++ [remote; local]).
  - destruct no_sign; reflexivity.
  - unfold command. symmetry. destruct no_sign.
    + etransitivity; [exact (C (codes "s5cmd --no-sign-request cp"))|]. reflexivity.
    + etransitivity; [exact (C (codes "s5cmd cp"))|]. reflexivity.
Qed.

(** ** The table of downloaders *)
Definition agrees (t : table) (m : str -> option nat) : Prop :=
  NoDup (map fst t) /\ forall k c, In (k, c) t <-> m k = Some c.

Lemma has_iff t m k : agrees t m -> has_prefix t k = true <-> m k <> None.
Proof.
  intros (_ & A). unfold has_prefix. rewrite existsb_exists. split.
  - intros ((k' & c) & H & E). apply eqb_iff in E. cbn in E. subst k'. apply A in H. congruence.
  - intros H. destruct (m k) as [c|] eqn:E; [|contradiction]. apply A in E. exists (k, c). split; [exact E|]. apply eqb_same.
Qed.

Lemma agrees_call t m e : agrees t m -> agrees (make_call t e) (registered [e] m).
Proof.
  intros H. assert (H0 := H). destruct H as (N & A). destruct e as [k c o|k]; cbn [registered]; unfold make_call.
  - unfold register. destruct (has_prefix t k) eqn:E.
    + apply (has_iff t m k H0) in E. destruct (m k) as [c0|] eqn:M; [|contradiction]. destruct o; cbv iota beta.
      * split.
        -- rewrite map_map. rewrite (map_ext _ fst); [exact N|]. intros (k' & c').
           cbn [fst]. destruct (str_eqb k' k) eqn:G; [apply eqb_iff in G; subst; reflexivity|reflexivity].
        -- intros k' c'. rewrite in_map_iff. destruct (str_eqb k' k) eqn:G.
           ++ apply eqb_iff in G. subst k'. split.
              ** intros ((k1 & c1) & F & _). cbn [fst] in F. destruct (str_eqb k1 k) eqn:G; [congruence|]. apply eqb_false in G. congruence.
              ** intros [= ->]. exists (k, c0). cbn [fst]. rewrite eqb_same. split; [reflexivity|]. apply A. exact M.
           ++ apply eqb_false in G. rewrite <- A. split.
              ** intros ((k1 & c1) & F & I). cbn [fst] in F. destruct (str_eqb k1 k) eqn:G'; [congruence|].
                 injection F as -> ->. exact I.
              ** intros I. exists (k', c'). cbn [fst]. apply eqb_false in G. rewrite G. auto.
      * split; [exact N|]. intros k' c'. destruct (str_eqb k' k) eqn:G; [apply eqb_iff in G; subst k'; rewrite A, M; reflexivity|apply A].
    + assert (M : m k = None).
      { destruct (m k) eqn:M; [|reflexivity]. assert (has_prefix t k = true); [|congruence]. apply (has_iff t m k H0). congruence. }
      rewrite M. split.
      * rewrite map_app. cbn [map]. apply NoDup_Add with (a := k) (l := map fst t).
        -- rewrite <- (app_nil_r (map fst t)) at 1. apply Add_app.
        -- split; [exact N|]. cbn [fst]. intros I. apply in_map_iff in I. destruct I as ((k' & c') & F & I). cbn in F. subst k'. apply A in I. congruence.
      * intros k' c'. rewrite in_app_iff. cbn [In]. destruct (str_eqb k' k) eqn:G.
        -- apply eqb_iff in G. subst k'. split.
           ++ intros [I|[I|[]]]; [apply A in I; congruence|congruence].
           ++ intros [= ->]. right. left. reflexivity.
        -- apply eqb_false in G. rewrite <- A. split; [intros [I|[I|[]]]; [exact I|congruence]|auto].
  - unfold unregister. destruct (has_prefix t k) eqn:E.
    + split.
      * clear - N. induction t as [|x t IH]; [constructor|]. cbn [map] in N. inversion N as [|? ? N1 N2]; subst. cbn [filter].
        destruct (negb (str_eqb (fst x) k)); [|apply IH; exact N2]. cbn [map]. constructor; [|apply IH; exact N2].
        intros I. apply N1. apply in_map_iff in I. destruct I as (y & <- & I). apply in_map. apply filter_In in I. apply I.
      * intros k' c'. rewrite filter_In. cbn [fst]. destruct (str_eqb k' k) eqn:G; cbn [negb].
        -- split; [intros (_ & F); discriminate F|discriminate].
        -- rewrite A. tauto.
    + assert (M : m k = None).
      { destruct (m k) eqn:M; [|reflexivity]. assert (has_prefix t k = true); [|congruence]. apply (has_iff t m k H0). congruence. }
      split; [exact N|]. intros k' c'. destruct (str_eqb k' k) eqn:G; [|apply A]. apply eqb_iff in G. subst k'. rewrite A, M. reflexivity.
Qed.

Lemma agrees_calls es : forall t m, agrees t m -> agrees (fold_left make_call es t) (registered es m).
Proof.
  induction es as [|e es IH]; intros t m H; [exact H|]. cbn [fold_left].
  assert (E : registered (e :: es) m = registered es (registered [e] m)) by (destruct e; reflexivity).
  rewrite E. apply IH. apply agrees_call. exact H.
Qed.
Lemma agrees_default : agrees default_table default.
Proof.
  split.
  - repeat constructor; vm_compute; intuition discriminate.
  - intros k c. unfold default. split.
    + intros H. repeat destruct H as [H|H]; try (injection H as <- <-; vm_compute; reflexivity). destruct H.
    + destruct (find (fun e => str_eqb (fst e) k) default_table) as [(k' & c')|] eqn:F; [|discriminate].
      intros [= <-]. apply find_some in F. destruct F as (F & G). apply eqb_iff in G. cbn in G. subst k'. exact F.
Qed.

Lemma downloader_chosen es url :
  let m := registered es default in
  (get_downloader (calls es) url = local_class /\ (forall k, m k <> None -> starts k url = false)) \/
  (exists k, m k = Some (get_downloader (calls es) url) /\ starts k url = true).
Proof.
  pose proof (agrees_calls es default_table default agrees_default) as (N & A). fold (calls es) in *. cbv zeta.
  unfold get_downloader. destruct (find (fun e => starts (fst e) url) (calls es)) as [(k & c)|] eqn:F.
  - right. apply find_some in F. destruct F as (F & S). exists k. split; [apply A; exact F|exact S].
  - left. split; [reflexivity|]. intros k H. destruct (registered es default k) as [c|] eqn:M; [|contradiction].
    apply A in M. exact (find_none _ _ F (k, c) M).
Qed.
Lemma downloader_only es url k c :
  registered es default k = Some c -> starts k url = true ->
  (forall k', registered es default k' <> None -> starts k' url = true -> k' = k) ->
  get_downloader (calls es) url = c.
Proof.
  intros M S U. destruct (downloader_chosen es url) as [(_ & H)|(k' & M' & S')].
  - rewrite (H k) in S; [discriminate S|congruence].
  - assert (E : k' = k) by (apply U; [congruence|exact S']). subst k'. congruence.
Qed.

(** ** The index of a remote directory *)
Lemma should_puts f l : should_all f (map (fun c => Put (fst c) (snd c)) l) = Some (fold_left (fun f c => set_file f (fst c) (snd c)) l f).
Proof. revert f. induction l as [|x l IH]; intros f; [reflexivity|]. cbn [map should_all should fold_left]. apply IH. Qed.
Lemma puts_other l : forall (f : files) u, ~ In u (map fst l) -> fold_left (fun f c => set_file f (fst c) (snd c)) l f u = f u.
Proof.
  induction l as [|x l IH]; intros f u H; [reflexivity|]. cbn [fold_left]. rewrite IH; [|intros G; apply H; right; exact G].
  unfold set_file. destruct (str_eqb u (fst x)) eqn:E; [|reflexivity]. apply eqb_iff in E. exfalso. apply H. left. congruence.
Qed.
Lemma puts_in l : forall (f : files) u d, NoDup (map fst l) -> In (u, d) l -> fold_left (fun f c => set_file f (fst c) (snd c)) l f u = Some d.
Proof.
  induction l as [|x l IH]; intros f u d N H; [destruct H|]. cbn [fold_left]. inversion N as [|? ? N1 N2]; subst. destruct H as [->|H].
  - rewrite puts_other; [|exact N1]. unfold set_file. cbn [fst snd]. rewrite eqb_same. reflexivity.
  - apply IH; assumption.
Qed.

Lemma name_plain comp r i c : comp_word comp -> In c (chunk_name comp r i) -> ~ In c reserved.
Proof.
  intros H Hc. assert (D : forall n x, In x (dec n) -> ~ In x reserved).
  { intros n x Hx G. pose proof (dec_digits n) as F. rewrite Forall_forall in F. specialize (F x Hx). unfold is_digit in F.
    unfold reserved in G. cbn [In] in G. destruct G as [G|[G|[G|[G|[G|[]]]]]]; subst x; lia. }
  unfold chunk_name in Hc. rewrite !in_app_iff in Hc. destruct Hc as [Hc|[Hc|[Hc|[Hc|[Hc|Hc]]]]].
  - vm_compute in Hc. vm_compute. intuition (subst; discriminate).
  - exact (D _ _ Hc).
  - destruct Hc as [<-|[]]. vm_compute. intuition discriminate.
  - exact (D _ _ Hc).
  - destruct comp as [w|]; [|destruct Hc]. specialize (H w eq_refl). destruct w as [|x w]; [destruct Hc|].
    destruct Hc as [<-|Hc]; [vm_compute; intuition discriminate|]. rewrite Forall_forall in H. specialize (H c Hc).
    intros G. unfold reserved in G. cbn [In] in G. destruct G as [G|[G|[G|[G|[G|[]]]]]]; subst c; vm_compute in H; intuition discriminate.
  - vm_compute in Hc. vm_compute. intuition (subst; discriminate).
Qed.
Lemma word_dashless comp : comp_word comp -> dashless comp.
Proof.
  destruct comp as [w|]; cbn [dashless]; [|auto]. intros H G. specialize (H w eq_refl). rewrite Forall_forall in H.
  specialize (H dash G). vm_compute in H. intuition discriminate.
Qed.
Lemma below_inj dir a b : below dir a = below dir b -> a = b.
Proof. unfold below. intros H. apply app_inv_head in H. congruence. Qed.

Lemma new_chunks_spec comp state nw new name d :
  In (name, d) (new_chunks comp state nw new) <->
  exists w j, w < nw /\ nth_error (nth w new []) j = Some d /\ name = new_name comp state nw 0 w j.
Proof.
  unfold new_chunks. rewrite in_concat. split.
  - intros (l & H & I). apply in_map_iff in H. destruct H as (w & <- & H). apply in_seq in H. apply in_map_iff in I.
    destruct I as (j & E & I). apply in_seq in I. injection E as <- <-. exists w, j. split; [lia|]. split; [|reflexivity].
    apply nth_error_nth'. lia.
  - intros (w & j & Hw & E & ->). eexists. split.
    + apply in_map_iff. exists w. split; [reflexivity|]. apply in_seq. lia.
    + apply in_map_iff. exists j. split; [f_equal; apply nth_error_nth; exact E|]. apply in_seq.
      assert (j < length (nth w new [])); [|lia]. apply nth_error_Some. congruence.
Qed.
Lemma map_nth_seq {A} (l : list A) d : map (fun j => nth j l d) (seq 0 (length l)) = l.
Proof.
  induction l as [|x l IH]; [reflexivity|]. cbn [length seq map nth]. f_equal. rewrite <- seq_shift, map_map. exact IH.
Qed.
Lemma new_chunks_contents comp state nw new : length new = nw -> map snd (new_chunks comp state nw new) = concat new.
Proof.
  intros <-. unfold new_chunks. rewrite concat_map, map_map. rewrite <- (map_nth_seq new []) at 2. f_equal. apply map_ext. intros w.
  rewrite map_map. cbn [snd]. apply map_nth_seq.
Qed.
Lemma NoDup_concat {A} (ls : list (list A)) : Forall (@NoDup A) ls ->
  (forall i j a b x, nth_error ls i = Some a -> nth_error ls j = Some b -> In x a -> In x b -> i = j) -> NoDup (concat ls).
Proof.
  induction ls as [|l ls IH]; intros F H; [constructor|]. cbn [concat]. inversion F as [|? ? F1 F2]; subst.
  assert (N : NoDup (concat ls)).
  { apply IH; [exact F2|]. intros i j a b x Ha Hb Ia Ib. assert (S i = S j); [|congruence]. apply (H (S i) (S j) a b x); assumption. }
  assert (D : forall x, In x l -> ~ In x (concat ls)).
  { intros x Hx G. apply in_concat in G. destruct G as (b & Hb & G). apply In_nth_error in Hb. destruct Hb as (j & Hb).
    discriminate (H 0 (S j) l b x eq_refl Hb Hx G). }
  clear - N D F1. induction l as [|x l IH]; [exact N|]. inversion F1; subst. cbn [app]. constructor.
  - intros G. apply in_app_iff in G. destruct G as [G|G]; [contradiction|]. exact (D x (or_introl eq_refl) G).
  - apply IH; [assumption|]. intros y Hy. apply D. right. exact Hy.
Qed.
Lemma new_chunks_nodup comp state nw new : NoDup (map fst (new_chunks comp state nw new)).
Proof.
  unfold new_chunks. rewrite concat_map, map_map. apply NoDup_concat.
  - apply Forall_forall. intros l H. apply in_map_iff in H. destruct H as (w & <- & H). apply in_seq in H. rewrite map_map. cbn [fst].
    apply FinFun.Injective_map_NoDup; [|apply seq_NoDup]. intros i j E.
    destruct (new_names_distinct comp state nw 0 w i 0 w j) as (_ & _ & G); [lia|lia|exact E|exact G].
  - intros i j a b x Ha Hb Ia Ib. rewrite nth_error_map in Ha, Hb.
    destruct (nth_error (seq 0 nw) i) as [w|] eqn:Ei; [|discriminate Ha]. destruct (nth_error (seq 0 nw) j) as [w'|] eqn:Ej; [|discriminate Hb].
    cbn [option_map] in Ha, Hb. injection Ha as <-. injection Hb as <-.
    rewrite map_map in Ia, Ib. apply in_map_iff in Ia, Ib. destruct Ia as (x1 & E1 & _), Ib as (x2 & E2 & _). cbn [fst] in E1, E2. rewrite <- E2 in E1.
    assert (W : w < nw) by (apply nth_error_In, in_seq in Ei; lia). assert (W' : w' < nw) by (apply nth_error_In, in_seq in Ej; lia).
    destruct (new_names_distinct comp state nw 0 w x1 0 w' x2 W W' E1) as (_ & G & _). subst w'.
    apply (proj1 (NoDup_nth_error (seq 0 nw)) (seq_NoDup nw 0) i j); [|congruence].
    apply nth_error_Some. congruence.
Qed.

Section Index.
  Variables (parse : content -> option (list str)) (render : list str -> content).
  Hypothesis read_back : forall l, parse (render l) = Some l.

  Lemma append_url p nw comp dir u new st d existing :
    directory p dir -> written_as dir u -> buckets_ok st ->
    let names := map (fun e => chunk_name (fst e) (fst (snd e)) (snd (snd e))) existing in
    file_at p st (below dir index_name) = Some d -> parse d = Some names ->
    Forall (fun e => comp_word (fst e)) existing -> comp_word comp -> length new = nw ->
    exists st' added,
      append_job parse render p false nw comp u new st = Ok st' /\
      map snd added = concat new /\ NoDup (map fst added) /\ (forall n, In n (map fst added) -> ~ In n names) /\
      file_at p st' (below dir index_name) = Some (render (names ++ map fst added)) /\
      (forall n, In n names -> file_at p st' (below dir n) = file_at p st (below dir n)) /\
      (forall n c, In (n, c) added -> file_at p st' (below dir n) = Some c) /\
      (forall v, plain_url p v -> starts (dir ++ [slash]) v = false -> file_at p st' v = file_at p st v).
  Proof.
    intros (Hdir & He) Hu Hst names Hf Hp Hex Hc Hn.
    assert (Nd : dir <> []) by (destruct Hdir as (b & k & _ & _ & ->); apply url_nonempty).
    assert (R : read_index parse p false st u = Some names).
    { unfold read_index. rewrite (strip_dir dir u He Hu).
      replace (join (dir ++ [slash]) index_name) with (below dir index_name)
        by (symmetry; apply join_dir; [exact He|exact Nd|right; reflexivity|reflexivity]).
      pose proof (plain_below p dir index_name Hdir name_index) as (b & k & Hb & Hk & E). rewrite E in *.
      rewrite (download_plain p st b k Hb Hk), <- (file_get p st b k Hst Hb), Hf. exact Hp. }
    destruct (append_fresh nw existing) as (state & Es & L & F & _).
    { eapply Forall_impl; [|exact Hex]. intros e H. apply word_dashless. exact H. }
    fold names in Es, F. unfold append_job. rewrite R, Es. cbn [bind].
    set (added := new_chunks comp state nw new).
    assert (J : forall n, starts [slash] n = false -> join u n = below dir n) by (intros n Hs; apply join_dir; assumption).
    assert (Sn : forall n, In n (map fst added) -> starts [slash] n = false /\ n <> index_name /\ (forall c, In c n -> ~ In c reserved) /\ ~ In n names).
    { intros n H. apply in_map_iff in H. destruct H as ((n' & c) & E & H). cbn in E. subst n'. apply new_chunks_spec in H.
      destruct H as (w & j & Hw & _ & ->). split; [reflexivity|]. split; [vm_compute; discriminate|].
      split; [intros x Hx; eapply name_plain; [exact Hc|exact Hx]|]. apply F. exact Hw. }
    set (acts := map (fun c => Put (join u (fst c)) (snd c)) added ++ [Put (join u index_name) (render (names ++ map fst added))]).
    set (written := map (fun c => (below dir (fst c), snd c)) added ++ [(below dir index_name, render (names ++ map fst added))]).
    assert (Ea : acts = map (fun c => Put (fst c) (snd c)) written).
    { unfold acts, written. rewrite map_app, map_map. cbn [map fst snd]. rewrite (J index_name eq_refl). f_equal.
      apply map_ext_in. intros c H. cbn [fst snd]. rewrite J; [reflexivity|]. apply Sn. apply in_map. exact H. }
    assert (Fa : Forall (fun a => Forall (plain_url p) (urls a)) acts).
    { rewrite Ea. unfold written. rewrite map_app. apply Forall_app. split.
      - apply Forall_forall. intros a H. rewrite map_map in H. apply in_map_iff in H. destruct H as (c & <- & H). cbn [urls fst snd].
        constructor; [|constructor]. apply plain_below; [exact Hdir|]. apply Sn. apply in_map. exact H.
      - constructor; [|constructor]. cbn [urls fst snd]. constructor; [|constructor]. apply plain_below; [exact Hdir|exact name_index]. }
    pose proof (stored_under_url p st acts Hst Fa) as A. 
    assert (Sa : should_all (file_at p st) acts = Some (fold_left (fun f c => set_file f (fst c) (snd c)) written (file_at p st)))
      by (rewrite Ea; apply should_puts).
    rewrite Sa in A.
    destruct A as (st' & A1 & A2). exists st', added.
    assert (Nw : NoDup (map fst written)).
    { unfold written. rewrite map_app. cbn [map fst]. apply NoDup_Add with (a := below dir index_name) (l := map fst (map (fun c => (below dir (fst c), snd c)) added)).
      - rewrite <- (app_nil_r (map fst (map (fun c => (below dir (fst c), snd c)) added))) at 1. apply Add_app.
      - rewrite map_map. cbn [fst]. split.
        + rewrite <- (map_map fst (below dir)). apply FinFun.Injective_map_NoDup; [intros x y; apply below_inj|apply new_chunks_nodup].
        + intros H. apply in_map_iff in H. destruct H as (c & E & H). apply below_inj in E.
          destruct (Sn (fst c) (in_map fst _ _ H)) as (_ & G & _). exact (G E). }
    assert (Other : forall v, plain_url p v -> ~ In v (map fst written) -> file_at p st' v = file_at p st v).
    { intros v Hv H. destruct (A2 v Hv) as (_ & _ & ->). apply puts_other. exact H. }
    assert (In_w : forall v c, plain_url p v -> In (v, c) written -> file_at p st' v = Some c).
    { intros v c Hv H. destruct (A2 v Hv) as (_ & _ & ->). apply puts_in; assumption. }
    split; [exact A1|]. split; [apply new_chunks_contents; exact Hn|]. split; [apply new_chunks_nodup|].
    split; [intros n H; apply Sn; exact H|]. split; [|split; [|split]].
    - apply In_w; [apply plain_below; [exact Hdir|exact name_index]|]. unfold written. apply in_app_iff. right. left. reflexivity.
    - intros n H.
      assert (H' := H). unfold names in H. apply in_map_iff in H. destruct H as (e & <- & H). rewrite Forall_forall in Hex.
      apply Other; [apply plain_below; [exact Hdir|]; intros c; apply name_plain, Hex; exact H|].
      unfold written. rewrite map_app, map_map. cbn [map fst]. rewrite in_app_iff. intros [G|[G|[]]].
      + apply in_map_iff in G. destruct G as (c & E & G). cbn [fst] in E. apply below_inj in E.
        destruct (Sn (fst c) (in_map fst _ _ G)) as (_ & _ & _ & K). apply K. rewrite E. exact H'.
      + apply below_inj in G. vm_compute in G. discriminate G.
    - intros n c H. apply In_w.
      + apply plain_below; [exact Hdir|]. apply Sn. change n with (fst (n, c)). apply in_map. exact H.
      + unfold written. apply in_app_iff. left. apply in_map_iff. exists (n, c). auto.
    - intros v Hv Hs. apply Other; [exact Hv|]. unfold written. rewrite map_app, map_map. cbn [map fst]. rewrite in_app_iff. intros G.
      assert (S : forall n, starts (dir ++ [slash]) (below dir n) = true).
      { intros n. apply starts_iff. exists n. unfold below. rewrite <- app_assoc. reflexivity. }
      destruct G as [G|[G|[]]].
      + apply in_map_iff in G. destruct G as (c & <- & G). cbn [fst] in Hs. rewrite S in Hs. discriminate Hs.
      + subst v. rewrite S in Hs. discriminate Hs.
  Qed.

  (** A dataset in the output directory: refused if its index can be read. *)
  Lemma merge_refused p fails inputs comp dir out st d names :
    directory p dir -> written_as dir out -> buckets_ok st ->
    file_at p st (below dir index_name) = Some d -> parse d = Some names -> fails out = false ->
    merge_job parse render p fails inputs comp out st = Err ValueError.
  Proof.
    intros (Hdir & He) Hu Hst Hf Hp Hb. unfold merge_job. destruct (length inputs <=? 1); [reflexivity|].
    destruct (mem out inputs); [reflexivity|].
    match goal with |- context [Config_Model.map_res ?f inputs] => destruct (Config_Model.map_res f inputs) as [l|e] eqn:E end; cbn [bind].
    - assert (Nd : dir <> []) by (destruct Hdir as (b & k & _ & _ & ->); apply url_nonempty).
      assert (R : read_index parse p (fails out) st out = Some names).
      { rewrite Hb. unfold read_index. rewrite (strip_dir dir out He Hu).
        replace (join (dir ++ [slash]) index_name) with (below dir index_name)
          by (symmetry; apply join_dir; [exact He|exact Nd|right; reflexivity|reflexivity]).
        pose proof (plain_below p dir index_name Hdir name_index) as (b & k & Hb' & Hk & G). rewrite G in *.
        rewrite (download_plain p st b k Hb' Hk), <- (file_get p st b k Hst Hb'), Hf. exact Hp. }
      rewrite R. reflexivity.
    - assert (G : forall l e, Config_Model.map_res (fun u => match read_index parse p (fails u) st u with Some l => Ok (u, l) | None => Err ValueError end) l = Err e -> e = ValueError).
      { clear. induction l as [|x l IH]; intros e; cbn [Config_Model.map_res]; [discriminate|].
        destruct (read_index parse p (fails x) st x); cbn [bind]; [|congruence].
        destruct (Config_Model.map_res _ l) eqn:E; cbn [bind]; [discriminate|]. intros [= <-]. apply IH. reflexivity. }
      apply G in E. subst e. reflexivity.
  Qed.

  Lemma read_missing p st dir u : directory p dir -> written_as dir u -> buckets_ok st ->
    file_at p st (below dir index_name) = None -> read_index parse p false st u = None.
  Proof.
    intros (Hdir & He) Hu Hst Hf. assert (Nd : dir <> []) by (destruct Hdir as (b & k & _ & _ & ->); apply url_nonempty).
    unfold read_index. rewrite (strip_dir dir u He Hu).
    replace (join (dir ++ [slash]) index_name) with (below dir index_name)
      by (symmetry; apply join_dir; [exact He|exact Nd|right; reflexivity|reflexivity]).
    pose proof (plain_below p dir index_name Hdir name_index) as (b & k & Hb & Hk & E). rewrite E in *.
    rewrite (download_plain p st b k Hb Hk), <- (file_get p st b k Hst Hb), Hf. reflexivity.
  Qed.
  Lemma read_there p st dir u d names : directory p dir -> written_as dir u -> buckets_ok st ->
    file_at p st (below dir index_name) = Some d -> parse d = Some names -> read_index parse p false st u = Some names.
  Proof.
    intros (Hdir & He) Hu Hst Hf Hp. assert (Nd : dir <> []) by (destruct Hdir as (b & k & _ & _ & ->); apply url_nonempty).
    unfold read_index. rewrite (strip_dir dir u He Hu).
    replace (join (dir ++ [slash]) index_name) with (below dir index_name)
      by (symmetry; apply join_dir; [exact He|exact Nd|right; reflexivity|reflexivity]).
    pose proof (plain_below p dir index_name Hdir name_index) as (b & k & Hb & Hk & E). rewrite E in *.
    rewrite (download_plain p st b k Hb Hk), <- (file_get p st b k Hst Hb), Hf. exact Hp.
  Qed.

  Lemma should_app l l' : forall f f', should_all f l = Some f' -> should_all f (l ++ l') = should_all f' l'.
  Proof.
    induction l as [|a l IH]; intros f f' H; cbn [app should_all] in *; [congruence|]. destruct (should f a); [|discriminate H].
    apply IH. exact H.
  Qed.
  Lemma should_copies : forall srcs dsts cs (f : files), length dsts = length srcs ->
    Forall2 (fun s c => f s = Some c) srcs cs -> (forall s, In s srcs -> ~ In s dsts) ->
    should_all f (map (fun c => Copy (fst c) (snd c)) (combine srcs dsts)) = Some (fold_left (fun f c => set_file f (fst c) (snd c)) (combine dsts cs) f).
  Proof.
    induction srcs as [|s srcs IH]; intros dsts cs f L F D; destruct dsts as [|d dsts]; try discriminate L; [inversion F; subst; reflexivity|].
    inversion F as [|? c ? cs' Hs Fs]; subst. cbn [combine map should_all should fst snd fold_left]. rewrite Hs.
    apply IH; [cbn [length] in L; lia| |].
    - assert (K : forall x, In x srcs -> set_file f d c x = f x).
      { intros x Hx. unfold set_file. replace (str_eqb x d) with false; [reflexivity|]. symmetry. apply eqb_false. intros ->.
        apply (D d (or_intror Hx)). left. reflexivity. }
      clear - Fs K. induction Fs as [|x c' l l' H Fs IH]; constructor; [rewrite K; [exact H|left; reflexivity]|].
      apply IH. intros y Hy. apply K. right. exact Hy.
    - intros x Hx G. apply (D x (or_intror Hx)). right. exact G.
  Qed.
  Lemma combine_map_r {A B C} (g : B -> C) : forall (l : list A) (m : list B), combine l (map g m) = map (fun c => (fst c, g (snd c))) (combine l m).
  Proof. induction l as [|x l IH]; intros [|y m]; cbn [combine map]; [reflexivity..|]. rewrite IH. reflexivity. Qed.
  Lemma map_fst_combine {A B} : forall (l : list A) (m : list B), length l = length m -> map fst (combine l m) = l.
  Proof. induction l as [|x l IH]; intros [|y m] L; cbn [combine map fst] in *; try discriminate L; [reflexivity|]. rewrite IH; [reflexivity|]. cbn [length] in L. lia. Qed.

  Lemma nth_pair {A B C} (R : A -> B -> Prop) l l' : Forall2 R l l' -> forall i (m : list C) s d, nth_error l i = Some s -> nth_error m i = Some d ->
    exists c, nth_error l' i = Some c /\ R s c /\ nth_error (combine m l') i = Some (d, c).
  Proof.
    induction 1 as [|x c l l' H F IH]; intros i m s d Hs Hd; [destruct i; discriminate Hs|]. destruct m as [|y m]; [destruct i; discriminate Hd|].
    destruct i as [|i]; cbn [nth_error combine] in *.
    - injection Hs as <-. injection Hd as ->. exists c. auto.
    - apply IH; assumption.
  Qed.

  (** Datasets whose files are there are merged into an empty directory. *)
  Lemma merge_url p comp ds out u st : 
    2 <= length ds -> buckets_ok st -> comp_word comp ->
    Forall (fun x => directory p (fst (fst x)) /\ written_as (fst (fst x)) (snd (fst x)) /\
                     (exists d, file_at p st (below (fst (fst x)) index_name) = Some d /\ parse d = Some (snd x)) /\
                     Forall (fun n => starts [slash] n = false /\ (forall c, In c n -> ~ In c reserved) /\
                                      exists c, file_at p st (below (fst (fst x)) n) = Some c) (snd x)) ds ->
    directory p out -> written_as out u -> (forall n, file_at p st (below out n) = None) ->
    let sources := concat (map (fun x => map (below (fst (fst x))) (snd x)) ds) in
    exists st' names,
      merge_job parse render p (fun _ => false) (map (fun x => snd (fst x)) ds) comp u st = Ok st' /\
      length names = length sources /\ NoDup names /\
      file_at p st' (below out index_name) = Some (render names) /\
      (forall i s n, nth_error sources i = Some s -> nth_error names i = Some n ->
         file_at p st' (below out n) = file_at p st s /\ file_at p st s <> None) /\
      (forall v, plain_url p v -> starts (out ++ [slash]) v = false -> file_at p st' v = file_at p st v).
  Proof.
    intros L2 Hst Hc Hds Hout Hu Hno sources. destruct Hout as (Ho1 & Ho2).
    assert (No : out <> []) by (destruct Ho1 as (b & k & _ & _ & ->); apply url_nonempty).
    assert (S : forall n, starts (out ++ [slash]) (below out n) = true).
    { intros n. apply starts_iff. exists n. unfold below. rewrite <- app_assoc. reflexivity. }
    assert (J : forall n, starts [slash] n = false -> join u n = below out n) by (intros n Hs; apply join_dir; assumption).
    set (names := map (fun i => chunk_name comp 0 i) (seq 0 (length sources))).
    assert (Ln : length names = length sources) by (unfold names; rewrite map_length, seq_length; reflexivity).
    unfold merge_job. rewrite map_length. replace (length ds <=? 1) with false by (symmetry; apply Nat.leb_gt; lia).
    replace (mem u (map (fun x => snd (fst x)) ds)) with false.
    2:{ symmetry. apply mem_false. intros H. apply in_map_iff in H. destruct H as (x & E & H). rewrite Forall_forall in Hds.
        destruct (Hds x H) as ((D1 & D2) & W & (d & D3 & _) & _).
        assert (X : fst (fst x) = out).
        { rewrite <- (strip_dir _ _ D2 W), E. apply strip_dir; assumption. }
        rewrite X, Hno in D3. discriminate D3. }
    match goal with |- context [Config_Model.map_res ?f ?l] => replace (Config_Model.map_res f l) with (Ok (map (fun x => (snd (fst x), snd x)) ds)) end.
    2:{ clear - Hds Hst. induction Hds as [|x ds (D1 & D2 & (d & D3 & D4) & _) _ IH]; [reflexivity|]. cbn [map Config_Model.map_res].
        rewrite (read_there p st _ _ d (snd x) D1 D2 Hst D3 D4). cbn [bind]. rewrite <- IH. reflexivity. }
    cbn [bind]. rewrite (read_missing p st out u (conj Ho1 Ho2) Hu Hst (Hno index_name)).
    match goal with |- context [concat ?l] => replace (concat l) with sources end.
    2:{ unfold sources. rewrite map_map. cbn [fst snd]. f_equal. apply map_ext_in. intros x H. rewrite Forall_forall in Hds.
        destruct (Hds x H) as ((D1 & D2) & W & _ & F). apply map_ext_in. intros n Hn. rewrite Forall_forall in F. destruct (F n Hn) as (F1 & _).
        symmetry. apply join_dir; [exact D2| |exact W|exact F1]. destruct D1 as (b & k & _ & _ & ->). apply url_nonempty. }
    cbv zeta. fold names.
    assert (Src : Forall (fun s => plain_url p s /\ exists c, file_at p st s = Some c) sources).
    { apply Forall_forall. intros s H. unfold sources in H. apply in_concat in H. destruct H as (l & H1 & H2). apply in_map_iff in H1.
      destruct H1 as (x & <- & H1). apply in_map_iff in H2. destruct H2 as (n & <- & H2). rewrite Forall_forall in Hds.
      destruct (Hds x H1) as ((D1 & D2) & W & _ & F). rewrite Forall_forall in F. destruct (F n H2) as (_ & F2 & F3).
      split; [apply plain_below; assumption|exact F3]. }
    assert (Cs : exists cs, Forall2 (fun s c => file_at p st s = Some c) sources cs).
    { clear - Src. induction Src as [|s l (_ & c & H) _ (cs & IH)]; [exists []; constructor|]. exists (c :: cs). constructor; assumption. }
    destruct Cs as (cs & Cs).
    assert (Lc : length sources = length cs) by (clear - Cs; induction Cs; cbn [length]; congruence).
    set (dsts := map (below out) names). assert (Ld : length dsts = length sources) by (unfold dsts; rewrite map_length; exact Ln).
    assert (Nin : forall n, In n names -> exists i, n = chunk_name comp 0 i).
    { intros n H. unfold names in H. apply in_map_iff in H. destruct H as (i & <- & _). exists i. reflexivity. }
    assert (Nn : NoDup names).
    { unfold names. apply FinFun.Injective_map_NoDup; [|apply seq_NoDup]. intros i j E. apply chunk_name_inj in E. apply E. }
    assert (Dis : forall s, In s sources -> ~ In s dsts).
    { intros s H G. unfold dsts in G. apply in_map_iff in G. destruct G as (n & <- & _). rewrite Forall_forall in Src.
      destruct (Src _ H) as (_ & c & E). rewrite Hno in E. discriminate E. }
    set (acts := map (fun c => Copy (fst c) (join u (snd c))) (combine sources names) ++ [Put (join u index_name) (render names)]).
    assert (Ea : acts = map (fun c => Copy (fst c) (snd c)) (combine sources dsts) ++ [Put (below out index_name) (render names)]).
    { unfold acts, dsts. rewrite (J index_name eq_refl), combine_map_r, map_map. cbn [fst snd]. f_equal.
      apply map_ext_in. intros (s & n) H. cbn [fst snd]. apply in_combine_r in H. destruct (Nin n H) as (i & ->). rewrite J; reflexivity. }
    set (written := combine dsts cs ++ [(below out index_name, render names)]).
    assert (Pd : forall n, In n names -> plain_url p (below out n)).
    { intros n H. destruct (Nin n H) as (i & ->). apply plain_below; [exact Ho1|]. intros c. apply name_plain. exact Hc. }
    assert (Fa : Forall (fun a => Forall (plain_url p) (urls a)) acts).
    { rewrite Ea. apply Forall_app. split.
      - apply Forall_forall. intros a H. apply in_map_iff in H. destruct H as ((s & t) & <- & H). cbn [urls fst snd].
        pose proof (in_combine_l _ _ _ _ H) as H1. apply in_combine_r in H. unfold dsts in H. apply in_map_iff in H. destruct H as (n & <- & H).
        rewrite Forall_forall in Src. constructor; [apply Src; exact H1|]. constructor; [apply Pd; exact H|constructor].
      - constructor; [|constructor]. cbn [urls]. constructor; [|constructor]. apply plain_below; [exact Ho1|exact name_index]. }
    pose proof (stored_under_url p st acts Hst Fa) as A.
    assert (Sa : should_all (file_at p st) acts = Some (fold_left (fun f c => set_file f (fst c) (snd c)) written (file_at p st))).
    { rewrite Ea. rewrite (should_app _ _ _ _ (should_copies sources dsts cs (file_at p st) Ld Cs Dis)). cbn [should_all should].
      unfold written. rewrite fold_left_app. reflexivity. }
    rewrite Sa in A. destruct A as (st' & A1 & A2). exists st', names.
    assert (Mw : map fst written = dsts ++ [below out index_name]).
    { unfold written. rewrite map_app, map_fst_combine; [reflexivity|lia]. }
    assert (Nw : NoDup (map fst written)).
    { rewrite Mw. apply NoDup_Add with (a := below out index_name) (l := dsts).
      - rewrite <- (app_nil_r dsts) at 1. apply Add_app.
      - split.
        + unfold dsts. apply FinFun.Injective_map_NoDup; [intros x y; apply below_inj|exact Nn].
        + intros H. unfold dsts in H. apply in_map_iff in H. destruct H as (n & E & H). apply below_inj in E. destruct (Nin n H) as (i & ->).
          vm_compute in E. discriminate E. }
    split; [exact A1|]. split; [exact Ln|]. split; [exact Nn|]. split; [|split].
    - destruct (A2 (below out index_name)) as (_ & _ & ->); [apply plain_below; [exact Ho1|exact name_index]|].
      apply puts_in; [exact Nw|]. unfold written. apply in_app_iff. right. left. reflexivity.
    - intros i s n Hs Hn. destruct (A2 (below out n)) as (_ & _ & ->); [apply Pd; eapply nth_error_In; exact Hn|].
      assert (H : exists c, nth_error cs i = Some c /\ file_at p st s = Some c /\ nth_error (combine dsts cs) i = Some (below out n, c)).
      { assert (Hd : nth_error dsts i = Some (below out n)) by (unfold dsts; rewrite nth_error_map, Hn; reflexivity).
        exact (nth_pair _ _ _ Cs i _ _ _ Hs Hd). }
      destruct H as (c & _ & E & H). rewrite E. split; [|discriminate]. apply puts_in; [exact Nw|]. unfold written. apply in_app_iff. left.
      eapply nth_error_In. exact H.
    - intros v Hv Hs. destruct (A2 v Hv) as (_ & _ & ->). apply puts_other. rewrite Mw, in_app_iff. intros [G|[G|[]]].
      + unfold dsts in G. apply in_map_iff in G. destruct G as (n & <- & _). rewrite S in Hs. discriminate Hs.
      + subst v. rewrite S in Hs. discriminate Hs.
  Qed.
End Index.
