(** Invariant of the cache directories of one url. *)
From Coq Require Import String NArith Lia.
From Verif Require Import Base Names_Model Fresh_Model Fresh_Spec.
Local Open Scope list_scope.
Local Open Scope nat_scope.
Local Ltac Zify.zify_post_hook ::= idtac.

Section P.
Context (hash : str -> str) (updated_at : list N -> option str).
Notation open_dataset := (open_dataset hash updated_at).
Notation step := (step hash updated_at).
Notation steps := (steps hash updated_at).

Lemma set_cache_same c root key dirs : set_cache c root key dirs root key = dirs.
Proof. unfold set_cache. rewrite Nat.eqb_refl. destruct (list_eq_dec N.eq_dec key key); [reflexivity|congruence]. Qed.
Lemma set_cache_key c root key dirs r k : k <> key -> set_cache c root key dirs r k = c r k.
Proof. intros H. unfold set_cache. destruct (list_eq_dec N.eq_dec k key); [contradiction|]. rewrite andb_false_r. reflexivity. Qed.
Lemma set_cache_root c root key dirs r k : r <> root -> set_cache c root key dirs r k = c r k.
Proof. intros H. unfold set_cache. destruct (Nat.eqb_spec r root); [contradiction|]. reflexivity. Qed.

Lemma find_in dirs s d : find_dir dirs s = Some d -> In (s, d) dirs.
Proof.
  induction dirs as [|[t e] dirs IH]; cbn [find_dir]; [discriminate|].
  destruct (list_eq_dec N.eq_dec t s) as [->|]; [intros E; injection E as ->; left; reflexivity|]. intros E. right. apply IH, E.
Qed.
Lemma in_put dirs s d t e : In (t, e) (put_dir dirs s d) -> In (t, e) dirs \/ t = s /\ e = d.
Proof.
  induction dirs as [|[u f] dirs IH]; cbn [put_dir]; [tauto|]. destruct (list_eq_dec N.eq_dec u s) as [->|].
  - intros [E|H]; [injection E as <- <-; auto|]. left. right. exact H.
  - intros [E|H]; [left; left; exact E|]. destruct (IH H) as [K|K]; [left; right; exact K|auto].
Qed.
Lemma clear_spec dirs s : exists d, clear_if_updated dirs s = [(s, d)] /\ (In (s, d) dirs \/ d = fun _ => None).
Proof.
  unfold clear_if_updated. destruct dirs as [|[t e] [|x dirs]].
  - eexists. split; [reflexivity|auto].
  - destruct (list_eq_dec N.eq_dec t s) as [->|]; eexists; (split; [reflexivity|]); [left; left; reflexivity|auto].
  - eexists. split; [reflexivity|auto].
Qed.

(** What is written as the timestamp of a version in the name of its directory. *)
Definition name_stamp (url : str) (files : folder) : option str := option_map (stamp_of hash updated_at url) (files index_name).

(** [seen]: the names of the directories of the versions of [url] so far. *)
Definition inv (url : str) (seen : list (option str)) (w : world) : Prop :=
  In (name_stamp url (store w url)) seen /\
  (forall root s d, In (s, d) (cache w root (hash url)) -> In (Some s) seen /\
     (Some s = name_stamp url (store w url) -> forall f c, d f = Some c -> store w url f = Some c)) /\
  (forall h, In h (handles w) -> h_key h = hash (h_url h) /\
     (h_url h = url -> In (Some (h_stamp h)) seen) /\ (hash (h_url h) = hash url -> h_url h = url)).

Lemma open_ok w root url given h w' : open_dataset w root url given = Ok (h, w') ->
  exists index d, (match given with Some x => Some x | None => store w url index_name end) = Some index /\
    clear_if_updated (cache w root (hash url)) (stamp_of hash updated_at url index) = [(stamp_of hash updated_at url index, d)] /\
    (In (stamp_of hash updated_at url index, d) (cache w root (hash url)) \/ d = fun _ => None) /\
    exists i, (match d index_name with Some j => i = j | None => i = index end) /\
      h = Handle root (hash url) (stamp_of hash updated_at url index) url i /\
      w' = World (store w) (set_cache (cache w) root (hash url)
             [(stamp_of hash updated_at url index, match d index_name with Some _ => d | None => put d index_name index end)]) (handles w ++ [h]).
Proof.
  unfold Fresh_Model.open_dataset. destruct (match given with Some x => Some x | None => store w url index_name end) as [index|]; [|discriminate].
  cbv zeta. destruct (clear_spec (cache w root (hash url)) (stamp_of hash updated_at url index)) as (d & E & Hd). rewrite E. cbn [find_dir put_dir].
  destruct (list_eq_dec N.eq_dec (stamp_of hash updated_at url index) (stamp_of hash updated_at url index)) as [_|]; [|congruence].
  intros H. exists index, d. split; [reflexivity|]. split; [exact E|]. split; [exact Hd|].
  destruct (d index_name) as [j|] eqn:Ej.
  - rewrite Ej in H. injection H as <- <-. exists j. auto.
  - unfold put in H at 1. destruct (list_eq_dec N.eq_dec index_name index_name) as [_|]; [|congruence]. injection H as <- <-. exists index. auto.
Qed.

Lemma put_spec d name data f c : put d name data f = Some c -> d f = Some c \/ f = name /\ c = data.
Proof. unfold put. destruct (list_eq_dec N.eq_dec f name); [intros E; injection E as <-; auto|auto]. Qed.

Lemma inv_open w root url u given seen : inv url seen w -> (hash u = hash url -> u = url) -> (u = url -> given = None) ->
  inv url seen (step w (Open root u given)).
Proof.
  intros (I1 & I2 & I3) Hu Hg. cbn [Fresh_Model.step].
  destruct (open_dataset w root u given) as [[h w']|] eqn:E; [|split; [exact I1|split; assumption]].
  destruct (open_ok _ _ _ _ _ _ E) as (index & d & Ei & Ec & Hd & i & Hi & -> & ->). clear E. unfold inv. cbn [store cache handles].
  destruct (list_eq_dec N.eq_dec u url) as [->|Hne].
  - specialize (Hg eq_refl). subst given. assert (En : name_stamp url (store w url) = Some (stamp_of hash updated_at url index)).
    { unfold name_stamp. rewrite Ei. reflexivity. }
    split; [exact I1|]. split.
    + intros r s e He. destruct (Nat.eq_dec r root) as [->|]; [|rewrite set_cache_root in He by assumption; apply (I2 _ _ _ He)].
      rewrite set_cache_same in He. destruct He as [He|[]]. injection He as <- <-. split; [rewrite <- En; exact I1|]. intros _ f c.
      assert (D : forall f c, d f = Some c -> store w url f = Some c).
      { destruct Hd as [Hd| ->]; [|discriminate]. apply (I2 _ _ _ Hd). congruence. }
      destruct (d index_name); [apply D|]. intros Hf. apply put_spec in Hf. destruct Hf as [Hf|[-> ->]]; [apply D, Hf|exact Ei].
    + intros h Hh. apply in_app_iff in Hh. destruct Hh as [Hh|[<-|[]]]; [apply I3, Hh|]. cbn [h_key h_url h_stamp]. split; [reflexivity|]. split; [|auto].
      intros _. rewrite <- En. exact I1.
  - assert (Hk : hash url <> hash u) by (intros K; apply Hne, Hu; congruence).
    split; [exact I1|]. split.
    + intros r s e He. rewrite set_cache_key in He by exact Hk. apply (I2 _ _ _ He).
    + intros h Hh. apply in_app_iff in Hh. destruct Hh as [Hh|[<-|[]]]; [apply I3, Hh|]. cbn [h_key h_url h_stamp]. split; [reflexivity|]. split; [congruence|exact Hu].
Qed.

Lemma read_ok w h name x w' : read_file w h name = Ok (x, w') ->
  exists d, find_dir (cache w (h_root h) (h_key h)) (h_stamp h) = Some d /\
  ((d name = Some x /\ w' = w) \/
   (d name = None /\ store w (h_url h) name = Some x /\
    w' = World (store w) (set_cache (cache w) (h_root h) (h_key h) (put_dir (cache w (h_root h) (h_key h)) (h_stamp h) (put d name x))) (handles w))).
Proof.
  unfold read_file. destruct (find_dir _ _) as [d|]; [|discriminate]. destruct (d name) as [y|] eqn:Ey.
  - intros E. injection E as <- <-. exists d. auto.
  - destruct (store w (h_url h) name) as [y|] eqn:Es; [|discriminate]. intros E. injection E as <- <-. exists d. auto.
Qed.

Lemma inv_read w url n name seen : inv url seen w -> inv url seen (step w (Read n name)).
Proof.
  intros I. pose proof I as (I1 & I2 & I3). cbn [Fresh_Model.step]. destruct (nth_error (handles w) n) as [h|] eqn:En; [|exact I].
  destruct (read_file w h name) as [[x w']|] eqn:E; [|exact I]. destruct (read_ok _ _ _ _ _ E) as (d & Ed & [[_ ->]|(Hn & Hs & ->)]); [exact I|].
  destruct (I3 h (nth_error_In _ _ En)) as (K1 & K2 & K3). unfold inv. cbn [store cache handles]. split; [exact I1|]. split; [|exact I3].
  intros r s e He. destruct (list_eq_dec N.eq_dec (hash url) (h_key h)) as [Ek|Hk]; [|rewrite set_cache_key in He by exact Hk; apply (I2 _ _ _ He)].
  destruct (Nat.eq_dec r (h_root h)) as [->|]; [|rewrite set_cache_root in He by assumption; apply (I2 _ _ _ He)].
  rewrite Ek, set_cache_same in He. assert (Eu : h_url h = url) by (apply K3; congruence). rewrite <- Ek in He, Ed.
  apply in_put in He. destruct He as [He|[-> ->]]; [apply (I2 _ _ _ He)|].
  split; [apply K2, Eu|]. intros Es f c Hf. apply put_spec in Hf. destruct Hf as [Hf|[-> ->]]; [|rewrite <- Eu; exact Hs].
  apply (I2 _ _ _ (find_in _ _ _ Ed)); assumption.
Qed.

Lemma inv_publish w url u files seen : inv url seen w -> (u = url -> ~ In (name_stamp url files) seen) ->
  inv url (if list_eq_dec N.eq_dec u url then name_stamp url files :: seen else seen) (step w (Publish u files)).
Proof.
  intros (I1 & I2 & I3) Hf. cbn [Fresh_Model.step]. unfold inv, publish. cbn [store cache handles].
  destruct (list_eq_dec N.eq_dec u url) as [->|Hne].
  - destruct (list_eq_dec N.eq_dec url url) as [_|]; [|congruence]. split; [left; reflexivity|]. split.
    + intros root s d Hd. destruct (I2 _ _ _ Hd) as [H1 _]. split; [right; exact H1|]. intros E. destruct (Hf eq_refl). rewrite <- E. exact H1.
    + intros h Hh. destruct (I3 h Hh) as (K1 & K2 & K3). split; [exact K1|]. split; [|exact K3]. intros E. right. apply K2, E.
  - destruct (list_eq_dec N.eq_dec url u) as [E|_]; [congruence|]. auto.
Qed.

Lemma inv_steps url es : ordinary hash url es -> forall w seen, inv url seen w ->
  NoDup (seen ++ map (name_stamp url) (versions url es)) ->
  exists seen', inv url seen' (steps w es) /\ forall x, In x seen' <-> In x seen \/ In x (map (name_stamp url) (versions url es)).
Proof.
  induction es as [|e es IH]; intros [H1 H2] w seen I Hnd; cbn [Fresh_Model.steps].
  - exists seen. split; [exact I|]. intros x. cbn. tauto.
  - assert (O : ordinary hash url es).
    { split; [intros u Hu; apply H1; cbn [flat_map]; apply in_app_iff; auto|intros r i Hi; apply (H2 r i); right; exact Hi]. }
    destruct e as [u files|root u given|n name].
    + pose proof (inv_publish w url u files seen I) as K. cbn [versions] in *. destruct (list_eq_dec N.eq_dec u url) as [->|Hne].
      * cbn [map] in Hnd. assert (Hx : ~ In (name_stamp url files) seen).
        { intros Hin. apply NoDup_remove_2 in Hnd. apply Hnd, in_app_iff. auto. }
        destruct (IH O _ _ (K (fun _ => Hx))) as (seen' & I' & S').
        -- cbn [app]. constructor; [apply NoDup_remove_2 in Hnd; exact Hnd|apply NoDup_remove_1 in Hnd; exact Hnd].
        -- exists seen'. split; [exact I'|]. intros x. rewrite S'. cbn [map In]. tauto.
      * apply IH; [exact O|apply K; congruence|exact Hnd].
    + cbn [versions] in *. apply IH; [exact O| |exact Hnd]. apply inv_open; [exact I| |].
      * intros E. apply H1; [cbn; auto|exact E].
      * intros ->. destruct given as [i|]; [|reflexivity]. exfalso. apply (H2 root i). left. reflexivity.
    + cbn [versions] in *. apply IH; [exact O|apply inv_read, I|exact Hnd].
Qed.

(** The dataset that was opened: its directory is there, alone, as long as nothing is published at the url. *)
Definition live (url : str) (files : folder) (h : handle) (w : world) : Prop :=
  store w url = files /\ h_url h = url /\ h_key h = hash url /\ name_stamp url files = Some (h_stamp h) /\
  exists d, cache w (h_root h) (hash url) = [(h_stamp h, d)].

Lemma live_step url files h w seen e : inv url seen w -> live url files h w -> versions url [e] = [] -> ordinary hash url [e] ->
  live url files h (step w e).
Proof.
  intros I (L1 & L2 & L3 & L4 & d & L5) Hv [H1 H2]. destruct e as [u fs|root u given|n name]; cbn [Fresh_Model.step].
  - cbn [versions] in Hv. destruct (list_eq_dec N.eq_dec u url) as [|Hne]; [discriminate|]. unfold live, publish. cbn [store cache].
    destruct (list_eq_dec N.eq_dec url u) as [E|_]; [congruence|]. split; [exact L1|]. eauto 6.
  - destruct (open_dataset w root u given) as [[g w']|] eqn:E; [|unfold live; eauto 6].
    destruct (open_ok _ _ _ _ _ _ E) as (index & e & Ei & Ec & Hd & i & Hi & -> & ->). unfold live. cbn [store cache].
    split; [exact L1|]. do 3 (split; [assumption|]).
    destruct (list_eq_dec N.eq_dec u url) as [->|Hne].
    + assert (given = None). { destruct given as [j|]; [|reflexivity]. destruct (H2 root j). left. reflexivity. } subst given.
      destruct (Nat.eq_dec (h_root h) root) as [<-|]; [|rewrite set_cache_root by assumption; eauto].
      rewrite set_cache_same. unfold name_stamp in L4. rewrite <- L1, Ei in L4. cbn [option_map] in L4. injection L4 as <-. eauto.
    + rewrite set_cache_key; [eauto|]. intros K. apply Hne, H1; [left; reflexivity|congruence].
  - destruct (nth_error (handles w) n) as [g|] eqn:En; [|unfold live; eauto 6].
    destruct (read_file w g name) as [[x w']|] eqn:E; [|unfold live; eauto 6]. destruct (read_ok _ _ _ _ _ E) as (e & Ed & [[_ ->]|(Hn & Hs & ->)]); [unfold live; eauto 6|].
    unfold live. cbn [store cache]. split; [exact L1|]. do 3 (split; [assumption|]).
    destruct (list_eq_dec N.eq_dec (hash url) (h_key g)) as [Ek|Hk]; [|rewrite set_cache_key by exact Hk; eauto].
    destruct (Nat.eq_dec (h_root h) (h_root g)) as [Er|]; [|rewrite set_cache_root by assumption; eauto].
    rewrite Ek, Er, set_cache_same. rewrite <- Ek, <- Er in *. rewrite L5 in Ed |- *. cbn [find_dir put_dir] in *.
    destruct (list_eq_dec N.eq_dec (h_stamp h) (h_stamp g)); [eauto|discriminate].
Qed.

Lemma steps_app es1 es2 : forall w, steps w (es1 ++ es2) = steps (steps w es1) es2.
Proof. induction es1 as [|e es1 IH]; intros w; cbn [app Fresh_Model.steps]; [reflexivity|apply IH]. Qed.

Lemma versions_app url es1 es2 : versions url (es1 ++ es2) = versions url es1 ++ versions url es2.
Proof.
  induction es1 as [|e es1 IH]; cbn [app versions]; [reflexivity|]. destruct e; try apply IH. destruct (list_eq_dec N.eq_dec _ _); [cbn [app]; rewrite IH; reflexivity|apply IH].
Qed.

Lemma ordinary_app url es1 es2 : ordinary hash url (es1 ++ es2) -> ordinary hash url es1 /\ ordinary hash url es2.
Proof.
  intros [H1 H2]. rewrite flat_map_app in H1. split; (split; [intros u Hu; apply H1, in_app_iff; auto|intros r i Hi; apply (H2 r i), in_app_iff; auto]).
Qed.

Lemma inv_quiet url seen w e : ordinary hash url [e] -> versions url [e] = [] -> inv url seen w -> inv url seen (step w e).
Proof.
  intros O1 V1 I. destruct e as [u fs|root u given|n name].
  - pose proof (inv_publish w url u fs seen I) as K. cbn [versions] in V1. destruct (list_eq_dec N.eq_dec u url); [discriminate|]. apply K. congruence.
  - destruct O1 as [H1 H2]. apply inv_open; [exact I|intros E; apply H1; [left; reflexivity|exact E]|].
    intros ->. destruct given as [i|]; [|reflexivity]. destruct (H2 root i). left. reflexivity.
  - apply inv_read, I.
Qed.

Lemma live_steps url files h es : forall w seen, ordinary hash url es -> inv url seen w -> live url files h w -> versions url es = [] ->
  live url files h (steps w es) /\ inv url seen (steps w es).
Proof.
  induction es as [|e es IH]; intros w seen Ho I L Hv; cbn [Fresh_Model.steps]; [auto|].
  assert (Ho' : ordinary hash url [e] /\ ordinary hash url es) by (apply ordinary_app; exact Ho). destruct Ho' as [O1 O2].
  change (e :: es) with ([e] ++ es) in Hv. rewrite versions_app in Hv. apply app_eq_nil in Hv. destruct Hv as [V1 V2].
  pose proof (inv_quiet url seen w e O1 V1 I) as I'.
  apply (IH _ seen O2 I'); [|exact V2]. apply (live_step url files h w seen e); assumption.
Qed.

Lemma handles_keep es : forall w n h, nth_error (handles w) n = Some h -> nth_error (handles (steps w es)) n = Some h.
Proof.
  induction es as [|e es IH]; intros w n h H; cbn [Fresh_Model.steps]; [exact H|]. apply IH.
  destruct e as [u fs|root u given|k name]; cbn [Fresh_Model.step]; [exact H| |].
  - destruct (open_dataset w root u given) as [[g w']|] eqn:E; [|exact H]. destruct (open_ok _ _ _ _ _ _ E) as (index & e & _ & _ & _ & i & _ & -> & ->).
    cbn [handles]. rewrite nth_error_app1; [exact H|]. apply nth_error_Some. congruence.
  - destruct (nth_error (handles w) k) as [g|]; [|exact H]. destruct (read_file w g name) as [[x w']|] eqn:E; [|exact H].
    destruct (read_ok _ _ _ _ _ E) as (d & _ & [[_ ->]|(_ & _ & ->)]); exact H.
Qed.

Lemma inv_new st url : inv url [name_stamp url (st url)] (new_world st).
Proof. split; [left; reflexivity|]. split; [intros root s d []|intros h []]. Qed.

(** The main theorem. *)
Theorem current st es1 root url es2 index files :
  ordinary hash url (es1 ++ Open root url None :: es2) ->
  NoDup (map (name_stamp url) (st url :: versions url es1)) ->
  versions url es2 = [] ->
  store (steps (new_world st) es1) url = files -> files index_name = Some index ->
  let w1 := steps (new_world st) es1 in
  let w := steps (new_world st) (es1 ++ Open root url None :: es2) in
  exists h, nth_error (handles w) (length (handles w1)) = Some h /\ h_url h = url /\ h_index h = index /\
    forall name, result (read_file w h name) = file_of files name.
Proof.
  intros Ho Hnd Hv Hs Hi w1 w. apply ordinary_app in Ho. destruct Ho as [O1 O2].
  assert (O3 : ordinary hash url es2). { change (Open root url None :: es2) with ([Open root url None] ++ es2) in O2. apply ordinary_app in O2. tauto. }
  destruct (inv_steps url es1 O1 _ _ (inv_new st url) Hnd) as (seen & I & _). fold w1 in I.
  destruct (open_dataset w1 root url None) as [[h w2]|] eqn:E.
  2:{ exfalso. unfold Fresh_Model.open_dataset in E. fold w1 in Hs. rewrite Hs, Hi in E. cbv zeta in E.
      destruct (clear_spec (cache w1 root (hash url)) (stamp_of hash updated_at url index)) as (d & Ed & _). rewrite Ed in E. cbn [find_dir] in E.
      destruct (list_eq_dec N.eq_dec _ _); [|congruence]. destruct (d index_name) eqn:Ej; [rewrite Ej in E; discriminate|].
      unfold put in E at 1. destruct (list_eq_dec N.eq_dec index_name index_name); [discriminate|congruence]. }
  assert (I2 : inv url seen w2).
  { pose proof (inv_open w1 root url url None seen I (fun _ => eq_refl) (fun _ => eq_refl)) as K. cbn [Fresh_Model.step] in K. rewrite E in K. exact K. }
  assert (Ew : w = steps w2 es2). { unfold w. rewrite steps_app. cbn [Fresh_Model.steps Fresh_Model.step]. fold w1. rewrite E. reflexivity. }
  destruct (open_ok _ _ _ _ _ _ E) as (index' & d & Ei & Ec & Hd & i & Hi' & Eh & E2). fold w1 in Hs. rewrite Hs, Hi in Ei. injection Ei as <-.
  assert (L : live url files h w2).
  { unfold live. rewrite Eh, E2. cbn [store cache h_url h_key h_stamp h_root]. split; [exact Hs|]. split; [reflexivity|]. split; [reflexivity|].
    split; [unfold name_stamp; rewrite Hi; reflexivity|]. rewrite set_cache_same. eauto. }
  destruct (live_steps url files h es2 w2 seen O3 I2 L Hv) as [Lw Iw]. rewrite <- Ew in Lw, Iw.
  exists h. split.
  { rewrite Ew. apply handles_keep. rewrite E2. cbn [handles]. rewrite nth_error_app2, Nat.sub_diag by lia. reflexivity. }
  split; [rewrite Eh; reflexivity|]. split.
  { rewrite Eh. cbn [h_index]. destruct (d index_name) as [j|] eqn:Ej; [|exact Hi']. subst i. destruct Hd as [Hd| ->]; [|discriminate].
    destruct I as (_ & I & _). destruct (I _ _ _ Hd) as [_ K]. rewrite Hs in K. unfold name_stamp in K. rewrite Hi in K. specialize (K eq_refl _ _ Ej). congruence. }
  intros name. destruct Lw as (L1 & L2 & L3 & L4 & e & L5). unfold read_file. rewrite L3, L5. cbn [find_dir].
  destruct (list_eq_dec N.eq_dec (h_stamp h) (h_stamp h)) as [_|]; [|congruence]. unfold file_of.
  destruct Iw as (_ & Iw & _). destruct (Iw (h_root h) (h_stamp h) e) as [_ K]; [rewrite L5; left; reflexivity|]. rewrite L1 in K. specialize (K (eq_sym L4)).
  destruct (e name) as [x|] eqn:Ex; [rewrite (K _ _ Ex); reflexivity|]. rewrite L2, L1. destruct (files name); reflexivity.
Qed.

Lemma stamps_names url first vs : stamps_differ updated_at first vs -> NoDup (map (name_stamp url) (first :: vs)).
Proof.
  assert (K : forall v, stamped updated_at v -> name_stamp url v = written_stamp updated_at v).
  { intros v (s & E & Hs). rewrite E. unfold written_stamp, name_stamp, stamp_of in *. destruct (v index_name) as [i|]; [|discriminate]. cbn [option_map].
    rewrite E. destruct (list_eq_dec N.eq_dec s (codes "0")); [contradiction|reflexivity]. }
  intros (H1 & H2 & H3). replace (map (name_stamp url) (first :: vs)) with (map (written_stamp updated_at) (first :: vs)); [exact H3|].
  cbn [map]. f_equal.
  - destruct H1 as [H1|H1]; [unfold written_stamp, name_stamp; rewrite H1; reflexivity|symmetry; apply K, H1].
  - apply map_ext_in. intros v Hv. symmetry. apply K. rewrite Forall_forall in H2. apply H2, Hv.
Qed.

Lemma handle_key es : forall w, Forall (fun h => h_key h = hash (h_url h)) (handles w) -> Forall (fun h => h_key h = hash (h_url h)) (handles (steps w es)).
Proof.
  induction es as [|e es IH]; intros w H; cbn [Fresh_Model.steps]; [exact H|]. apply IH.
  destruct e as [u fs|root u given|k name]; cbn [Fresh_Model.step]; [exact H| |].
  - destruct (open_dataset w root u given) as [[g w']|] eqn:E; [|exact H]. destruct (open_ok _ _ _ _ _ _ E) as (index & e & _ & _ & _ & i & _ & -> & ->).
    cbn [handles]. apply Forall_app. split; [exact H|]. constructor; [reflexivity|constructor].
  - destruct (nth_error (handles w) k) as [g|]; [|exact H]. destruct (read_file w g name) as [[x w']|] eqn:E; [|exact H].
    destruct (read_ok _ _ _ _ _ E) as (d & _ & [[_ ->]|(_ & _ & ->)]); exact H.
Qed.

(** Opening a dataset changes no directory of another url or another root. *)
Theorem open_other w root url given r k :
  r <> root \/ k <> hash url -> cache (step w (Open root url given)) r k = cache w r k.
Proof.
  intros H. cbn [Fresh_Model.step]. destruct (open_dataset w root url given) as [[h w']|] eqn:E; [|reflexivity].
  destruct (open_ok _ _ _ _ _ _ E) as (index & d & _ & _ & _ & i & _ & _ & ->). cbn [cache].
  destruct H as [H|H]; [apply set_cache_root|apply set_cache_key]; exact H.
Qed.

Theorem open_undisturbed st es root url given g name :
  let w := steps (new_world st) es in
  In g (handles w) -> h_root g <> root \/ hash (h_url g) <> hash url ->
  result (read_file (step w (Open root url given)) g name) = result (read_file w g name).
Proof.
  intros w Hg H. pose proof (handle_key es (new_world st) (Forall_nil _)) as K. rewrite Forall_forall in K. specialize (K g Hg).
  unfold read_file. rewrite open_other by (rewrite K; exact H).
  assert (Es : store (step w (Open root url given)) = store w).
  { cbn [Fresh_Model.step]. destruct (open_dataset w root url given) as [[h w']|] eqn:E; [|reflexivity].
    destruct (open_ok _ _ _ _ _ _ E) as (index & d & _ & _ & _ & i & _ & _ & ->). reflexivity. }
  rewrite Es. destruct (find_dir _ _) as [d|]; [|reflexivity]. destruct (d name); [reflexivity|]. destruct (store w (h_url g) name); reflexivity.
Qed.

End P.
