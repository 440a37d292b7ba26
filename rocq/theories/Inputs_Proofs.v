(** Proofs about the inputs of map and optimize. *)
From Coq Require Import String NArith ZArith Lia Permutation.
From Verif Require Import Base Names_Model Names_Proofs Size_Model Paths_Model Paths_Proofs Unzip_Proofs2 Assign_Model Shuffle_Proofs Distrib_Model Distrib_Spec Distrib_Proofs Distrib_Properties Inputs_Model Inputs_Spec.
Local Open Scope list_scope.
Local Open Scope nat_scope.
Local Ltac Zify.zify_post_hook ::= idtac.

Lemma size_real fs p : real fs -> (0 <= size_at fs p)%Z.
Proof. intros H. unfold size_at. pose proof (H p) as K. destruct (fs p) as [|n|n]; [lia|apply K; auto|apply K; auto]. Qed.

Lemma num_bytes_spec fs : real fs -> forall i,
  (forall n, num_bytes fs i = Ok n -> (0 <= n)%Z /\ (forall s, In (Text s) i -> fs s <> File 0 /\ fs s <> Folder 0) /\ ((0 < n)%Z <-> exists s, In (Text s) i /\ fs s <> Missing)) /\
  (forall e, num_bytes fs i = Err e -> e = RuntimeError /\ exists s, In (Text s) i /\ (fs s = File 0 \/ fs s = Folder 0)).
Proof.
  intros R. induction i as [|l i [IH1 IH2]]; cbn [num_bytes].
  - split; [|discriminate]. intros n E. injection E as <-. split; [lia|]. split; [intros s []|]. split; [lia|intros (s & [] & _)].
  - destruct l as [s|k].
    + unfold exists_at. destruct (fs s) eqn:Ef.
      * split.
        -- intros n E. destruct (IH1 n E) as (A & B & C). split; [exact A|]. split.
           ++ intros t [Ht|Ht]; [injection Ht as <-; rewrite Ef; split; discriminate|apply B, Ht].
           ++ rewrite C. split; intros (t & Ht & Hn); [exists t; split; [right; exact Ht|exact Hn]|]. destruct Ht as [Ht|Ht]; [injection Ht as <-; congruence|]. exists t. auto.
        -- intros e E. destruct (IH2 e E) as (A & t & Ht & Hn). split; [exact A|]. exists t. split; [right; exact Ht|exact Hn].
      * assert (Es : size_at fs s = size) by (unfold size_at; rewrite Ef; reflexivity). pose proof (size_real fs s R) as Rs. rewrite Es in *.
        destruct (Z.eqb_spec size 0) as [->|Hz].
        -- split; [discriminate|]. intros e E. injection E as <-. split; [reflexivity|]. exists s. split; [left; reflexivity|right; exact Ef].
        -- destruct (num_bytes fs i) as [m|e'] eqn:Ei; cbn [bind]; (split; [|intros e E]); [|discriminate|discriminate|].
           ++ intros n E. injection E as <-. destruct (IH1 m eq_refl) as (A & B & C). split; [lia|]. split.
              ** intros t [Ht|Ht]; [injection Ht as <-; rewrite Ef; split; congruence|apply B, Ht].
              ** split; [intros _; exists s; split; [left; reflexivity|congruence]|intros _; lia].
           ++ injection E as <-. destruct (IH2 _ eq_refl) as (A & t & Ht & Hn). split; [exact A|]. exists t. split; [right; exact Ht|exact Hn].
      * assert (Es : size_at fs s = size) by (unfold size_at; rewrite Ef; reflexivity). pose proof (size_real fs s R) as Rs. rewrite Es in *.
        destruct (Z.eqb_spec size 0) as [->|Hz].
        -- split; [discriminate|]. intros e E. injection E as <-. split; [reflexivity|]. exists s. split; [left; reflexivity|left; exact Ef].
        -- destruct (num_bytes fs i) as [m|e'] eqn:Ei; cbn [bind]; (split; [|intros e E]); [|discriminate|discriminate|].
           ++ intros n E. injection E as <-. destruct (IH1 m eq_refl) as (A & B & C). split; [lia|]. split.
              ** intros t [Ht|Ht]; [injection Ht as <-; rewrite Ef; split; congruence|apply B, Ht].
              ** split; [intros _; exists s; split; [left; reflexivity|congruence]|intros _; lia].
           ++ injection E as <-. destruct (IH2 _ eq_refl) as (A & t & Ht & Hn). split; [exact A|]. exists t. split; [right; exact Ht|exact Hn].
    + split.
      * intros n E. destruct (IH1 n E) as (A & B & C). split; [exact A|]. split.
        -- intros t [Ht|Ht]; [discriminate|apply B, Ht].
        -- rewrite C. split; intros (t & Ht & Hn); [exists t; split; [right; exact Ht|exact Hn]|]. destruct Ht as [Ht|Ht]; [discriminate|]. exists t. auto.
      * intros e E. destruct (IH2 e E) as (A & t & Ht & Hn). split; [exact A|]. exists t. split; [right; exact Ht|exact Hn].
Qed.

Lemma filesizes_ok fs items : real fs -> Forall (readable fs) items ->
  exists sizes, item_filesizes fs items = Ok sizes /\ length sizes = length items /\ Forall (fun w => (0 < w)%Z) sizes.
Proof.
  intros R H. induction H as [|i items (H1 & H2) _ (sizes & E & L & F)]; [exists []; repeat split; constructor|]. cbn [item_filesizes].
  destruct (num_bytes_spec fs R i) as [K1 K2]. destruct (num_bytes fs i) as [n|e] eqn:En.
  - cbn [bind]. rewrite E. cbn [bind]. exists (n :: sizes). split; [reflexivity|]. split; [cbn [length]; rewrite L; reflexivity|]. constructor; [|exact F].
    apply K1; [reflexivity|exact H1].
  - exfalso. destruct (K2 e eq_refl) as (_ & s & Hs & Hf). destruct (H2 s Hs). destruct Hf; contradiction.
Qed.

Lemma filesizes_bad fs items : real fs -> ~ Forall (readable fs) items ->
  item_filesizes fs items = Err RuntimeError \/ exists sizes, item_filesizes fs items = Ok sizes /\ Exists (fun w => (w <= 0)%Z) sizes.
Proof.
  intros R. induction items as [|i items IH]; intros H; [destruct H; constructor|]. cbn [item_filesizes].
  destruct (num_bytes_spec fs R i) as [K1 K2]. destruct (num_bytes fs i) as [n|e] eqn:En; cbn [bind].
  - destruct (K1 n eq_refl) as (A & B & C). destruct (Z.ltb_spec 0 n) as [Hn|Hn].
    + assert (Hi : readable fs i) by (split; [apply C, Hn|exact B]).
      destruct IH as [->|(sizes & -> & Hs)]; [intros F; apply H; constructor; assumption|left; reflexivity|right]. cbn [bind]. eexists. split; [reflexivity|]. right. exact Hs.
    + destruct (item_filesizes fs items) as [sizes|e] eqn:Es; cbn [bind].
      * right. eexists. split; [reflexivity|]. left. lia.
      * left. f_equal. clear - Es R. revert e Es. induction items as [|j items IHi]; intros e Es; [discriminate|]. cbn [item_filesizes] in Es.
        destruct (num_bytes_spec fs R j) as [_ K2]. destruct (num_bytes fs j); cbn [bind] in Es; [|injection Es as <-; apply K2; reflexivity].
        destruct (item_filesizes fs items); cbn [bind] in Es; [discriminate|]. injection Es as <-. apply IHi. reflexivity.
  - left. f_equal. apply (K2 e eq_refl).
Qed.

Lemma num_bytes_same fs fs' i : (forall s, In (Text s) i -> fs s = fs' s) -> num_bytes fs i = num_bytes fs' i.
Proof.
  induction i as [|l i IH]; intros H; [reflexivity|]. cbn [num_bytes]. rewrite IH by (intros s Hs; apply H; right; exact Hs).
  destruct l as [s|k]; [|reflexivity]. unfold exists_at, size_at. rewrite (H s (or_introl eq_refl)). reflexivity.
Qed.
Lemma filesizes_same fs fs' items : same_files fs fs' items -> item_filesizes fs items = item_filesizes fs' items.
Proof.
  induction items as [|i items IH]; intros H; [reflexivity|]. cbn [item_filesizes]. rewrite IH by (intros j s Hj; apply H; right; exact Hj).
  rewrite (num_bytes_same fs fs' i); [reflexivity|]. intros s. apply H. left. reflexivity.
Qed.

(** Balance of the shares. *)
Lemma zsum_perm l l' : Permutation l l' -> zsum l = zsum l'.
Proof. intros P. induction P; cbn [zsum]; lia. Qed.

Lemma combine_map {A} (wt : A -> Z) l x : In x (combine l (map wt l)) -> snd x = wt (fst x).
Proof. induction l as [|a l IH]; [intros []|]. cbn. intros [<-|H]; [reflexivity|apply IH, H]. Qed.

Theorem weighted_balance (wt : item -> Z) perm nodes nw items W :
  (forall w n, Permutation (perm w n) (seq 0 n)) -> 1 <= nodes -> 1 <= nw -> Forall (fun i => (0 < wt i <= W)%Z) items ->
  exists bins, pack_greedily items (map wt items) (nodes * nw) = Ok bins /\
  forall r, r < nodes -> exists out, distribute perm nodes r nw items (Some (map wt items)) None = Ok out /\
    forall share, In share out -> exists b, In b bins /\ weight_of wt share = snd b.
Proof.
  intros Hp Hn Hw HW.
  assert (HF : Forall (fun w => (0 < w)%Z) (map wt items)). { apply Forall_forall. intros w Hin. apply in_map_iff in Hin. destruct Hin as (i & <- & Hi). rewrite Forall_forall in HW. apply HW, Hi. }
  destruct (pack_ok items (map wt items) (nodes * nw) ltac:(rewrite map_length; reflexivity) ltac:(nia) HF) as (placed & E & Lp & P & _).
  eexists. split; [exact E|]. intros r Hr. cbn [distribute]. rewrite map_length, Nat.eqb_refl. cbn [negb]. unfold map_weighted. rewrite E. cbn [bind].
  eexists. split; [reflexivity|]. intros share Hs. apply in_map_iff in Hs. destruct Hs as (w & <- & Hw'). apply in_seq in Hw'.
  set (bins := map (fun p : list (item * Z) => (map fst p, zsum (map snd p))) placed) in *.
  destruct (nth_error bins w) as [b|] eqn:Eb.
  2:{ exfalso. apply nth_error_None in Eb. unfold bins in Eb. rewrite map_length, Lp in Eb. nia. }
  exists b. split; [apply (nth_error_In _ _ Eb)|]. unfold weight_of.
  rewrite (zsum_perm _ _ (Permutation_map wt (permute_Permutation _ _ (Hp w (length (fst b)))))).
  apply nth_error_In in Eb. unfold bins in Eb. apply in_map_iff in Eb. destruct Eb as (p & <- & Hin). cbn [fst snd]. f_equal. rewrite map_map. apply map_ext_in. intros x Hx. symmetry.
  apply (combine_map wt items). apply (Permutation_in _ P). apply in_concat. eauto.
Qed.

(** The shared map. *)
Lemma find_app_none {A} (f : A -> bool) l m : find f l = None -> find f (l ++ m) = find f m.
Proof. induction l as [|x l IH]; [reflexivity|]. cbn. destruct (f x); [discriminate|exact IH]. Qed.
Lemma find_app_some {A} (f : A -> bool) l m x : find f l = Some x -> find f (l ++ m) = Some x.
Proof. induction l as [|y l IH]; [discriminate|]. cbn. destruct (f y); [intros E; exact E|exact IH]. Qed.

Definition has (key : string) (x : string * str) : bool := if string_dec (fst x) key then true else false.

Lemma requests_spec : forall rs m got, let '(m', out) := fold_left (request true) rs (m, got) in
  (forall k x, find (has k) m = Some x -> find (has k) m' = Some x) /\
  (forall k x, find (has k) m' = Some x -> find (has k) m = Some x \/ In x rs /\ fst x = k) /\
  exists new, out = got ++ new /\ length new = length rs /\
    forall i k v, nth_error rs i = Some (k, v) -> exists g, nth_error new i = Some g /\ exists x, find (has k) m' = Some x /\ snd x = g.
Proof.
  induction rs as [|[k v] rs IH]; intros m got; cbn [fold_left].
  - split; [auto|]. split; [auto|]. exists []. split; [symmetry; apply app_nil_r|]. split; [reflexivity|]. intros i k v E. destruct i; discriminate.
  - unfold request at 2. cbn [fst snd broadcast]. unfold set_and_get. fold (has k). change (fun x : string * str => if string_dec (fst x) k then true else false) with (has k).
    destruct (find (has k) m) as [x|] eqn:Ex.
    + specialize (IH m (got ++ [snd x])). destruct (fold_left _ rs _) as [m' out]. destruct IH as (A & B & new & E & L & C).
      split; [exact A|]. split; [intros j y Hy; destruct (B j y Hy) as [H|[H1 H2]]; [left; exact H|right; split; [right; exact H1|exact H2]]|].
      exists (snd x :: new). split; [rewrite E, <- app_assoc; reflexivity|]. split; [cbn; rewrite L; reflexivity|].
      intros [|i] k' v' Ei; cbn [nth_error] in *; [|apply (C i k' v' Ei)]. injection Ei as <- <-. exists (snd x). split; [reflexivity|]. exists x. split; [apply A, Ex|reflexivity].
    + specialize (IH (m ++ [(k, v)]) (got ++ [v])). destruct (fold_left _ rs _) as [m' out]. destruct IH as (A & B & new & E & L & C).
      split; [intros j y Hy; apply A; apply find_app_some, Hy|]. split.
      * intros j y Hy. destruct (B j y Hy) as [H|[H1 H2]]; [|right; split; [right; exact H1|exact H2]].
        destruct (find (has j) m) as [z|] eqn:Ez; [rewrite (find_app_some _ _ _ _ Ez) in H; left; exact H|].
        rewrite find_app_none in H by exact Ez. cbn [find] in H. unfold has in H at 1. cbn [fst] in H. destruct (string_dec k j) as [->|]; [|discriminate].
        injection H as <-. right. split; [left; reflexivity|reflexivity].
      * exists (v :: new). split; [rewrite E, <- app_assoc; reflexivity|]. split; [cbn; rewrite L; reflexivity|].
        intros [|i] k' v' Ei; cbn [nth_error] in *; [|apply (C i k' v' Ei)]. injection Ei as <- <-. exists v. split; [reflexivity|]. exists (k, v). split; [|reflexivity]. apply A.
        rewrite find_app_none by exact Ex. cbn [find]. unfold has. cbn [fst]. destruct (string_dec k k); [reflexivity|congruence].
Qed.

(** The input directory that is found. *)
Lemma split_spell : forall parts, proper parts -> parts <> [] -> split slash (spell parts) = [] :: parts.
Proof.
  assert (H : forall parts, proper parts -> forall p, ~ In slash p -> split slash (p ++ spell parts) = p :: parts).
  { induction parts as [|q parts IH]; intros HF p Hp; unfold spell; cbn [map concat]; [rewrite app_nil_r; apply split_none, Hp|].
    inversion HF; subst. cbn [app]. rewrite split_at by exact Hp. f_equal. apply IH; [assumption|]. apply H1. }
  intros parts HF _. apply (H parts HF []). intros [].
Qed.

Lemma join_parts : forall parts a, proper parts -> a <> [] -> ends [slash] a = false -> fold_left join parts a = a ++ spell parts.
Proof.
  induction parts as [|p parts IH]; intros a HF Ha He; cbn [fold_left]; unfold spell; cbn [map concat]; [rewrite app_nil_r; reflexivity|].
  inversion HF as [|? ? (Hp & Hs) HF']; subst. assert (E : join a p = a ++ slash :: p).
  { unfold join. destruct (starts [slash] p) eqn:E. { apply starts_iff in E. destruct E as (r & ->). destruct Hs. left. reflexivity. }
    destruct a; [congruence|]. rewrite He. reflexivity. }
  rewrite E, IH; [|exact HF'| |].
  - fold (spell parts). rewrite <- app_assoc. reflexivity.
  - destruct a; discriminate.
  - destruct (ends [slash] (a ++ slash :: p)) eqn:E'; [|reflexivity]. apply ends_iff in E'. destruct E' as (r & E'). exfalso.
    destruct (exists_last Hp) as (p' & x & ->). rewrite app_comm_cons, app_assoc in E'. apply app_inj_tail in E'. destruct E' as [_ ->]. apply Hs, in_or_app. right. left. reflexivity.
Qed.

Lemma first4_spell parts : proper parts -> parts <> [] -> first4 (spell parts) = spell (firstn 3 parts).
Proof.
  intros HF Hn. unfold first4. rewrite split_spell by assumption. destruct parts as [|p parts]; [congruence|]. change (firstn 4 ([] :: p :: parts)) with ([] :: p :: firstn 2 parts). change (firstn 3 (p :: parts)) with (p :: firstn 2 parts). cbn [fold_left].
  inversion HF as [|? ? (Hp & Hs) HF']; subst.
  assert (Hst : starts [slash] p = false). { destruct (starts [slash] p) eqn:E; [|reflexivity]. apply starts_iff in E. destruct E as (r & ->). destruct Hs. left. reflexivity. }
  assert (E0 : join [] p = p) by (unfold join; rewrite Hst; reflexivity). change (join [] []) with (@nil N). rewrite E0.
  rewrite join_parts; [| |exact Hp|].
  - unfold join at 1. destruct (starts [slash] (p ++ _)) eqn:E.
    { apply starts_iff in E. destruct E as (r & E). destruct p as [|x p]; [congruence|]. injection E as -> _. destruct Hs. left. reflexivity. }
    reflexivity.
  - unfold proper in *. rewrite Forall_forall in *. intros x Hx. apply HF'. revert Hx. clear. revert parts. generalize 2 as n. induction n as [|n IHn]; intros parts; cbn [firstn]; [intros []|].
    destruct parts; [intros []|]. intros [->|H]; [left; reflexivity|right; apply IHn, H].
  - destruct (ends [slash] p) eqn:E; [|reflexivity]. apply ends_iff in E. destruct E as (r & ->). destruct Hs. apply in_or_app. right. left. reflexivity.
Qed.

Lemma below_firstn parts n : proper parts -> below (spell (firstn n parts)) (spell parts).
Proof.
  intros HF. exists (spell (skipn n parts)). split.
  - unfold spell. rewrite <- concat_app, <- map_app, firstn_skipn. reflexivity.
  - destruct (skipn n parts) as [|p ps]; [left; reflexivity|right]. exists (p ++ spell ps). reflexivity.
Qed.

Lemma dirname_at a b : ~ In slash b -> a <> [] -> ends [slash] a = false -> dirname (a ++ slash :: b) = a.
Proof.
  intros Hb Ha He. unfold dirname. assert (E : after_slash (rev (a ++ slash :: b)) = slash :: rev a).
  { rewrite rev_app_distr. cbn [rev]. rewrite <- app_assoc. cbn [app]. assert (H : ~ In slash (rev b)) by (rewrite <- in_rev; exact Hb). revert H. generalize (rev b) as l. clear.
    induction l as [|x l IH]; intros H; cbn [app after_slash]; [rewrite N.eqb_refl; reflexivity|]. destruct (N.eqb_spec x slash) as [->|_]; [destruct H; left; reflexivity|]. apply IH. intros K. apply H. right. exact K. }
  rewrite E. cbn [strip_slashes]. rewrite N.eqb_refl. destruct (exists_last Ha) as (a' & x & ->). rewrite rev_app_distr. cbn [rev app strip_slashes].
  destruct (N.eqb_spec x slash) as [->|_]; [|cbn [rev]; rewrite rev_involutive; reflexivity].
  exfalso. assert (ends [slash] (a' ++ [slash]) = true) by (apply ends_iff; exists a'; reflexivity). congruence.
Qed.

Lemma split_head c s : In c s -> exists a b t, split c s = a :: b :: t.
Proof.
  intros H. apply in_split in H. destruct H as (l & r & ->). induction l as [|x l (a & b & t & E)]; cbn [app split].
  - rewrite N.eqb_refl. destruct (split c r) as [|b t] eqn:E; [destruct (split_nonempty _ _ E)|]. eauto.
  - destruct (x =? c)%N; rewrite E; eauto.
Qed.

Lemma names_paths fs i : names fs i -> paths_of fs i <> [].
Proof.
  intros (s & Hin & H) E. unfold paths_of in E. assert (K : In s (flat_map (fun l => match l with Text s => if exists_at fs s || is_remote_file s then [s] else [] | Other _ => [] end) i)).
  { apply in_flat_map. exists (Text s). split; [exact Hin|]. cbv beta iota. assert (exists_at fs s || is_remote_file s = true) as ->; [|left; reflexivity].
    apply orb_true_iff. destruct H as [H|[(r & ->)|(r & ->)]].
    - left. unfold exists_at. destruct (fs s); congruence.
    - right. unfold is_remote_file. change (codes "s3://" ++ r) with (codes "s3" ++ colon :: codes "//" ++ r). rewrite split_at by (vm_compute; intros [K|[K|[]]]; discriminate).
      destruct (split colon (codes "//" ++ r)) eqn:E'; [destruct (split_nonempty _ _ E')|]. reflexivity.
    - right. unfold is_remote_file. change (codes "gs://" ++ r) with (codes "gs" ++ colon :: codes "//" ++ r). rewrite split_at by (vm_compute; intros [K|[K|[]]]; discriminate).
      destruct (split colon (codes "//" ++ r)) eqn:E'; [destruct (split_nonempty _ _ E')|]. reflexivity. }
  rewrite E in K. destruct K.
Qed.

Lemma lower_ms c : lower c = 115%N -> In c [115; 83]%N.
Proof. unfold lower. destruct (_ && _)%bool eqn:E; intros H; cbn [In]; [right; left; lia|left; lia]. Qed.
Lemma lower_g c : lower c = 103%N -> In c [103; 71]%N.
Proof. unfold lower. destruct (_ && _)%bool eqn:E; intros H; cbn [In]; [right; left; lia|left; lia]. Qed.
Lemma lower_3 c : lower c = 51%N -> c = 51%N.
Proof. unfold lower. destruct (_ && _)%bool eqn:E; intros H; [|exact H]. apply andb_true_iff in E. destruct E as [E _]. apply N.leb_le in E. lia. Qed.

Lemma not_remote s : ~ store_like s -> is_remote_file s = false.
Proof.
  intros H. unfold is_remote_file. destruct (in_dec N.eq_dec colon s) as [Hc|Hc]; [|rewrite split_none by exact Hc; reflexivity].
  assert (E : exists a r, s = a ++ colon :: r /\ ~ In colon a).
  { clear H. induction s as [|x s IH]; [destruct Hc|]. destruct (N.eq_dec x colon) as [->|Hn]; [exists [], s; split; [reflexivity|intros []]|].
    destruct Hc as [->|Hc]; [congruence|]. destruct (IH Hc) as (a & r & -> & Ha). exists (x :: a), r. split; [reflexivity|]. intros [K|K]; [congruence|exact (Ha K)]. }
  destruct E as (a & r & -> & Ha). rewrite split_at by exact Ha. destruct (split colon r) as [|q qs] eqn:Er; [reflexivity|].
  apply not_true_iff_false. intros X. apply existsb_exists in X. destruct X as (x & Hx & X). destruct (list_eq_dec N.eq_dec (map lower a) (codes x)) as [Ea|]; [|discriminate X].
  apply H. destruct Hx as [<-|[<-|[]]]; destruct a as [|c1 [|c2 [|c3 a]]]; try discriminate Ea; injection Ea as E1 E2; exists c1, c2, r; (split; [reflexivity|]).
  - left. split; [exact (lower_ms _ E1)|exact (lower_3 _ E2)].
  - right. split; [exact (lower_g _ E1)|exact (lower_ms _ E2)].
Qed.

Lemma plain_paths fs i : plain fs i -> paths_of fs i = [].
Proof.
  intros H. unfold paths_of. induction i as [|l i IH]; [reflexivity|]. cbn [flat_map]. rewrite IH by (intros s Hs; apply H; right; exact Hs). rewrite app_nil_r.
  destruct l as [s|k]; [|reflexivity]. destruct (H s (or_introl eq_refl)) as [E Hc]. unfold exists_at. rewrite E. cbn [orb]. rewrite (not_remote _ Hc). reflexivity.
Qed.
