(** Proofs about Parquet directories. *)
From Coq Require Import String NArith Lia.
From Verif Require Import Base Names_Model Size_Model Paths_Model Format_Model Format_Proofs Assign_Model Config_Model Config_Spec Config_Properties Unzip_Proofs2 Parquet_Model Parquet_Spec.
Local Open Scope list_scope.
Local Open Scope nat_scope.
Local Ltac Zify.zify_post_hook ::= idtac.

Lemma from_le32 x : (x < two32)%N -> from_le (le32 x) = x.
Proof.
  intros H. unfold le32. rewrite (N.mod_small x) by exact H. cbn [from_le].
  rewrite <- (un32_le32 x H) at 5. unfold un32. lia.
Qed.

Lemma skipn_app_len {A} (l m : list A) n : n = length l -> skipn n (l ++ m) = m.
Proof. intros ->. rewrite skipn_app, skipn_all, Nat.sub_diag. reflexivity. Qed.

Lemma footer_read body footer magic : length magic = 4 -> (N.of_nat (length footer) < two32)%N ->
  read_footer (body ++ footer ++ le32 (N.of_nat (length footer)) ++ magic) = Ok (footer ++ le32 (N.of_nat (length footer)) ++ magic).
Proof.
  intros Hm Hf. unfold read_footer. cbv zeta. rewrite !app_length, le32_length, Hm.
  destruct (Nat.ltb_spec (length body + (length footer + (4 + 4))) 8); [lia|].
  replace (skipn (length body + (length footer + (4 + 4)) - 8) (body ++ footer ++ le32 (N.of_nat (length footer)) ++ magic))
    with (le32 (N.of_nat (length footer)) ++ magic).
  2:{ symmetry. rewrite app_assoc. apply skipn_app_len. rewrite app_length. lia. }
  replace (firstn 4 (le32 (N.of_nat (length footer)) ++ magic)) with (le32 (N.of_nat (length footer))).
  2:{ unfold le32. reflexivity. }
  rewrite from_le32, Nat2N.id by exact Hf.
  destruct (Nat.ltb_spec (length body + (length footer + (4 + 4))) (length footer + 8)); [lia|].
  f_equal. apply skipn_app_len. lia.
Qed.

Lemma task_ok pq s e m : e_folder e = false -> parquet_file pq (e_data e) m ->
  task pq s e = Ok (basename (e_name e), length (e_data e), (fst m, map snd (snd m))).
Proof.
  intros Hf (body & footer & magic & E & Hm & Hl & H1 & H2). unfold task. rewrite Hf. destruct s.
  - rewrite H1. reflexivity.
  - rewrite E at 1. rewrite footer_read by assumption. cbn [bind]. rewrite H2. reflexivity.
  - rewrite E at 1. rewrite footer_read by assumption. cbn [bind]. rewrite H2. reflexivity.
Qed.

Lemma index_loop_ok pq s types : forall l ms fmt, (fmt = [] \/ fmt = types) ->
  Forall2 (fun e m => e_folder e = false /\ parquet_file pq (e_data e) m /\ map snd (snd m) = types) l ms ->
  exists fmt', index_loop pq s fmt l = Ok (map (fun x => described (fst x) (snd x)) (combine l ms), fmt').
Proof.
  induction l as [|e l IH]; intros ms fmt Hfmt H; inversion H as [|? m ? ms' (H1 & H2 & H3) H4]; subst; cbn [index_loop combine map].
  - eauto.
  - rewrite (task_ok pq s e m H1 H2). cbn [bind]. destruct m as [rows cols]. cbn [fst snd] in *. set (ts := map snd cols) in *.
    replace (_ && _) with false.
    2:{ destruct Hfmt as [-> | ->]; [reflexivity|]. destruct (list_eq_dec (list_eq_dec N.eq_dec) ts ts); [|congruence]. rewrite andb_false_r. reflexivity. }
    destruct (IH ms' ts (or_intror eq_refl) H4) as [fmt' ->]. cbn [bind fst snd]. eauto.
Qed.

Theorem index_ok pq s listing ms types :
  Forall2 (fun e m => e_folder e = false /\ parquet_file pq (e_data e) m /\ map snd (snd m) = types) (filter (chosen s) listing) ms ->
  exists fmt, index_parquet pq s listing = Ok (map (fun x => described (fst x) (snd x)) (combine (filter (chosen s) listing) ms), fmt).
Proof. intros H. apply (index_loop_ok pq s types); auto. Qed.

Lemma chosen_iff s e : (s <> Cloud -> named_parquet e -> e_folder e = false) -> chosen s e = true <-> named_parquet e /\ e_folder e = false.
Proof.
  intros H. unfold named_parquet in *. pose proof (ends_iff parquet_suffix (e_name e)) as K. fold parquet_suffix in *. destruct s; cbn [chosen].
  - rewrite K. split; [intros E; split; [exact E|]; apply H; [discriminate|exact E]|tauto].
  - rewrite andb_true_iff, negb_true_iff, K. tauto.
  - rewrite K. split; [intros E; split; [exact E|]; apply H; [discriminate|exact E]|tauto].
Qed.

Lemma chosen_files s listing files : (s <> Cloud -> forall e, In e listing -> named_parquet e -> e_folder e = false) ->
  parquet_files listing files -> filter (chosen s) listing = files.
Proof.
  intros H P. induction P as [|e l l' H1 H2 P IH|e l l' H1 P IH]; [reflexivity| |]; cbn [filter].
  - rewrite (proj2 (chosen_iff s e ltac:(auto)) (conj H1 H2)), IH; [reflexivity|]. intros Hs x Hx. apply H; [exact Hs|right; exact Hx].
  - destruct (chosen s e) eqn:E; [|apply IH; intros Hs x Hx; apply H; [exact Hs|right; exact Hx]].
    destruct H1. apply (chosen_iff s e); [|exact E]. intros Hs. apply H; [exact Hs|left; reflexivity].
Qed.

(** If the index is made, all files have the same types of columns. *)
Lemma index_loop_types pq s : forall l ms fmt r, Forall2 (fun e (m : metadata) => task pq s e = Ok (basename (e_name e), length (e_data e), (fst m, map snd (snd m))) /\ snd m <> []) l ms ->
  index_loop pq s fmt l = Ok r -> (fmt <> [] -> Forall (fun m : metadata => map snd (snd m) = fmt) ms) /\ forall m m' : metadata, In m ms -> In m' ms -> map snd (snd m) = map snd (snd m').
Proof.
  induction l as [|e l IH]; intros ms fmt r H E; inversion H as [|? m ? ms' (H1 & H2) H4]; subst; cbn [index_loop] in E.
  - split; [constructor|intros m m' []].
  - rewrite H1 in E. cbn [bind] in E. destruct m as [rows cols]. cbn [fst snd] in *. set (types := map snd cols) in *. assert (Ht : types <> []) by (destruct cols; [congruence|discriminate]). destruct (negb _ && negb _) eqn:Eb; [discriminate|].
    destruct (index_loop pq s types l) as [r'|] eqn:E'; cbn [bind] in E; [|discriminate].
    destruct (IH _ _ _ H4 E') as [K1 _]. specialize (K1 Ht). rewrite Forall_forall in K1. split.
    + intros Hf. assert (Et : types = fmt).
      { destruct fmt; [congruence|]. cbn [length Nat.eqb negb andb] in Eb. match type of Eb with context [list_eq_dec ?a ?b ?c] => destruct (list_eq_dec a b c) end; [congruence|discriminate]. }
      constructor; [exact Et|]. apply Forall_forall. intros x Hx. rewrite <- Et. apply K1, Hx.
    + assert (G : forall m : metadata, In m ((rows, cols) :: ms') -> map snd (snd m) = types). { intros m [<-|Hm]; [reflexivity|apply K1, Hm]. }
      intros m m' Hm Hm'. rewrite (G m Hm), (G m' Hm'). reflexivity.
Qed.

(** ** Rows *)

Lemma combine_nth {A B} (l : list A) (m : list B) i x y : nth_error l i = Some x -> nth_error m i = Some y -> nth_error (combine l m) i = Some (x, y).
Proof.
  revert m i. induction l as [|a l IH]; intros m i; [destruct i; discriminate|]. destruct m as [|b m]; [destruct i; discriminate|].
  destruct i as [|i]; cbn; [intros E1 E2; injection E1 as ->; injection E2 as ->; reflexivity|apply IH].
Qed.

Lemma map_const_seq {A} (l : list A) (pre : list A) :
  map (fun i => nth_error (pre ++ l) i) (seq (length pre) (length l)) = map Some l.
Proof.
  revert pre. induction l as [|x l IH]; intros pre; [reflexivity|]. cbn [length seq map]. f_equal.
  - rewrite nth_error_app2, Nat.sub_diag by lia. reflexivity.
  - specialize (IH (pre ++ [x])). rewrite app_length in IH. cbn [length] in IH. replace (length pre + 1) with (S (length pre)) in IH by lia.
    rewrite <- IH. apply map_ext. intros i. rewrite <- app_assoc. reflexivity.
Qed.

Definition pick {A} (rows : list (list A)) (x : nat * nat) : option A :=
  match nth_error rows (fst x) with Some l => nth_error l (snd x) | None => None end.

Lemma samples_rows {A} (rows pre : list (list A)) :
  map (pick (pre ++ rows)) (samples (seq (length pre) (length rows)) (map (fun l => (0, length l)) rows)) = map Some (concat rows).
Proof.
  revert pre. induction rows as [|l rows IH]; intros pre; [reflexivity|].
  cbn [length seq map concat]. unfold samples. cbn [combine flat_map fst snd]. rewrite !map_app. f_equal.
  - rewrite map_map, Nat.sub_0_r. rewrite <- (map_const_seq l []). cbn [length app]. apply map_ext. intros i. unfold pick. cbn [fst snd].
    rewrite nth_error_app2, Nat.sub_diag by lia. reflexivity.
  - specialize (IH (pre ++ [l])). rewrite app_length in IH. cbn [length] in IH. replace (length pre + 1) with (S (length pre)) in IH by lia.
    rewrite <- app_assoc in IH. exact IH.
Qed.

Lemma numbered_files chunks : map k_file (numbered chunks) = seq 0 (length chunks).
Proof.
  unfold numbered. rewrite map_map. cbn [k_file]. generalize 0. induction chunks as [|c chunks IH]; intros n; [reflexivity|].
  cbn [length seq combine map fst]. f_equal. apply IH.
Qed.

Lemma numbered_valid chunks : valid_dataset ByItem (numbered chunks) (seq 0 (length chunks)) (map (fun c => (0, p_rows c)) chunks).
Proof.
  split; [rewrite numbered_files; apply seq_NoDup|].
  assert (G : forall cs n, (forall i c, nth_error cs i = Some c -> In (Ci (n + i) (p_rows c) None) (numbered chunks)) ->
    Forall2 (fun f r => exists c k, In c (numbered chunks) /\ k_file c = f /\ num_samples ByItem c = Ok k /\ roi_in k r) (seq n (length cs)) (map (fun c => (0, p_rows c)) cs)).
  { induction cs as [|c cs IH]; intros n H; cbn [length seq map]; constructor.
    - exists (Ci n (p_rows c) None), (p_rows c). split; [rewrite <- (Nat.add_0_r n); apply H; reflexivity|]. repeat split; cbn; lia.
    - apply IH. intros i x Hx. replace (S n + i) with (n + S i) by lia. apply H. exact Hx. }
  apply G. intros i c Hc. unfold numbered. apply in_map_iff. exists (i, c). split; [reflexivity|]. apply (nth_error_In _ i).
  apply combine_nth; [|exact Hc]. assert (Hi : i < length chunks) by (apply nth_error_Some; congruence).
  rewrite nth_error_nth' with (d := 0) by (rewrite seq_length; exact Hi). rewrite seq_nth by exact Hi. reflexivity.
Qed.

Theorem rows_ok {A} (chunks : list pchunk) (rows : list (list A)) i :
  map p_rows chunks = map (@length A) rows ->
  row_at chunks rows i = match at_index (concat rows) i with Some r => Ok r | None => Err ValueError end.
Proof.
  intros H. unfold row_at. rewrite C20_random_access by apply numbered_valid.
  assert (El : length chunks = length rows) by (rewrite <- (map_length p_rows), H, map_length; reflexivity).
  assert (Er : map (fun c => (0, p_rows c)) chunks = map (fun l => (0, length l)) rows).
  { transitivity (map (fun n => (0, n)) (map p_rows chunks)); [rewrite map_map; reflexivity|]. rewrite H, map_map. reflexivity. }
  rewrite Er, El. pose proof (samples_rows rows []) as S. cbn [app length] in S. unfold at_index. destruct (i <? 0)%Z; [reflexivity|].
  set (k := Z.to_nat i) in *. pose proof (f_equal (fun l => nth_error l k) S) as K. cbn beta in K.
  destruct (nth_error (samples (seq 0 (length rows)) (map (fun l => (0, length l)) rows)) k) as [x|] eqn:Ex.
  - rewrite (map_nth_error _ _ _ Ex) in K. cbn [bind]. destruct (nth_error (concat rows) k) as [r|] eqn:Ek.
    + rewrite (map_nth_error _ _ _ Ek) in K. injection K as K. unfold pick in K. destruct (nth_error rows (fst x)) as [l|]; [|discriminate]. rewrite K. reflexivity.
    + exfalso. assert (nth_error (map Some (concat rows)) k = None); [|congruence]. apply nth_error_None. rewrite map_length. apply nth_error_None, Ek.
  - cbn [bind]. destruct (nth_error (concat rows) k) as [r|] eqn:Ek; [|reflexivity]. exfalso. rewrite (map_nth_error _ _ _ Ek) in K.
    assert (nth_error (map (pick rows) (samples (seq 0 (length rows)) (map (fun l => (0, length l)) rows))) k = None); [|congruence].
    apply nth_error_None. rewrite map_length. apply nth_error_None, Ex.
Qed.

(** ** Patterns *)

Lemma star_iff ts s : matches (Star :: ts) s = true <-> exists a b, s = a ++ b /\ matches ts b = true.
Proof.
  cbn [matches]. induction s as [|c s IH].
  - rewrite orb_false_r. split; [intros H; exists [], []; auto|]. intros (a & b & E & H). destruct a; [|discriminate]. cbn in E. subst b. exact H.
  - rewrite orb_true_iff, IH. split.
    + intros [H|(a & b & -> & H)]; [exists [], (c :: s); auto|exists (c :: a), b; auto].
    + intros (a & b & E & H). destruct a as [|x a]; cbn in E; [left; subst b; exact H|]. injection E as <- ->. right. eauto.
Qed.

Lemma lits_iff p ts s : matches (map Lit p ++ ts) s = true <-> exists b, s = p ++ b /\ matches ts b = true.
Proof.
  revert s. induction p as [|c p IH]; intros s; cbn [map app].
  - split; [intros H; exists s; auto|intros (b & -> & H); exact H].
  - cbn [matches]. destruct s as [|x s]; [split; [discriminate|intros (b & E & _); discriminate]|].
    rewrite andb_true_iff, N.eqb_eq, IH. split.
    + intros (-> & b & -> & H). exists b. auto.
    + intros (b & E & H). injection E as -> ->. eauto.
Qed.

Lemma tokens_plain p : plain p -> forall q n, length p + length q <= n -> tokens n (p ++ q) = map Lit p ++ tokens (n - length p) q.
Proof.
  intros (H1 & H2 & H3). induction p as [|c p IH]; intros q n Hn; [cbn [app map length]; rewrite Nat.sub_0_r; reflexivity|].
  destruct n as [|n]; [cbn in Hn; lia|]. cbn [app tokens map length Nat.sub].
  destruct (N.eqb_spec c star) as [->|_]; [destruct H1; left; reflexivity|].
  destruct (N.eqb_spec c mark) as [->|_]; [destruct H2; left; reflexivity|].
  destruct (N.eqb_spec c bra) as [->|_]; [destruct H3; left; reflexivity|].
  rewrite IH; [reflexivity|intros X; apply H1; right; exact X|intros X; apply H2; right; exact X|intros X; apply H3; right; exact X|cbn in Hn; lia].
Qed.

Lemma tokens_end n : tokens n [] = [].
Proof. destruct n; reflexivity. Qed.

Theorem fnmatch_plain p s : plain p -> fnmatch s p = true <-> s = p.
Proof.
  intros H. unfold fnmatch. rewrite <- (app_nil_r p) at 2. rewrite tokens_plain by (try exact H; cbn; lia). rewrite tokens_end, lits_iff.
  split; [|intros ->; exists []; rewrite app_nil_r; auto]. intros (b & -> & E). destruct b; [apply app_nil_r|discriminate].
Qed.

Theorem fnmatch_star p q s : plain p -> plain q -> fnmatch s (p ++ star :: q) = true <-> exists m, s = p ++ m ++ q.
Proof.
  intros Hp Hq. unfold fnmatch. rewrite tokens_plain by (try exact Hp; rewrite ?app_length; cbn; lia).
  rewrite app_length. cbn [length]. replace (length p + S (length q) - length p) with (S (length q)) by lia. cbn [tokens].
  change (star =? star)%N with true. cbn iota. rewrite <- (app_nil_r q) at 2. rewrite tokens_plain by (try exact Hq; cbn; lia). rewrite tokens_end.
  rewrite lits_iff. split.
  - intros (b & -> & H). apply star_iff in H. destruct H as (a & c & -> & H). apply lits_iff in H. destruct H as (d & -> & H).
    destruct d; [|discriminate]. exists a. rewrite app_nil_r. reflexivity.
  - intros (m & ->). exists (m ++ q). split; [reflexivity|]. apply star_iff. exists m, q. split; [reflexivity|]. apply lits_iff. exists []. rewrite app_nil_r. auto.
Qed.

(** ** Patterns with sets *)
Definition tok_of (x : part) : tok :=
  match x with Char c => Lit c | Anything => Star | AnyChar => Any | Class n set => Set_ n (concat (map element_text set)) end.

Lemma until_ket_app l rest : ~ In ket l -> until_ket (l ++ ket :: rest) = Some (l, rest).
Proof.
  induction l as [|c l IH]; intros H; [reflexivity|]. cbn [app until_ket].
  destruct (N.eqb_spec c ket) as [->|_]; [destruct H; left; reflexivity|]. rewrite IH; [reflexivity|]. intros X. apply H. right. exact X.
Qed.
Lemma no_ket set : Forall fine_element set -> ~ In ket (concat (map element_text set)).
Proof.
  induction 1 as [|e set He _ IH]; [intros []|]. cbn [map concat]. intros H. apply in_app_iff in H. destruct H as [H|H]; [|exact (IH H)].
  destruct e as [c|a b]; cbn in H, He; unfold ket in H.
  - destruct H as [H|[]]. destruct He. congruence.
  - destruct He as (Ha & Ha' & Hb). destruct H as [H|[H|[H|[]]]]; [congruence|discriminate H|congruence].
Qed.
Lemma text_nonempty set : set <> [] -> concat (map element_text set) <> [].
Proof. destruct set as [|[c|a b] set]; [congruence|discriminate|discriminate]. Qed.

Lemma set_at_text neg set rest : fine_part (Class neg set) ->
  set_at ((if neg then codes "!" else []) ++ concat (map element_text set) ++ codes "]" ++ rest) = Some (neg, concat (map element_text set), rest).
Proof.
  intros (Hn & Hf & Hb). pose proof (no_ket set Hf) as Hk. pose proof (text_nonempty set Hn) as Ht.
  change (codes "]" ++ rest) with (ket :: rest).
  destruct (concat (map element_text set)) as [|c l] eqn:E; [congruence|]. pose proof (until_ket_app (c :: l) rest Hk) as U.
  assert (Hc : c <> ket) by (intros X; apply Hk; left; exact X).
  destruct neg; unfold set_at.
  - change (codes "!") with [bang]. cbn [app]. change (bang =? bang)%N with true. cbn iota.
    destruct (N.eqb_spec c ket); [contradiction|]. cbn [app] in U. rewrite U. reflexivity.
  - cbn [app]. specialize (Hb eq_refl). cbn [hd] in Hb. destruct (N.eqb_spec c bang) as [Eb|_]; [contradiction|].
    destruct (N.eqb_spec c ket); [contradiction|]. cbn [app] in U. rewrite U. reflexivity.
Qed.

Lemma part_text_length x : 1 <= length (part_text x).
Proof. destruct x; cbn; try lia. Qed.

Lemma tokens_parts p : Forall fine_part p -> forall n, length (pattern_text p) <= n -> tokens n (pattern_text p) = map tok_of p.
Proof.
  unfold pattern_text. induction 1 as [|x p Hx _ IH]; intros n Hn; [apply tokens_end|]. cbn [map concat] in *. rewrite app_length in Hn.
  pose proof (part_text_length x). destruct n as [|n]; [lia|]. destruct x as [c| | |neg set]; cbn [part_text] in *.
  - cbn [app tokens map tok_of]. destruct Hx as (H1 & H2 & H3). cbn [length] in Hn.
    destruct (N.eqb_spec c star) as [E|_]; [contradiction|]. destruct (N.eqb_spec c mark) as [E|_]; [contradiction|].
    destruct (N.eqb_spec c bra) as [E|_]; [contradiction|]. f_equal. apply IH. lia.
  - change (codes "*") with [star] in *. cbn [app tokens map tok_of length] in *. change (star =? star)%N with true. cbn iota. f_equal. apply IH. lia.
  - change (codes "?") with [mark] in *. cbn [app tokens map tok_of length] in *. change (mark =? star)%N with false. change (mark =? mark)%N with true. cbn iota. f_equal. apply IH. lia.
  - change (codes "[") with [bra] in *. cbn [map tok_of]. rewrite <- app_assoc. cbn [app tokens].
    change (bra =? star)%N with false. change (bra =? mark)%N with false. change (bra =? bra)%N with true. cbn iota.
    rewrite <- !app_assoc. rewrite (set_at_text neg set _ Hx). f_equal. apply IH. rewrite !app_length in Hn. cbn [length] in Hn. lia.
Qed.

Lemma in_set_elements set c : Forall fine_element set -> in_set (concat (map element_text set)) c = true <-> Exists (fun e => in_element e c) set.
Proof.
  induction 1 as [|e set He Hf IH]; [split; [discriminate|intros X; inversion X]|]. cbn [map concat]. rewrite Exists_cons, <- IH.
  destruct e as [a|a b]; cbn [element_text app in_element].
  - assert (G : in_set (a :: concat (map element_text set)) c = (a =? c)%N || in_set (concat (map element_text set)) c).
    { cbn [in_set]. destruct (concat (map element_text set)) as [|h [|b l]] eqn:E; [reflexivity|reflexivity|].
      destruct (N.eqb_spec h 45) as [->|_]; [|reflexivity]. exfalso. destruct set as [|e' set']; [discriminate E|].
      inversion Hf as [|? ? He' _]; subst. destruct e' as [x|x y]; cbn in E; injection E as E1 E2; destruct He' as (X & _); contradiction. }
    rewrite G, orb_true_iff, N.eqb_eq. split; intros [H|H]; auto.
  - cbn [in_set]. change (45 =? 45)%N with true. cbn iota. rewrite orb_true_iff, andb_true_iff, !N.leb_le. reflexivity.
Qed.

Theorem fnmatch_pattern p s : Forall fine_part p -> fnmatch s (pattern_text p) = true <-> describes p s.
Proof.
  intros Hf. unfold fnmatch. rewrite tokens_parts by (try exact Hf; lia). revert s. induction Hf as [|x p Hx _ IH]; intros s; cbn [map].
  - cbn [matches]. destruct s as [|c s]; split; intros H; try discriminate; [constructor|reflexivity|inversion H].
  - destruct x as [c| | |neg set]; cbn [tok_of].
    + cbn [matches]. destruct s as [|y s]; [split; [discriminate|intros H; inversion H]|]. rewrite andb_true_iff, N.eqb_eq, IH. split.
      * intros (-> & H). constructor. exact H.
      * intros H. inversion H; subst. auto.
    + rewrite star_iff. split.
      * intros (a & b & -> & H). constructor. apply IH. exact H.
      * intros H. inversion H; subst. eexists; eexists; split; [reflexivity|]. apply IH. assumption.
    + cbn [matches]. destruct s as [|y s]; [split; [discriminate|intros H; inversion H]|]. rewrite IH. split; intros H; [constructor; exact H|inversion H; subst; assumption].
    + cbn [matches]. destruct s as [|y s]; [split; [discriminate|intros H; inversion H]|]. rewrite andb_true_iff, IH.
      destruct Hx as (_ & He & _). pose proof (in_set_elements set y He) as G. destruct neg; cbn [xorb].
      * split.
        -- intros (H & H'). apply d_other; [|exact H']. intros X. apply G in X. rewrite X in H. discriminate.
        -- intros H. inversion H; subst. split; [|assumption]. destruct (in_set _ y); [|reflexivity]. exfalso. tauto.
      * split.
        -- intros (H & H'). apply d_class; [|exact H']. apply G. destruct (in_set _ y); [reflexivity|discriminate].
        -- intros H. inversion H; subst. split; [|assumption]. rewrite (proj2 G); [reflexivity|assumption].
Qed.

Lemma set_same d p x : set_file d p x p = x.
Proof. unfold set_file. destruct (list_eq_dec N.eq_dec p p); [reflexivity|congruence]. Qed.
Lemma set_other d p x q : q <> p -> set_file d p x q = d q.
Proof. intros H. unfold set_file. destruct (list_eq_dec N.eq_dec q p); [contradiction|reflexivity]. Qed.
