(** Proofs about dates in the names of directories. *)
From Coq Require Import String NArith Lia.
From Verif Require Import Base Names_Model Size_Model Paths_Model Inputs_Model Dates_Spec Names_Proofs Paths_Proofs Inputs_Proofs Unzip_Proofs2.
Local Open Scope list_scope.
Local Open Scope nat_scope.
Local Ltac Zify.zify_post_hook ::= idtac.

Lemma contains_iff p s : contains p s = true <-> exists a b, s = a ++ p ++ b.
Proof.
  induction s as [|c s IH]; cbn [contains]; rewrite orb_true_iff, starts_iff.
  - split; [intros [(r & E)|E]; [exists [], r; exact E|discriminate E]|]. intros (a & b & E). destruct a; [left; exists b; exact E|discriminate E].
  - rewrite IH. split.
    + intros [(r & E)|(a & b & ->)]; [exists [], r; exact E|exists (c :: a), b; reflexivity].
    + intros ([|x a] & b & E); [left; exists b; exact E|]. right. injection E as -> ->. eauto.
Qed.

Lemma contains_not p s : (forall a b, s <> a ++ p ++ b) -> contains p s = false.
Proof. intros H. destruct (contains p s) eqn:E; [|reflexivity]. apply contains_iff in E. destruct E as (a & b & ->). destruct (H a b eq_refl). Qed.

Lemma ends_not p s : (forall a, s <> a ++ p) -> ends p s = false.
Proof. intros H. destruct (ends p s) eqn:E; [|reflexivity]. apply ends_iff in E. destruct E as (a & ->). destruct (H a eq_refl). Qed.

(** The pattern stands alone at a place before which there is no brace. *)
Lemma replace_once pre c old new rest : ~ In c pre -> replace (c :: old) new (pre ++ (c :: old) ++ rest) = pre ++ new ++ replace (c :: old) new rest.
Proof.
  intros H. induction pre as [|x pre IH]; [cbn [app]; apply (replace_start (c :: old)); discriminate|].
  cbn [app]. unfold replace. cbn [replace_from]. cbn [starts]. destruct (N.eqb_spec c x) as [->|_]; [destruct H; left; reflexivity|].
  cbn [andb]. f_equal. apply IH. intros K. apply H. right. exact K.
Qed.

Lemma resolve_untouched t path : (forall a b, path <> a ++ [lbrace; 37%N] ++ b) \/ (forall a, path <> a ++ [rbrace]) -> resolve_time t path = path.
Proof.
  intros H. unfold resolve_time. destruct H as [H|H].
  - rewrite contains_not by exact H. reflexivity.
  - rewrite (ends_not _ _ H), andb_false_r. reflexivity.
Qed.

(** One resolution: the first braces are replaced. *)
Lemma resolve_first t pre fmt rest : ~ In lbrace pre -> ~ In lbrace fmt -> ~ In rbrace fmt ->
  contains [lbrace; 37%N] (pre ++ lbrace :: fmt ++ rbrace :: rest) = true -> ends [rbrace] (pre ++ lbrace :: fmt ++ rbrace :: rest) = true ->
  resolve_time t (pre ++ lbrace :: fmt ++ rbrace :: rest) = pre ++ t fmt ++ replace (lbrace :: fmt ++ [rbrace]) (t fmt) rest.
Proof.
  intros Hp Hf Hr Hc He. unfold resolve_time. rewrite Hc, He. cbn [andb]. rewrite split_at by exact Hp.
  assert (E : exists t, split lbrace (fmt ++ rbrace :: rest) = (fmt ++ rbrace :: hd [] (split lbrace rest)) :: t).
  { clear -Hf. induction fmt as [|x fmt IH]; cbn [app split].
    - change (rbrace =? lbrace)%N with false. cbv iota. destruct (split lbrace rest) as [|p ps] eqn:E; [destruct (split_nonempty _ _ E)|]. eexists. reflexivity.
    - destruct (N.eqb_spec x lbrace) as [->|_]; [destruct Hf; left; reflexivity|]. destruct IH as (t & ->); [intros K; apply Hf; right; exact K|]. eexists. reflexivity. }
  destruct E as (tl & ->). rewrite split_at by exact Hr. cbn [hd].
  replace (pre ++ lbrace :: fmt ++ rbrace :: rest) with (pre ++ (lbrace :: fmt ++ [rbrace]) ++ rest) by (cbn [app]; rewrite <- app_assoc; reflexivity).
  apply replace_once, Hp.
Qed.

Lemma resolve_last t pre fmt : ~ In lbrace pre -> ~ In lbrace fmt -> ~ In rbrace fmt ->
  resolve_time t (pre ++ codes "{%" ++ fmt ++ codes "}") = pre ++ t (codes "%" ++ fmt).
Proof.
  intros Hp Hf Hr. change (codes "{%" ++ fmt ++ codes "}") with (lbrace :: (37%N :: fmt) ++ rbrace :: []).
  rewrite resolve_first; [|exact Hp|intros [K|K]; [discriminate K|exact (Hf K)]|intros [K|K]; [discriminate K|exact (Hr K)]| |].
  - change (codes "%" ++ fmt) with (37%N :: fmt). cbn [replace replace_from]. rewrite app_nil_r. reflexivity.
  - apply contains_iff. exists pre, (fmt ++ [rbrace]). reflexivity.
  - apply ends_iff. exists (pre ++ lbrace :: 37%N :: fmt). rewrite <- app_assoc. reflexivity.
Qed.

(** * Any number of dates *)
Lemma replace_pass c old new pre rest : ~ In c pre -> replace (c :: old) new (pre ++ rest) = pre ++ replace (c :: old) new rest.
Proof.
  intros H. induction pre as [|x pre IH]; [reflexivity|]. unfold replace in *. cbn [app replace_from starts].
  destruct (N.eqb_spec c x) as [->|_]; [destruct H; left; reflexivity|]. cbn [andb]. f_equal. apply IH. intros K. apply H. right. exact K.
Qed.

Lemma starts_fmt f g rest : ~ In rbrace f -> ~ In rbrace g -> starts (f ++ [rbrace]) (g ++ rbrace :: rest) = true -> f = g.
Proof.
  revert g. induction f as [|x f IH]; intros [|y g] Hf Hg E; cbn [app starts] in E; [reflexivity| | |].
  - apply andb_true_iff in E. destruct E as [E _]. apply N.eqb_eq in E. destruct Hg. left. congruence.
  - apply andb_true_iff in E. destruct E as [E _]. apply N.eqb_eq in E. destruct Hf. left. congruence.
  - apply andb_true_iff in E. destruct E as [E1 E2]. apply N.eqb_eq in E1. subst y. f_equal. apply IH; [intros K; apply Hf; right; exact K|intros K; apply Hg; right; exact K|exact E2].
Qed.

Lemma replace_pieces t f ps : ~ In rbrace f -> Forall good_piece ps ->
  replace (lbrace :: f ++ [rbrace]) (t f) (spelled ps) = filled_only t f ps.
Proof.
  intros Hf F. induction F as [|p ps Hp F IH]; [reflexivity|]. unfold spelled, filled_only in *. cbn [flat_map]. destruct p as [s|fmt].
  - destruct Hp as [_ [Hl _]]. rewrite replace_pass by exact Hl. rewrite IH. reflexivity.
  - destruct Hp as [[Hl Hr] _]. change (codes "{" ++ fmt ++ codes "}") with (lbrace :: fmt ++ [rbrace]). destruct (list_eq_dec N.eq_dec fmt f) as [->|Hn].
    + rewrite replace_start by discriminate. rewrite IH. reflexivity.
    + cbn [app]. rewrite <- app_assoc. cbn [app]. unfold replace. cbn [replace_from]. cbn [starts]. rewrite N.eqb_refl. cbn [andb].
      destruct (starts (f ++ [rbrace]) _) eqn:E; [destruct Hn; symmetry; exact (starts_fmt _ _ _ Hf Hr E)|]. f_equal.
      change (replace_from (lbrace :: f ++ [rbrace]) (t f) 0) with (replace (lbrace :: f ++ [rbrace]) (t f)).
      assert (A : forall X, fmt ++ rbrace :: X = (fmt ++ [rbrace]) ++ X) by (intros X; rewrite <- app_assoc; reflexivity). rewrite (A (flat_map _ ps)).
      rewrite (replace_pass lbrace (f ++ [rbrace]) (t f) (fmt ++ [rbrace])) by (intros K; apply in_app_iff in K; destruct K as [K|[K|[]]]; [exact (Hl K)|discriminate K]). rewrite IH, <- app_assoc. reflexivity.
Qed.

Lemma spelled_no_dates ps : Forall good_piece ps -> formats ps = [] -> ~ In lbrace (spelled ps).
Proof.
  intros F. induction F as [|p ps Hp F IH]; [intros _ []|]. unfold spelled, formats in *. destruct p as [s|fmt]; cbn [flat_map app]; [|discriminate].
  intros E. rewrite in_app_iff. intros [K|K]; [destruct Hp as [_ [Hl _]]; exact (Hl K)|exact (IH E K)].
Qed.

Lemma resolve_pieces_none t ps : Forall good_piece ps -> formats ps = [] -> resolve_time t (spelled ps) = spelled ps.
Proof.
  intros F E. apply resolve_untouched. left. intros a b K. apply (spelled_no_dates ps F E). rewrite K, !in_app_iff. right. left. left. reflexivity.
Qed.

Lemma resolve_pieces_text_last t ps s : Forall good_piece (ps ++ [Lit s]) -> resolve_time t (spelled (ps ++ [Lit s])) = spelled (ps ++ [Lit s]).
Proof.
  intros F. apply resolve_untouched. right. intros a K. apply Forall_app in F. destruct F as [_ F]. inversion F as [|? ? Hg _]; subst. destruct Hg as [Hs [_ Hr]].
  unfold spelled in K. rewrite flat_map_app in K. cbn [flat_map] in K. rewrite app_nil_r in K. destruct (exists_last Hs) as (s' & x & ->).
  rewrite app_assoc in K. apply app_inj_tail in K. destruct K as [_ ->]. apply Hr. rewrite in_app_iff. right. left. reflexivity.
Qed.

Lemma resolve_pieces_date_last t ps f fs fmt : Forall good_piece (ps ++ [Date fmt]) -> formats (ps ++ [Date fmt]) = f :: fs ->
  resolve_time t (spelled (ps ++ [Date fmt])) = filled_only t f (ps ++ [Date fmt]).
Proof.
  intros F E. set (qs := ps ++ [Date fmt]) in *.
  assert (He : ends [rbrace] (spelled qs) = true).
  { apply ends_iff. exists (spelled ps ++ lbrace :: fmt). unfold qs, spelled. rewrite flat_map_app. cbn [flat_map]. rewrite app_nil_r, <- app_assoc. reflexivity. }
  assert (Hs : exists pre rest f0, spelled qs = pre ++ lbrace :: f ++ rbrace :: rest /\ ~ In lbrace pre /\ ~ In lbrace f /\ ~ In rbrace f /\ f = 37%N :: f0).
  { clear He. revert F E. generalize qs. clear. induction qs as [|p qs IH]; intros F E; [discriminate E|]. inversion F as [|? ? Hp F']; subst. unfold formats, spelled in *. destruct p as [s|g]; cbn [flat_map app] in *.
    - destruct (IH F' E) as (pre & rest & f0 & -> & Hp' & R). exists (s ++ pre), rest, f0. split; [rewrite <- app_assoc; reflexivity|]. split; [|exact R].
      rewrite in_app_iff. intros [K|K]; [destruct Hp as [_ [Hl _]]; exact (Hl K)|exact (Hp' K)].
    - injection E as -> _. destruct Hp as [[Hl Hr] (f0 & E)]. exists [], (spelled qs), f0. split; [unfold spelled; change (codes "{" ++ f ++ codes "}") with (lbrace :: f ++ [rbrace]); cbn [app]; rewrite <- app_assoc; reflexivity|].
      split; [intros []|]. split; [exact Hl|]. split; [exact Hr|exact E]. }
  destruct Hs as (pre & rest & f0 & Es & Hp & Hl & Hr & Ef). rewrite <- (replace_pieces t f qs Hr F).
  rewrite Es. rewrite Es in He. rewrite resolve_first; [|exact Hp|exact Hl|exact Hr| |exact He].
  - replace (pre ++ lbrace :: f ++ rbrace :: rest) with (pre ++ (lbrace :: f ++ [rbrace]) ++ rest) by (cbn [app]; rewrite <- app_assoc; reflexivity).
    rewrite replace_once by exact Hp. reflexivity.
  - apply contains_iff. exists pre, (f0 ++ rbrace :: rest). rewrite Ef. reflexivity.
Qed.

Lemma filled_only_all t f ps : Forall (fun g => g = f) (formats ps) -> filled_only t f ps = filled t ps.
Proof.
  unfold formats, filled_only, filled. induction ps as [|[s|g] ps IH]; cbn [flat_map app]; intros F; [reflexivity|rewrite IH by exact F; reflexivity|].
  inversion F as [|? ? Eg F']; subst g. destruct (list_eq_dec N.eq_dec f f) as [_|K]; [rewrite IH by exact F'; reflexivity|congruence].
Qed.
