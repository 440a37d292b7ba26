(** Property C195: dates in the names of directories. *)
From Coq Require Import String NArith.
From Verif Require Import Base Names_Model Inputs_Model Dates_Spec Dates_Proofs.
Local Open Scope list_scope.

(** C195: every date pattern in the name is replaced by the date and the rest of the name is kept.  Partial: names without
    pattern, and names with patterns of one format of which one stands at the end. *)
Theorem C195_partial t ps :
  Forall good_piece ps ->
  formats ps = [] \/ (exists qs f, ps = qs ++ [Date f] /\ Forall (fun g => g = f) (formats qs)) ->
  resolve_time t (spelled ps) = filled t ps.
Proof.
  intros F [E|(qs & f & -> & E)].
  - rewrite resolve_pieces_none by assumption. clear F. revert E. unfold formats, spelled, filled. induction ps as [|[s|g] ps IH]; cbn [flat_map app]; intros E; [reflexivity| |discriminate E].
    rewrite IH by exact E. reflexivity.
  - assert (E' : Forall (fun g => g = f) (formats (qs ++ [Date f]))).
    { unfold formats in *. rewrite flat_map_app. apply Forall_app. split; [exact E|]. repeat constructor. }
    destruct (formats (qs ++ [Date f])) as [|g fs] eqn:Eg; [unfold formats in Eg; rewrite flat_map_app in Eg; destruct (app_cons_not_nil _ _ _ (eq_sym Eg))|].
    rewrite (resolve_pieces_date_last t qs g fs f F Eg). inversion E' as [|? ? Ef _]; subst g. apply filled_only_all. rewrite Eg. exact E'.
Qed.
Print Assumptions C195_partial.

Example C195_case :
  let ps := [Lit (codes "/out/run_"); Date (codes "%Y"); Lit (codes "/"); Date (codes "%Y")] in
  let t f := if list_eq_dec N.eq_dec f (codes "%Y") then codes "2026" else codes "?" in
  Forall good_piece ps /\ spelled ps = codes "/out/run_{%Y}/{%Y}" /\
  resolve_time t (codes "/out/run_{%Y}/{%Y}") = codes "/out/run_2026/2026" /\
  resolve_time t (codes "/out/a{b}") = codes "/out/a{b}" /\ resolve_time t (codes "/out/a{%Y") = codes "/out/a{%Y" /\
  resolve_time t (codes "/out/{%Y}") = codes "/out/2026".
Proof.
  assert (B : forall s, existsb (fun c => (c =? 123)%N || (c =? 125)%N) s = false -> no_braces s).
  { intros s H. split; intros K; (assert (X : existsb (fun c => (c =? 123)%N || (c =? 125)%N) s = true) by (apply existsb_exists; eexists; split; [exact K|reflexivity])); congruence. }
  cbv zeta. split; [|repeat (apply conj; [vm_compute; reflexivity|]); vm_compute; reflexivity].
  apply Forall_cons; [split; [discriminate|apply B; reflexivity]|]. apply Forall_cons; [split; [apply B; reflexivity|exists (codes "Y"); reflexivity]|].
  apply Forall_cons; [split; [discriminate|apply B; reflexivity]|]. apply Forall_cons; [split; [apply B; reflexivity|exists (codes "Y"); reflexivity]|constructor].
Qed.

(** In a name with other text at the end the patterns stay as they are, for every date. *)
Theorem C195_text_at_end t ps s : Forall good_piece (ps ++ [Lit s]) -> resolve_time t (spelled (ps ++ [Lit s])) = spelled (ps ++ [Lit s]).
Proof. exact (resolve_pieces_text_last t ps s). Qed.
Print Assumptions C195_text_at_end.

(** With several formats only the patterns of the first one are replaced. *)
Theorem C195_several_formats t ps f fs fmt :
  Forall good_piece (ps ++ [Date fmt]) -> formats (ps ++ [Date fmt]) = f :: fs ->
  resolve_time t (spelled (ps ++ [Date fmt])) = filled_only t f (ps ++ [Date fmt]).
Proof. exact (resolve_pieces_date_last t ps f fs fmt). Qed.
Print Assumptions C195_several_formats.

Example C195_several_case t :
  resolve_time t (codes "/out/{%Y}/chunks") = codes "/out/{%Y}/chunks" /\
  resolve_time (fun _ => codes "2026") (codes "/out/{%Y}/{%m}") = codes "/out/2026/{%m}".
Proof. split; vm_compute; reflexivity. Qed.

(** The name that was found is kept when it is resolved again (map and optimize do so in every worker), if the date has no
    braces. *)
Theorem C195_again t t' ps :
  Forall good_piece ps ->
  formats ps = [] \/ (exists qs f, ps = qs ++ [Date f] /\ Forall (fun g => g = f) (formats qs)) ->
  (forall f, no_braces (t f)) ->
  resolve_time t' (resolve_time t (spelled ps)) = resolve_time t (spelled ps).
Proof.
  intros F H B. rewrite (C195_partial t ps F H). apply resolve_untouched. left. intros a b K.
  assert (X : ~ In 123%N (filled t ps)).
  { clear K H. unfold filled. induction F as [|p ps Hp F IH]; [intros []|]. cbn [flat_map]. intros X. apply in_app_iff in X. destruct X as [X|X]; [|exact (IH X)].
    destruct p as [s|g]; [destruct Hp as [_ [Hl _]]; exact (Hl X)|destruct (B g) as [Hl _]; exact (Hl X)]. }
  apply X. rewrite K, !in_app_iff. right. left. left. reflexivity.
Qed.
Print Assumptions C195_again.

(** C195 is false: text after the date, two formats, other braces before the date. *)
Theorem C195_text_at_end_refuted : exists ps, Forall good_piece ps /\ forall t, (forall f, no_braces (t f)) -> resolve_time t (spelled ps) <> filled t ps.
Proof.
  exists [Date (codes "%Y"); Lit (codes "/x")].
  assert (G : Forall good_piece [Date (codes "%Y"); Lit (codes "/x")]).
  { repeat apply Forall_cons; [split; [split; cbn; intuition discriminate|exists (codes "Y"); reflexivity]|split; [discriminate|split; cbn; intuition discriminate]|constructor]. }
  split; [exact G|]. intros t B. change [Date (codes "%Y"); Lit (codes "/x")] with ([Date (codes "%Y")] ++ [Lit (codes "/x")]).
  rewrite (C195_text_at_end t [Date (codes "%Y")] (codes "/x") G). intros E.
  destruct (B (codes "%Y")) as [Hl _]. unfold filled in E. cbn [flat_map app] in E. destruct (t (codes "%Y")) as [|c r]; [vm_compute in E; discriminate E|].
  apply Hl. left. apply (f_equal (hd 0%N)) in E. symmetry. exact E.
Qed.
Print Assumptions C195_text_at_end_refuted.

Theorem C195_two_formats_refuted : exists ps, Forall good_piece ps /\ forall t, (forall f, no_braces (t f)) -> resolve_time t (spelled ps) <> filled t ps.
Proof.
  exists [Date (codes "%Y"); Date (codes "%m")].
  assert (G : Forall good_piece ([Date (codes "%Y")] ++ [Date (codes "%m")])).
  { repeat apply Forall_cons; [split; [split; cbn; intuition discriminate|eexists; reflexivity]|split; [split; cbn; intuition discriminate|eexists; reflexivity]|constructor]. }
  split; [exact G|]. intros t B E. change [Date (codes "%Y"); Date (codes "%m")] with ([Date (codes "%Y")] ++ [Date (codes "%m")]) in E.
  rewrite (C195_several_formats t [Date (codes "%Y")] (codes "%Y") [codes "%m"] (codes "%m") G eq_refl) in E. unfold filled_only, filled in E.
  cbn [flat_map app] in E. destruct (list_eq_dec N.eq_dec (codes "%Y") (codes "%Y")) as [_|K]; [|congruence].
  destruct (list_eq_dec N.eq_dec (codes "%m") (codes "%Y")) as [K|_]; [discriminate K|]. apply app_inv_head in E. rewrite !app_nil_r in E.
  destruct (B (codes "%m")) as [Hl _]. apply Hl. rewrite <- E. left. reflexivity.
Qed.
Print Assumptions C195_two_formats_refuted.

Theorem C195_other_braces_refuted : exists pre f, good_piece (Date f) /\
  forall t, t (codes "job") = codes "job" -> resolve_time t (pre ++ spelled [Date f]) = codes "/out/job/{%Y}" /\ pre ++ spelled [Date f] = codes "/out/{job}/{%Y}".
Proof.
  exists (codes "/out/{job}/"), (codes "%Y"). split; [split; [split; cbn; intuition discriminate|eexists; reflexivity]|].
  intros t H. split; [|reflexivity]. change (codes "/out/{job}/" ++ spelled [Date (codes "%Y")]) with (codes "/out/" ++ lbrace :: codes "job" ++ rbrace :: codes "/{%Y}").
  rewrite resolve_first; [rewrite H; vm_compute; reflexivity|cbn; intuition discriminate|cbn; intuition discriminate|cbn; intuition discriminate|vm_compute; reflexivity|vm_compute; reflexivity].
Qed.
Print Assumptions C195_other_braces_refuted.
