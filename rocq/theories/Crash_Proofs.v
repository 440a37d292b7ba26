From Verif Require Import Base Crash_Model Crash_Spec.
Local Ltac Zify.zify_post_hook ::= idtac.

Definition prefix {A} (l m : list A) : Prop := exists r, m = l ++ r.

Lemma run_app s a b : run s (a ++ b) = run (run s a) b.
Proof. apply fold_left_app. Qed.

Lemma run_append p : forall pieces s d, s p = Some d ->
  run s (map (Append p) pieces) p = Some (d ++ concat pieces) /\ forall q, path_eqb q p = false -> run s (map (Append p) pieces) q = s q.
Proof.
  induction pieces as [|b bs IH]; intros s d E; [cbn; rewrite app_nil_r; auto|].
  cbn [map run fold_left apply]. fold (run (set s p (match s p with Some d0 => Some (d0 ++ b) | None => Some b end)) (map (Append p) bs)).
  rewrite E. destruct (IH (set s p (Some (d ++ b))) (d ++ b)) as [H1 H2].
  { unfold set. destruct p; reflexivity. }
  split; [rewrite H1, <- app_assoc; reflexivity|]. intros q Hq. rewrite (H2 q Hq). unfold set. rewrite Hq. reflexivity.
Qed.

Lemma firstn_map {A B} (f : A -> B) k l : firstn k (map f l) = map f (firstn k l).
Proof. revert k. induction l as [|x l IH]; intros [|k]; cbn; auto. f_equal. apply IH. Qed.
Lemma prefix_concat {A} (k : nat) (l : list (list A)) : prefix (concat (firstn k l)) (concat l).
Proof. exists (concat (skipn k l)). rewrite <- concat_app, firstn_skipn. reflexivity. Qed.

Section R.
Context (cut : list nat -> list (list nat)) (Hcut : cut_ok cut).

(** A partial write leaves a prefix, a complete one the data; other files are untouched. *)
Lemma write_partial p data k s : let s' := run s (firstn k (write_file cut p data)) in
  (forall q, path_eqb q p = false -> s' q = s q) /\ (s' p = s p \/ exists d, s' p = Some d /\ prefix d data).
Proof.
  unfold write_file. destruct k as [|k]; [cbn; auto|]. cbn [firstn run fold_left apply]. fold (run (set s p (Some [])) (firstn k (map (Append p) (cut data)))).
  rewrite firstn_map. destruct (run_append p (firstn k (cut data)) (set s p (Some [])) []) as [H1 H2]; [unfold set; destruct p; reflexivity|].
  split.
  - intros q Hq. rewrite (H2 q Hq). unfold set. rewrite Hq. reflexivity.
  - right. eexists. split; [exact H1|]. cbn [app]. rewrite <- (Hcut data) at 2. apply prefix_concat.
Qed.
Lemma write_complete p data s : let s' := run s (write_file cut p data) in
  (forall q, path_eqb q p = false -> s' q = s q) /\ s' p = Some data.
Proof.
  unfold write_file. cbn [run fold_left apply]. fold (run (set s p (Some [])) (map (Append p) (cut data))).
  destruct (run_append p (cut data) (set s p (Some [])) []) as [H1 H2]; [unfold set; destruct p; reflexivity|].
  split; [|rewrite H1, Hcut; reflexivity]. intros q Hq. rewrite (H2 q Hq). unfold set. rewrite Hq. reflexivity.
Qed.

(** * The local store *)

Lemma local_complete remote s : exists_ s File = false -> let s' := run s (download cut Local remote s) in
  s' File = Some remote /\ s' Target = s Target.
Proof.
  intros E. unfold download. rewrite E, run_app. destruct (write_complete Tmp remote s) as [H1 H2]. cbv zeta in H1, H2.
  set (s1 := run s (write_file cut Tmp remote)) in *. change (run s1 [Rename Tmp File]) with (apply s1 (Rename Tmp File)). unfold apply. rewrite H2. split; [reflexivity|]. apply (H1 Target eq_refl).
Qed.

(** The chunk path is absent or complete at every point. *)
Lemma local_atomic remote s k : absent_or_complete s File remote ->
  let s' := run s (firstn k (download cut Local remote s)) in absent_or_complete s' File remote /\ s' Target = s Target.
Proof.
  intros H. unfold download. destruct (exists_ s File) eqn:E; [rewrite firstn_nil; cbn; auto|].
  rewrite firstn_app, run_app. destruct (write_partial Tmp remote k s) as [H1 _]. destruct (write_complete Tmp remote s) as [C1 C2]. cbv zeta in *.
  destruct (le_lt_dec k (length (write_file cut Tmp remote))) as [Hk|Hk].
  - replace (k - length (write_file cut Tmp remote)) with 0 by lia. cbn [firstn run fold_left].
    change (fold_left apply (firstn k (write_file cut Tmp remote)) s) with (run s (firstn k (write_file cut Tmp remote))).
    split; [|apply (H1 Target eq_refl)]. unfold absent_or_complete in *. rewrite (H1 File eq_refl). exact H.
  - rewrite (firstn_all2 (write_file cut Tmp remote)) by lia. destruct (k - length (write_file cut Tmp remote)) as [|j] eqn:Ej; [lia|]. cbn [firstn].
    rewrite firstn_nil. set (s1 := run s (write_file cut Tmp remote)) in *. cbn [run fold_left apply]. rewrite C2. split; [right; reflexivity|].
    unfold set. cbn. apply (C1 Target eq_refl).
Qed.

Lemma no_comp st remote s : fetch cut st None remote s = (download cut st remote s, None).
Proof. unfold fetch, try_decompress. rewrite app_nil_r. reflexivity. Qed.

Lemma local_history remote : forall ks s, absent_or_complete s File remote -> absent_or_complete (attempts cut Local None remote s ks) File remote.
Proof.
  induction ks as [|k ks IH]; intros s H; [exact H|]. cbn [attempts fold_left]. apply IH. unfold attempt. rewrite no_comp. apply local_atomic, H.
Qed.

(** * Prefixes *)

Definition some_prefix (o : option (list nat)) (data : list nat) : Prop := match o with None => True | Some d => prefix d data end.
Lemma prefix_refl {A} (l : list A) : prefix l l.
Proof. exists []. rewrite app_nil_r. reflexivity. Qed.
Lemma prefix_length {A} (l m : list A) : prefix l m -> length m <= length l -> l = m.
Proof. intros [r ->] H. rewrite app_length in H. destruct r; [rewrite app_nil_r; reflexivity|cbn in H; lia]. Qed.
Lemma accepts_complete s p data : some_prefix (s p) data -> reader_accepts s p (length data) = true -> s p = Some data.
Proof.
  unfold reader_accepts, some_prefix. destruct (s p) as [d|]; [|discriminate]. intros H E. apply Nat.leb_le in E. f_equal. apply prefix_length; assumption.
Qed.

Lemma download_prefix st remote s k : some_prefix (s File) remote -> some_prefix (run s (firstn k (download cut st remote s)) File) remote.
Proof.
  intros H. unfold download. destruct (exists_ s File) eqn:E; [rewrite firstn_nil; exact H|]. destruct st.
  - assert (HA : absent_or_complete s File remote). { unfold exists_ in E. destruct (s File) eqn:Ef; [discriminate|left; exact Ef]. }
    pose proof (local_atomic remote s k HA) as [G _]. unfold download in G. rewrite E in G. destruct G as [G|G]; rewrite G; cbn; [exact I|apply prefix_refl].
  - destruct (write_partial File remote k s) as [_ [H1|(d & H1 & H2)]]; cbv zeta in *; rewrite H1; [exact H|exact H2].
Qed.

Lemma nocomp_history st remote : forall ks s, some_prefix (s File) remote -> some_prefix (attempts cut st None remote s ks File) remote.
Proof.
  induction ks as [|k ks IH]; intros s H; [exact H|]. cbn [attempts fold_left]. apply IH. unfold attempt. rewrite no_comp. cbn [fst]. apply download_prefix, H.
Qed.

(** * Compression, local store *)

Definition CInv (remote out : list nat) (s : fs) : Prop := absent_or_complete s File remote /\ some_prefix (s Target) out.

Lemma comp_attempt dec remote out s k : dec remote = Some out -> CInv remote out s -> CInv remote out (attempt cut Local (Some dec) remote s k).
Proof.
  intros Hd [H1 H2]. unfold attempt, fetch. destruct (try_decompress cut (Some dec) (run s (download cut Local remote s))) as [ops2 e] eqn:E2. cbn [fst].
  rewrite firstn_app, run_app. destruct (local_atomic remote s k H1) as [A1 A2]. cbv zeta in *.
  destruct (le_lt_dec k (length (download cut Local remote s))) as [Hk|Hk].
  - replace (k - length (download cut Local remote s)) with 0 by lia. cbn [firstn]. split; [exact A1|]. change (run (run s (firstn k (download cut Local remote s))) []) with (run s (firstn k (download cut Local remote s))). rewrite A2. exact H2.
  - rewrite firstn_all2 in * by lia. set (s1 := run s (download cut Local remote s)) in *. set (j := k - length (download cut Local remote s)). clearbody j.
    unfold try_decompress in E2. destruct (exists_ s1 Target) eqn:Et; [injection E2 as <- <-; rewrite firstn_nil; split; [exact A1|change (run s1 []) with s1; rewrite A2; exact H2]|].
    destruct (s1 File) as [data|] eqn:Ef; [|injection E2 as <- <-; rewrite firstn_nil; split; [exact A1|change (run s1 []) with s1; rewrite A2; exact H2]].
    assert (data = remote) by (destruct A1 as [A1|A1]; congruence). subst data. rewrite Hd in E2. injection E2 as <- <-.
    destruct j as [|j]; [split; [exact A1|change (run s1 (firstn 0 _)) with s1; rewrite A2; exact H2]|]. cbn [firstn]. change (run s1 (Remove File :: firstn j (write_file cut Target out))) with (run (set s1 File None) (firstn j (write_file cut Target out))).
    destruct (write_partial Target out j (set s1 File None)) as [W1 W2]. cbv zeta in *. split.
    + left. rewrite (W1 File eq_refl). reflexivity.
    + destruct W2 as [W2|(d & W2 & W3)]; rewrite W2; [|exact W3]. change (set s1 File None Target) with (s1 Target). rewrite A2. exact H2.
Qed.

Lemma comp_history dec remote out : dec remote = Some out -> forall ks s, CInv remote out s -> CInv remote out (attempts cut Local (Some dec) remote s ks).
Proof. intros Hd. induction ks as [|k ks IH]; intros s H; [exact H|]. cbn [attempts fold_left]. apply IH, comp_attempt; assumption. Qed.

(** A complete attempt on an empty cache gives the decompressed chunk. *)
Lemma comp_complete dec remote out s : dec remote = Some out -> s Target = None -> absent_or_complete s File remote ->
  let s' := run s (fst (fetch cut Local (Some dec) remote s)) in s' Target = Some out /\ s' File = None /\ snd (fetch cut Local (Some dec) remote s) = None.
Proof.
  intros Hd Ht Hf. unfold fetch. assert (E : run s (download cut Local remote s) File = Some remote /\ run s (download cut Local remote s) Target = None).
  { destruct (exists_ s File) eqn:E.
    - unfold download. rewrite E. cbn. split; [|exact Ht]. unfold exists_ in E. destruct Hf as [Hf|Hf]; rewrite Hf in E; [discriminate|exact Hf].
    - destruct (local_complete remote s E) as [H1 H2]. cbv zeta in *. rewrite H2. auto. }
  destruct E as [E1 E2]. unfold try_decompress. unfold exists_. rewrite E2, E1, Hd. cbn [fst snd]. rewrite run_app.
  change (run (run s (download cut Local remote s)) (Remove File :: write_file cut Target out)) with (run (set (run s (download cut Local remote s)) File None) (write_file cut Target out)).
  destruct (write_complete Target out (set (run s (download cut Local remote s)) File None)) as [W1 W2]. cbv zeta in *. rewrite W2, (W1 File eq_refl). auto.
Qed.

(** Whatever exists under the name [p] that is looked at is never touched again. *)
Lemma target_stuck dec remote d : forall ks s, s Target = Some d -> attempts cut Local (Some dec) remote s ks Target = Some d.
Proof.
  induction ks as [|k ks IH]; intros s H; [exact H|]. cbn [attempts fold_left]. apply IH. unfold attempt, fetch.
  assert (D : forall j, run s (firstn j (download cut Local remote s)) Target = Some d).
  { intros j. unfold download. destruct (exists_ s File); [rewrite firstn_nil; exact H|]. rewrite firstn_app, run_app.
    destruct (write_partial Tmp remote j s) as [W1 _]. cbv zeta in W1. set (s1 := run s (firstn j (write_file cut Tmp remote))) in *.
    destruct (j - length (write_file cut Tmp remote)); cbn [firstn]; [change (run s1 []) with s1; rewrite (W1 Target eq_refl); exact H|]. rewrite firstn_nil.
    cbn [run fold_left apply]. destruct (s1 Tmp); [unfold set; cbn|]; rewrite (W1 Target eq_refl); exact H. }
  pose proof (D (length (download cut Local remote s))) as Df. rewrite firstn_all in Df.
  unfold try_decompress, exists_. rewrite Df. cbn [fst]. rewrite app_nil_r. apply D.
Qed.
Lemma azure_stuck remote d : forall ks s, s File = Some d -> attempts cut Azure None remote s ks File = Some d.
Proof.
  induction ks as [|k ks IH]; intros s H; [exact H|]. cbn [attempts fold_left]. apply IH. unfold attempt. rewrite no_comp. unfold download, exists_. rewrite H.
  cbn [fst]. rewrite firstn_nil. exact H.
Qed.
End R.

Lemma cut_ok_sing : cut_ok (fun l => map (fun x => [x]) l).
Proof. intros l. induction l as [|x l IH]; [reflexivity|cbn; f_equal; exact IH]. Qed.
