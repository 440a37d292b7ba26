From Verif Require Import Base Assign_Model Assign_Spec Shuffle_Proofs Sampler_Model Sampler_Spec.
Local Ltac Zify.zify_post_hook ::= idtac.

(** ** [every] *)
Section Every.
Context {A : Type}.
Lemma every_app nw (l1 l2 : list A) : forall d, exists d', every nw d (l1 ++ l2) = every nw d l1 ++ every nw d' l2.
Proof.
  induction l1 as [|x l1 IH]; intros d; [exists d; reflexivity|]. destruct d as [|d]; cbn [app every].
  - destruct (IH (nw - 1)) as (d' & E). exists d'. rewrite E. reflexivity.
  - apply IH.
Qed.
Lemma every_repeat nw (x : A) : forall k d, exists j, every nw d (repeat x k) = repeat x j.
Proof.
  induction k as [|k IH]; intros d; [exists 0; reflexivity|]. destruct d as [|d]; cbn [repeat every].
  - destruct (IH (nw - 1)) as (j & E). exists (S j). rewrite E. reflexivity.
  - apply IH.
Qed.
Lemma every_In nw (l : list A) x : forall d, In x (every nw d l) -> In x l.
Proof.
  induction l as [|y l IH]; intros [|d] H; cbn in *; try contradiction; [destruct H as [->|H]|]; eauto.
Qed.
Lemma every_map {B} nw (f : A -> B) : forall l d, every nw d (map f l) = map f (every nw d l).
Proof. induction l as [|x l IH]; intros [|d]; cbn; auto. f_equal; apply IH. Qed.

Lemma every_partition nw (l : list A) : 1 <= nw -> Permutation (flat_map (fun w => every nw w l) (seq 0 nw)) l.
Proof.
  intros Hn. induction l as [|x l IH].
  - clear. generalize (seq 0 nw). intros q. induction q; cbn; auto.
  - transitivity (x :: flat_map (fun w => every nw w l) (seq 0 nw)); [|constructor; exact IH].
    destruct nw as [|nw]; [lia|].
    assert (E : flat_map (fun w => every (S nw) w (x :: l)) (seq 0 (S nw)) =
                x :: every (S nw) nw l ++ flat_map (fun w => every (S nw) w l) (seq 0 nw)).
    { cbn [seq flat_map every]. replace (S nw - 1) with nw by lia. cbn [app]. f_equal. f_equal.
      rewrite <- seq_shift. rewrite flat_map_concat_map, map_map, <- flat_map_concat_map. reflexivity. }
    rewrite E, (seq_S nw 0). constructor. rewrite flat_map_app. cbn [flat_map Nat.add]. rewrite app_nil_r.
    apply Permutation_app_comm.
Qed.
End Every.

(** ** [deal] *)
Definition gap (nw w m : nat) : nat := if m <=? w then w - m else w + nw - m.
Lemma gap_step nw w c : w < nw -> gap nw w (S c mod nw) =
  match gap nw w (c mod nw) with 0 => nw - 1 | S d => d end.
Proof.
  intros H. pose proof (Nat.mod_upper_bound c nw ltac:(lia)) as Hm.
  assert (E : S c mod nw = if S (c mod nw) =? nw then 0 else S (c mod nw)).
  { rewrite <- Nat.add_1_r. rewrite Nat.add_mod by lia. destruct (Nat.eqb_spec (S (c mod nw)) nw) as [E|E].
    - destruct (Nat.eq_dec nw 1) as [->|]; [rewrite !Nat.mod_1_r; reflexivity|].
      rewrite (Nat.mod_small 1 nw) by lia. replace (c mod nw + 1) with nw by lia. apply Nat.mod_same. lia.
    - rewrite (Nat.mod_small 1 nw) by lia. rewrite Nat.mod_small by lia. lia. }
  rewrite E. generalize dependent (c mod nw). intros m Hm _. unfold gap.
  destruct (Nat.eqb_spec (S m) nw), (Nat.leb_spec m w).
  - replace (w - m) with 0 by lia. cbn. lia.
  - cbn [Nat.leb]. destruct (w + nw - m) eqn:E'; lia.
  - destruct (Nat.leb_spec (S m) w); destruct (w - m) eqn:E'; lia.
  - destruct (Nat.leb_spec (S m) w); destruct (w + nw - m) eqn:E'; lia.
Qed.
Lemma gap_zero nw w c : w < nw -> (gap nw w (c mod nw) = 0 <-> c mod nw = w).
Proof.
  intros H. pose proof (Nat.mod_upper_bound c nw ltac:(lia)) as Hm. generalize dependent (c mod nw). intros m Hm.
  unfold gap. destruct (Nat.leb_spec m w); lia.
Qed.

Lemma deal_from {A} nw w (l : list A) : w < nw -> forall c,
  map snd (filter (fun p => fst p mod nw =? w) (combine (seq c (length l)) l)) = every nw (gap nw w (c mod nw)) l.
Proof.
  intros H. induction l as [|x l IH]; intros c; [reflexivity|]. cbn [length seq combine filter fst].
  pose proof (gap_zero nw w c H) as Z. pose proof (gap_step nw w c H) as S. specialize (IH (Datatypes.S c)). rewrite S in IH.
  destruct (Nat.eqb_spec (c mod nw) w) as [E|E].
  - apply Z in E. rewrite E in *. cbn [map snd every]. f_equal. exact IH.
  - destruct (gap nw w (c mod nw)) as [|d]; [tauto|]. exact IH.
Qed.
Lemma deal_every {A} nw w (l : list A) : w < nw -> deal nw w l = every nw w l.
Proof.
  intros H. unfold deal. rewrite deal_from by exact H. f_equal. rewrite Nat.mod_small by lia. unfold gap. cbn. lia.
Qed.

(** ** [chunk_list] *)
Section Lists.
Context {A : Type}.
Lemma chunk_from_ok b : 1 <= b -> forall fuel pos (arr : list A), length arr - pos <= fuel ->
  chunk_from fuel pos b arr = pieces b (skipn pos arr).
Proof.
  intros Hb. induction fuel as [|fuel IH]; intros pos arr Hf; cbn [chunk_from].
  - rewrite skipn_all2 by lia. reflexivity.
  - destruct (Nat.ltb_spec pos (length arr)) as [H|H].
    + rewrite pieces_cons; [|exact Hb|intros E; apply (f_equal (@length A)) in E; rewrite skipn_length in E; cbn in E; lia].
      f_equal. rewrite IH by lia. f_equal.
      assert (G : forall m n (l : list A), skipn m (skipn n l) = skipn (n + m) l).
      { intros m n; induction n as [|n IHn]; intros [|x l]; cbn; auto. destruct m; reflexivity. }
      rewrite G. reflexivity.
    + rewrite skipn_all2 by lia. reflexivity.
Qed.
Lemma chunk_lists_ok b (arrs : list (list A)) : 1 <= b -> chunk_lists b arrs = Ok (map (pieces b) arrs).
Proof.
  intros Hb. induction arrs as [|a arrs IH]; [reflexivity|]. cbn [chunk_lists map]. unfold chunk_list.
  replace (b =? 0) with false by lia. rewrite chunk_from_ok by lia. cbn [bind skipn]. rewrite IH. reflexivity.
Qed.

Lemma pieces_shape b (l : list A) : 1 <= b -> exists full last, pieces b l = full ++ last /\
  Forall (fun x => length x = b) full /\ length last <= 1 /\ Forall (fun x => 1 <= length x <= b) last.
Proof.
  intros Hb. induction l as [l IH] using list_len_ind. destruct l as [|x l].
  - exists [], []. cbn. repeat split; auto; lia.
  - rewrite pieces_cons by (auto; congruence).
    destruct (le_lt_dec b (length (x :: l))) as [H|H].
    + destruct (IH (skipn b (x :: l))) as (full & last & E & F & L & G); [rewrite skipn_length; cbn [length]; lia|].
      exists (firstn b (x :: l) :: full), last. rewrite E. split; [reflexivity|]. split; [|split; assumption].
      constructor; [rewrite firstn_length; lia|exact F].
    + rewrite skipn_all2 by lia. rewrite firstn_all2 by lia. rewrite pieces_nil. exists [], [x :: l].
      repeat split; auto. constructor; [cbn [length] in *; lia|constructor].
Qed.
Lemma pieces_nonempty b (l : list A) : 1 <= b -> Forall (fun x => x <> []) (pieces b l).
Proof.
  intros Hb. destruct (pieces_shape b l Hb) as (f & la & -> & F & _ & G). apply Forall_app. split.
  - eapply Forall_impl; [|exact F]. intros [|] ?; cbn in *; [lia|congruence].
  - eapply Forall_impl; [|exact G]. intros [|] ?; cbn in *; [lia|congruence].
Qed.

(** ** [weave] *)
Notation lens := (fun lists : list (list (list A)) => sum (map (@length _) lists)).
Lemma lens_zero (lists : list (list (list A))) : lens lists = 0 -> forall w l, nth_error lists w = Some l -> l = [].
Proof.
  intros H w l E. apply nth_error_In in E. induction lists as [|x lists IH]; [contradiction|]. cbn in H.
  destruct E as [->|E]; [destruct l; [reflexivity|cbn in H; lia]|apply IH; [lia|exact E]].
Qed.
Lemma lens_zero_rev (lists : list (list (list A))) : (forall w l, nth_error lists w = Some l -> l = []) -> lens lists = 0.
Proof.
  induction lists as [|x lists IH]; intros H; [reflexivity|]. cbn. rewrite (H 0 x eq_refl). cbn. apply IH.
  intros w l E. apply (H (S w) l E).
Qed.

Lemma weave_ok nw : 1 <= nw -> forall fuel c (lists : list (list (list A))), length lists = nw ->
  (forall w l, nth_error lists w = Some l -> l <> [] -> gap nw w (c mod nw) + nw * (length l - 1) + 1 <= fuel) ->
  exists r, weave fuel nw c lists = Ok r /\
    (lens lists = 0 -> r = []) /\
    forall w l, nth_error lists w = Some l -> exists k, every nw (gap nw w (c mod nw)) r = l ++ repeat [] k.
Proof.
  intros Hnw. induction fuel as [|fuel IH]; intros c lists Hl Hf.
  - assert (Z : lens lists = 0).
    { apply lens_zero_rev. intros w l E. destruct l; [reflexivity|]. specialize (Hf w _ E ltac:(congruence)). rewrite Nat.add_1_r in Hf. inversion Hf. }
    exists []. cbn [weave]. rewrite Z. cbn. split; [reflexivity|]. split; [reflexivity|]. intros w l E. exists 0.
    rewrite (lens_zero lists Z w l E). reflexivity.
  - cbn [weave]. destruct (Nat.eqb_spec (lens lists) 0) as [Z|Z].
    { exists []. split; [reflexivity|]. split; [reflexivity|]. intros w l E. exists 0.
      rewrite (lens_zero lists Z w l E). destruct (gap nw w (c mod nw)); reflexivity. }
    pose proof (Nat.mod_upper_bound c nw ltac:(lia)) as Hm.
    destruct (nth_error lists (c mod nw)) as [cur|] eqn:Ec; [|apply nth_error_None in Ec; lia].
    destruct cur as [|b bs].
    + destruct (IH (S c) lists Hl) as (r & E & _ & P).
      { intros w l El Hne. assert (Hw : w < nw) by (rewrite <- Hl; apply nth_error_Some; congruence).
        specialize (Hf w l El Hne). rewrite gap_step by exact Hw. pose proof (gap_zero nw w c Hw) as G.
        destruct (gap nw w (c mod nw)) as [|d]; [|generalize dependent (nw * (length l - 1)); intros; lia].
        assert (c mod nw = w) by tauto. subst w. congruence. }
      rewrite E. cbn [bind]. eexists; split; [reflexivity|]. split; [congruence|].
      intros w l El. assert (Hw : w < nw) by (rewrite <- Hl; apply nth_error_Some; congruence).
      destruct (P w l El) as (k & P'). rewrite gap_step in P' by exact Hw. pose proof (gap_zero nw w c Hw) as G.
      destruct (gap nw w (c mod nw)) as [|d]; cbn [every]; [|exists k; exact P'].
      assert (E' : c mod nw = w) by tauto. subst w. rewrite Ec in El. injection El as <-.
      exists (S k). rewrite P'. reflexivity.
    + destruct (IH (S c) (upd (c mod nw) (fun _ => bs) lists)) as (r & E & _ & P).
      { rewrite upd_length. exact Hl. }
      { intros w l El Hne. assert (Hw : w < nw) by (rewrite <- Hl, <- (upd_length (c mod nw) (fun _ => bs)); apply nth_error_Some; congruence).
        rewrite gap_step by exact Hw. pose proof (gap_zero nw w c Hw) as G.
        destruct (Nat.eq_dec (c mod nw) w) as [E'|E'].
        - subst w. rewrite nth_error_upd_eq, Ec in El. cbn in El. injection El as <-.
          specialize (Hf _ _ Ec ltac:(congruence)). cbn [length] in Hf. rewrite (proj2 G eq_refl) in *.
          destruct bs as [|b' bs]; [congruence|]. cbn [length] in *. nia.
        - rewrite nth_error_upd_neq in El by exact E'. specialize (Hf w l El Hne).
          destruct (gap nw w (c mod nw)) as [|d]; [tauto|generalize dependent (nw * (length l - 1)); intros; lia]. }
      rewrite E. cbn [bind]. eexists; split; [reflexivity|]. split; [congruence|].
      intros w l El. assert (Hw : w < nw) by (rewrite <- Hl; apply nth_error_Some; congruence).
      pose proof (gap_zero nw w c Hw) as G. pose proof (gap_step nw w c Hw) as S.
      destruct (Nat.eq_dec (c mod nw) w) as [E'|E'].
      * subst w. rewrite Ec in El. injection El as <-. rewrite (proj2 G eq_refl) in *. cbn [every].
        destruct (P (c mod nw) bs) as (k & P'); [rewrite nth_error_upd_eq, Ec; reflexivity|].
        rewrite S in P'. exists k. rewrite P'. reflexivity.
      * destruct (P w l) as (k & P'); [rewrite nth_error_upd_neq by exact E'; exact El|]. rewrite S in P'.
        destruct (gap nw w (c mod nw)) as [|d]; [tauto|]. exists k. exact P'.
Qed.

Lemma repeat_snoc {B} (x : B) k : repeat x k ++ [x] = repeat x (S k).
Proof. induction k as [|k IH]; cbn; [reflexivity|]. f_equal. exact IH. Qed.

Lemma trim_ok (l : list (list A)) : (exists x, In x l /\ x <> []) ->
  exists t k, bind (trim_rev (rev l)) (fun t => Ok (rev t)) = Ok t /\ l = t ++ repeat [] k.
Proof.
  induction l as [|x l IH] using rev_ind; intros (y & Hy & Hne); [contradiction|].
  rewrite rev_app_distr. cbn [rev app]. destruct x as [|a x].
  - cbn [trim_rev]. destruct IH as (t & k & E & Hl).
    { exists y. split; [|exact Hne]. apply in_app_or in Hy. destruct Hy as [Hy|[<-|[]]]; [exact Hy|congruence]. }
    exists t, (S k). split; [exact E|]. rewrite Hl, <- app_assoc, repeat_snoc. reflexivity.
  - cbn [trim_rev bind]. exists (l ++ [a :: x]), 0. split; [|cbn; rewrite app_nil_r; reflexivity].
    cbn [rev]. rewrite rev_involutive. reflexivity.
Qed.

Lemma prefix_of_nonempty (L : list (list A)) : Forall (fun x => x <> []) L -> forall X j k,
  X ++ repeat [] j = L ++ repeat [] k -> exists k', X = L ++ repeat [] k'.
Proof.
  induction 1 as [|x L Hx HL IH]; intros X j k E.
  - cbn [app] in *. clear -E. revert k E. induction X as [|y X IH]; intros k E; [exists 0; reflexivity|].
    destruct k as [|k]; [discriminate|]. cbn in E. injection E as -> E. destruct (IH k E) as (k' & ->). exists (S k'). reflexivity.
  - destruct X as [|y X]; cbn [app] in E.
    + destruct j; cbn in E; [discriminate|]. injection E as E _. congruence.
    + injection E as -> E. destruct (IH X j k E) as (k' & ->). exists k'. reflexivity.
Qed.

Lemma lens_In (lists : list (list (list A))) w l : nth_error lists w = Some l -> length l <= lens lists.
Proof. revert w; induction lists as [|x lists IH]; intros [|w] E; try discriminate; cbn in *; [injection E as ->; lia|]. specialize (IH w E). lia. Qed.

Theorem iter_per_workers_ok nw (lists : list (list (list A))) : 1 <= nw -> length lists = nw ->
  Forall (Forall (fun x => x <> [])) lists -> (exists l, In l lists /\ l <> []) ->
  exists r, iter_per_workers nw lists = Ok r /\
    forall w l, nth_error lists w = Some l -> exists k, received nw w r = l ++ repeat [] k.
Proof.
  intros Hn Hl Hne (l0 & Hl0 & Hne0). unfold iter_per_workers.
  assert (G0 : forall w, w < nw -> gap nw w (0 mod nw) = w).
  { intros w Hw. rewrite Nat.mod_small by lia. unfold gap. cbn. lia. }
  destruct (weave_ok nw Hn (nw * lens lists) 0 lists Hl) as (r & E & _ & P).
  { intros w l El Hnl. assert (Hw : w < nw) by (rewrite <- Hl; apply nth_error_Some; congruence).
    rewrite G0 by exact Hw. pose proof (lens_In lists w l El). destruct l; [congruence|]. cbn [length] in *. nia. }
  rewrite E. cbn [bind].
  assert (P0 : forall w l, nth_error lists w = Some l -> exists k, every nw w r = l ++ repeat [] k).
  { intros w l El. assert (Hw : w < nw) by (rewrite <- Hl; apply nth_error_Some; congruence).
    specialize (P w l El). rewrite G0 in P by exact Hw. exact P. }
  destruct (trim_ok r) as (t & k & Et & Ht).
  { apply In_nth_error in Hl0. destruct Hl0 as (w & Hw). destruct (P0 w l0 Hw) as (k & E').
    assert (Hf : Forall (fun x => x <> []) l0) by (rewrite Forall_forall in Hne; apply Hne; eapply nth_error_In; eauto).
    destruct l0 as [|x l0]; [congruence|]. exists x. split; [|inversion Hf; assumption].
    apply (every_In nw r x w). rewrite E'. left; reflexivity. }
  exists t. split; [exact Et|]. intros w l El. destruct (P0 w l El) as (k' & E').
  rewrite Ht in E'. destruct (every_app nw t (repeat [] k) w) as (d' & E2). rewrite E2 in E'.
  destruct (every_repeat nw (@nil A) k d') as (j & E3). rewrite E3 in E'.
  apply (prefix_of_nonempty l) with (j := j) (k := k').
  - rewrite Forall_forall in Hne. apply Hne. eapply nth_error_In; eauto.
  - exact E'.
Qed.

Lemma concat_repeat_nil k : concat (repeat (@nil A) k) = [].
Proof. induction k; cbn; auto. Qed.

(** Nothing is lost: the batches hold what the workers' lists hold. *)
Lemma received_perm nw (lists : list (list (list A))) r : 1 <= nw -> length lists = nw ->
  (forall w l, nth_error lists w = Some l -> exists k, received nw w r = l ++ repeat [] k) ->
  Permutation (concat r) (concat (concat lists)).
Proof.
  intros Hn Hl P. transitivity (concat (flat_map (fun w => every nw w r) (seq 0 nw))).
  - apply Permutation_concat, Permutation_sym, every_partition. exact Hn.
  - assert (G : forall pre suf, lists = pre ++ suf ->
      concat (flat_map (fun w => every nw w r) (seq (length pre) (length suf))) = concat (concat suf)).
    { intros pre suf; revert pre; induction suf as [|l suf IH]; intros pre E; [reflexivity|].
      cbn [length seq flat_map concat]. rewrite !concat_app. f_equal.
      - destruct (P (length pre) l) as (k & E').
        { rewrite E, nth_error_app2, Nat.sub_diag by lia. reflexivity. }
        unfold received in E'. rewrite E', concat_app, concat_repeat_nil, app_nil_r. reflexivity.
      - specialize (IH (pre ++ [l])). rewrite app_length, Nat.add_1_r in IH. apply IH. rewrite E, <- app_assoc. reflexivity. }
    specialize (G [] lists eq_refl). cbn [length] in G. rewrite Hl in G. rewrite <- G. reflexivity.
Qed.

(** The batches of [chunk_lists] woven together. *)
Theorem batches_ok nw b (shares : list (list A)) : 1 <= nw -> 1 <= b -> length shares = nw -> concat shares <> [] ->
  exists r, bind (chunk_lists b shares) (iter_per_workers nw) = Ok r /\
    Permutation (concat r) (concat shares) /\
    forall w s, nth_error shares w = Some s -> concat (received nw w r) = s /\ full_but_last b (received nw w r).
Proof.
  intros Hn Hb Hl Hne. rewrite chunk_lists_ok by exact Hb. cbn [bind].
  destruct (iter_per_workers_ok nw (map (pieces b) shares) Hn) as (r & E & P).
  - rewrite map_length. exact Hl.
  - apply Forall_forall. intros l Hin. apply in_map_iff in Hin. destruct Hin as (s & <- & _). apply pieces_nonempty. exact Hb.
  - destruct (concat shares) as [|x c] eqn:E; [congruence|]. assert (Hx : In x (concat shares)) by (rewrite E; left; reflexivity).
    apply in_concat in Hx. destruct Hx as (s & Hs & Hx). exists (pieces b s). split; [apply in_map; exact Hs|].
    intros E'. apply (f_equal (@concat _)) in E'. rewrite concat_pieces in E' by exact Hb. subst s. contradiction.
  - exists r. split; [exact E|]. split.
    + rewrite (received_perm nw (map (pieces b) shares) r Hn ltac:(rewrite map_length; exact Hl) P).
      clear -Hb. induction shares as [|s shares IH]; [reflexivity|]. cbn [map concat]. rewrite concat_app, concat_pieces by exact Hb.
      apply Permutation_app_head. exact IH.
    + intros w s Hs. destruct (P w (pieces b s)) as (k & E'); [rewrite nth_error_map, Hs; reflexivity|].
      rewrite E'. split; [rewrite concat_app, concat_repeat_nil, app_nil_r; apply concat_pieces; exact Hb|].
      destruct (pieces_shape b s Hb) as (full & last & E2 & H1 & H2 & H3). exists full, last, k.
      rewrite E2, <- app_assoc. auto.
Qed.

(** ** Shares *)
Lemma worker_slices_concat nw size (l : list A) : 1 <= nw -> nw * size <= length l -> concat (worker_slices nw size l) = l.
Proof.
  intros Hn H. unfold worker_slices. set (f := fun w => _).
  assert (G : forall m, m < nw -> concat (map f (seq 0 m)) = firstn (m * size) l).
  { induction m as [|m IH]; intros Hm; [reflexivity|]. rewrite seq_S, map_app, concat_app, IH by lia. cbn [map concat Nat.add].
    rewrite app_nil_r. unfold f. replace (m =? nw - 1) with false by lia.
    replace ((m + 1) * size - m * size) with size by lia. replace (S m * size) with (m * size + size) by lia.
    generalize (m * size). clear. intros a. revert l. induction a as [|a IH]; intros [|x l]; cbn; auto; [destruct size; reflexivity|].
    f_equal. apply IH. }
  destruct nw as [|n]; [lia|]. rewrite seq_S, map_app, concat_app, G by lia. cbn [map concat Nat.add]. rewrite app_nil_r.
  unfold f. replace (n =? S n - 1) with true by lia.
  rewrite (firstn_all2 (n := length l - n * size)) by (rewrite skipn_length; lia). apply firstn_skipn.
Qed.
Lemma worker_slices_length nw size (l : list A) : length (worker_slices nw size l) = nw.
Proof. unfold worker_slices. rewrite map_length, seq_length. reflexivity. Qed.
End Lists.

Lemma slice_seq : forall a b s n, exists s' n', firstn a (skipn b (seq s n)) = seq s' n'.
Proof.
  intros a b; revert a; induction b as [|b IH]; intros a s n.
  - cbn [skipn]. revert s n; induction a as [|a IHa]; intros s n; [exists 0, 0; reflexivity|].
    destruct n as [|n]; [exists 0, 0; reflexivity|]. cbn [seq firstn]. destruct (IHa (S s) n) as (s' & n' & E).
    destruct n' as [|n']; [exists s, 1; rewrite E; reflexivity|].
    exists s, (S (S n')). rewrite E. cbn [seq]. f_equal.
    destruct a as [|a]; [discriminate|]. destruct n as [|n]; [discriminate|]. cbn in E. injection E as Es _. subst s'. reflexivity.
  - destruct n as [|n]; cbn [seq skipn]; [exists 0, 0; destruct a; reflexivity|]. apply IH.
Qed.

Lemma worker_slices_seq nw size s n w sl : nth_error (worker_slices nw size (seq s n)) w = Some sl ->
  exists s' n', sl = seq s' n'.
Proof.
  unfold worker_slices. rewrite nth_error_map. destruct (nth_error (seq 0 nw) w); [|discriminate]. cbn [option_map].
  intros E. injection E as <-. apply slice_seq.
Qed.

Lemma sum_lengths_concat {A} (ls : list (list A)) : sum (map (@length _) ls) = length (concat ls).
Proof. symmetry. apply length_concat. Qed.

Theorem non_distributed_ok n nw b : 1 <= n -> 1 <= nw -> 1 <= b ->
  exists r, iter_non_distributed n nw b = Ok r /\ Permutation (concat r) (seq 0 n) /\
    forall w, w < nw -> (exists s k, concat (received nw w r) = seq s k) /\ full_but_last b (received nw w r).
Proof.
  intros Hn Hw Hb. unfold iter_non_distributed.
  assert (C : concat (worker_slices nw (n / nw) (seq 0 n)) = seq 0 n).
  { apply worker_slices_concat; [exact Hw|]. rewrite seq_length. apply Nat.mul_div_le. lia. }
  rewrite sum_lengths_concat, C, seq_length, Nat.eqb_refl. cbn [negb].
  destruct (batches_ok nw b (worker_slices nw (n / nw) (seq 0 n)) Hw Hb) as (r & E & P & F).
  - apply worker_slices_length.
  - rewrite C. destruct n; [lia|discriminate].
  - exists r. split; [exact E|]. split; [rewrite P, C; reflexivity|]. intros w Hlt.
    destruct (nth_error (worker_slices nw (n / nw) (seq 0 n)) w) as [s|] eqn:Es.
    + destruct (F w s Es) as [F1 F2]. split; [|exact F2]. rewrite F1. eapply worker_slices_seq; eauto.
    + apply nth_error_None in Es. rewrite worker_slices_length in Es. lia.
Qed.

Definition replica_share (n replicas rank : nat) : list nat :=
  let size := n / replicas in
  firstn ((if rank =? replicas - 1 then n else (rank + 1) * size) - rank * size) (skipn (rank * size) (seq 0 n)).

Lemma replica_shares n replicas : 1 <= replicas -> flat_map (replica_share n replicas) (seq 0 replicas) = seq 0 n.
Proof.
  intros H. rewrite flat_map_concat_map.
  rewrite <- (worker_slices_concat replicas (n / replicas) (seq 0 n)) at 1 by
    (try exact H; rewrite seq_length; apply Nat.mul_div_le; lia).
  unfold worker_slices. f_equal. apply map_ext. intros w. unfold replica_share. rewrite seq_length. reflexivity.
Qed.

Lemma replica_share_length n replicas rank : rank < replicas -> n / replicas <= length (replica_share n replicas rank).
Proof.
  intros H. unfold replica_share. rewrite firstn_length, skipn_length, seq_length.
  pose proof (Nat.mul_div_le n replicas ltac:(lia)) as D. generalize dependent (n / replicas). intros q D.
  assert ((rank + 1) * q <= n) by nia. destruct (Nat.eqb_spec rank (replicas - 1)); nia.
Qed.

Theorem distributed_ok n replicas nw b : 1 <= replicas -> replicas <= n -> 1 <= nw -> 1 <= b ->
  exists out, (forall rank, rank < replicas -> iter_distributed n replicas rank nw b = Ok (out rank)) /\
    Permutation (concat (flat_map out (seq 0 replicas))) (seq 0 n) /\
    forall rank w, rank < replicas -> w < nw ->
      (exists s k, concat (received nw w (out rank)) = seq s k) /\ full_but_last b (received nw w (out rank)).
Proof.
  intros Hr Hn Hw Hb.
  assert (G : forall rank, rank < replicas -> exists r, iter_distributed n replicas rank nw b = Ok r /\
    Permutation (concat r) (replica_share n replicas rank) /\
    forall w, w < nw -> (exists s k, concat (received nw w r) = seq s k) /\ full_but_last b (received nw w r)).
  { intros rank Hlt. unfold iter_distributed. fold (replica_share n replicas rank). cbn zeta.
    replace (replicas <=? rank) with false by lia.
    pose proof (replica_share_length n replicas rank Hlt) as L.
    assert (Hs : exists s k, replica_share n replicas rank = seq s k) by apply slice_seq.
    set (mine := replica_share n replicas rank) in *. clearbody mine.
    assert (Hq : nw * (n / (replicas * nw)) <= length mine).
    { rewrite <- Nat.div_div by lia. pose proof (Nat.mul_div_le (n / replicas) nw ltac:(lia)). lia. }
    assert (C : concat (worker_slices nw (n / (replicas * nw)) mine) = mine) by (apply worker_slices_concat; assumption).
    assert (Hm : 1 <= length mine).
    { assert (1 <= n / replicas) by (apply Nat.div_le_lower_bound; lia). lia. }
    rewrite sum_lengths_concat, C, Nat.eqb_refl. cbn [negb].
    destruct (batches_ok nw b (worker_slices nw (n / (replicas * nw)) mine) Hw Hb) as (r & E & P & F).
    - apply worker_slices_length.
    - rewrite C. destruct mine; [cbn in Hm; lia|discriminate].
    - exists r. split; [exact E|]. split; [rewrite P, C; reflexivity|]. intros w Hlt'.
      destruct (nth_error (worker_slices nw (n / (replicas * nw)) mine) w) as [s|] eqn:Es.
      + destruct (F w s Es) as [F1 F2]. split; [|exact F2]. rewrite F1. destruct Hs as (s0 & k0 & ->). eapply worker_slices_seq; eauto.
      + apply nth_error_None in Es. rewrite worker_slices_length in Es. lia. }
  exists (fun rank => match iter_distributed n replicas rank nw b with Ok r => r | Err _ => [] end).
  split; [|split].
  - intros rank Hlt. destruct (G rank Hlt) as (r & -> & _). reflexivity.
  - rewrite <- (replica_shares n replicas Hr).
    assert (forall l, (forall x, In x l -> x < replicas) ->
      Permutation (concat (flat_map (fun rank => match iter_distributed n replicas rank nw b with Ok r => r | Err _ => [] end) l))
                  (flat_map (replica_share n replicas) l)).
    { induction l as [|x l IH]; intros Hx; [reflexivity|]. cbn [flat_map]. rewrite concat_app. apply Permutation_app.
      - destruct (G x (Hx x (or_introl eq_refl))) as (r & -> & P & _). exact P.
      - apply IH. intros y Hy; apply Hx; right; exact Hy. }
    apply H. intros x Hx. apply in_seq in Hx. lia.
  - intros rank w Hlt Hlw. destruct (G rank Hlt) as (r & -> & _ & F). apply F. exact Hlw.
Qed.

(** ** Validation *)
Lemma diff_sum_seq : forall k s, diff_sum (seq s k) = 0%Z.
Proof.
  induction k as [|k IH]; intros s; [reflexivity|]. destruct k as [|k]; [reflexivity|].
  specialize (IH (S s)). cbn [seq] in *. cbn [diff_sum]. cbn [diff_sum] in IH. rewrite IH. lia.
Qed.
Lemma collected_received nw w (r : list (list nat)) : w < nw -> collected nw w r = concat (received nw w r).
Proof. intros H. unfold collected, received. rewrite deal_every by exact H. reflexivity. Qed.
