(** Lemmas about the skip-deletion table. *)
From Verif Require Import Base Assign_Model Assign_Spec Skip_Model Skip_Spec.
Local Ltac Zify.zify_post_hook ::= idtac.

(** ** Dictionaries *)

Lemma dget_add_to k v k' d :
  dget k' (add_to k v d) =
  if k =? k' then Some (match dget k' d with Some vs => vs ++ [v] | None => [v] end) else dget k' d.
Proof.
  induction d as [|[k0 vs] d IH]; cbn; [reflexivity|].
  destruct (Nat.eqb_spec k0 k) as [->|H0].
  - cbn. destruct (Nat.eqb_spec k k') as [->|H]; reflexivity.
  - cbn. rewrite IH. destruct (Nat.eqb_spec k0 k') as [->|H1]; [|reflexivity].
    destruct (Nat.eqb_spec k k') as [->|]; [congruence|reflexivity].
Qed.

Lemma keys_add_to k v d : forall k', In k' (map fst (add_to k v d)) <-> k' = k \/ In k' (map fst d).
Proof.
  induction d as [|[k0 vs] d IH]; intros k'; cbn; [intuition|].
  destruct (Nat.eqb_spec k0 k) as [->|H0]; cbn; [intuition|]. rewrite IH. intuition.
Qed.

Lemma NoDup_add_to k v d : NoDup (map fst d) -> NoDup (map fst (add_to k v d)).
Proof.
  induction d as [|[k0 vs] d IH]; intros H; cbn; [constructor; [intros []|constructor]|].
  destruct (Nat.eqb_spec k0 k) as [->|H0]; cbn; [exact H|]. inversion H; subst.
  constructor; [|auto]. rewrite keys_add_to. intros [->|Hin]; auto.
Qed.

(** What a sequence of [add_to] builds: the values of a key in order. *)
Definition entries (k : nat) (l : list (nat * nat)) : list nat :=
  map snd (filter (fun kv => fst kv =? k) l).
Definition build (l : list (nat * nat)) (d : list (nat * list nat)) : list (nat * list nat) :=
  fold_left (fun d kv => add_to (fst kv) (snd kv) d) l d.
Definition dflt (o : option (list nat)) : list nat := match o with Some l => l | None => [] end.

Lemma entries_app k l1 l2 : entries k (l1 ++ l2) = entries k l1 ++ entries k l2.
Proof. unfold entries. rewrite filter_app, map_app. reflexivity. Qed.

Lemma build_NoDup l d : NoDup (map fst d) -> NoDup (map fst (build l d)).
Proof. revert d; induction l as [|kv l IH]; intros d H; cbn; [exact H|]. apply IH, NoDup_add_to, H. Qed.

Lemma build_dget l d k : dflt (dget k (build l d)) = dflt (dget k d) ++ entries k l.
Proof.
  revert d; induction l as [|[k0 v] l IH]; intros d; cbn; [rewrite app_nil_r; reflexivity|].
  rewrite IH, dget_add_to. cbn. unfold entries. cbn. destruct (Nat.eqb_spec k0 k) as [->|H]; [|reflexivity].
  destruct (dget k d); cbn; rewrite <- ?app_assoc; reflexivity.
Qed.

Lemma build_Some l d k vs :
  (forall k vs, dget k d = Some vs -> vs <> []) -> dget k (build l d) = Some vs -> vs <> [].
Proof.
  revert d; induction l as [|[k0 v] l IH]; intros d H; cbn; [apply H|]. apply IH.
  intros k1 vs1. rewrite dget_add_to. cbn. destruct (k0 =? k1); [|apply H].
  intros E; injection E as <-. destruct (dget k1 d) as [l0|]; [destruct l0|]; discriminate.
Qed.

Lemma build_dget_nil l k vs : dget k (build l []) = Some vs <-> entries k l = vs /\ vs <> [].
Proof.
  pose proof (build_dget l [] k) as H. cbn in H. split.
  - intros E. rewrite E in H. cbn in H. split; [auto|]. apply (build_Some l [] k vs); [|exact E].
    intros ? ?; discriminate.
  - intros [E Hn]. destruct (dget k (build l [])) as [vs'|] eqn:E'; cbn in H; congruence.
Qed.

(** ** The table of shared chunks *)

(** (chunk, worker) pairs in the order in which the table is built. *)
Definition uses (k : nat) (wc : list (list nat)) : list (nat * nat) :=
  flat_map (fun wch => map (fun c => (c, fst wch)) (snd wch)) (combine (seq k (length wc)) wc).

Lemma fold_nested (pairs : list (nat * list nat)) d :
  fold_left (fun d wc => fold_left (fun d c => add_to c (fst wc) d) (snd wc) d) pairs d =
  build (flat_map (fun wch => map (fun c => (c, fst wch)) (snd wch)) pairs) d.
Proof.
  revert d; induction pairs as [|[w cs] pairs IH]; intros d; cbn; [reflexivity|].
  rewrite IH. unfold build. rewrite fold_left_app. f_equal. clear.
  revert d; induction cs as [|c cs IH]; intros d; cbn; auto.
Qed.

Lemma filter_map_fst_NoDup (f : nat * list nat -> bool) d :
  NoDup (map fst d) -> NoDup (map fst (filter f d)).
Proof.
  induction d as [|x d IH]; cbn; [auto|]. intros H. inversion H; subst.
  destruct (f x); cbn; [|auto]. constructor; [|auto].
  intros Hin. apply H2. apply in_map_iff in Hin. destruct Hin as (y & Hy & Hin).
  apply filter_In in Hin. apply in_map_iff. exists y. tauto.
Qed.

Lemma get_shared_keys wc : NoDup (map fst (get_shared_chunks wc)).
Proof. unfold get_shared_chunks. apply filter_map_fst_NoDup. rewrite fold_nested. apply build_NoDup. constructor. Qed.

Lemma get_shared_In wc c ws :
  In (c, ws) (get_shared_chunks wc) <-> entries c (uses 0 wc) = ws /\ 2 <= length ws.
Proof.
  unfold get_shared_chunks. rewrite filter_In, fold_nested. fold (uses 0 wc). cbn [fst snd].
  rewrite Nat.ltb_lt. split.
  - intros [H Hl]. split; [|lia]. apply In_dget in H; [|apply build_NoDup; constructor].
    apply build_dget_nil in H. tauto.
  - intros [H Hl]. split; [|lia]. apply dget_In, build_dget_nil. split; [exact H|].
    intros ->; cbn in Hl; lia.
Qed.

(** The workers listed for a chunk are its readers, in order. *)
Lemma uses_In k wc c w : In (c, w) (uses k wc) <-> k <= w /\ reads wc (w - k) c.
Proof.
  unfold uses, reads. revert k; induction wc as [|cs wc IH]; intros k; cbn.
  - split; [intros []|]. intros [_ (ch & H & _)]. destruct (w - k); discriminate.
  - rewrite in_app_iff, IH. rewrite in_map_iff. split.
    + intros [(c' & E & Hin)|(Hk & ch & H & Hin)].
      * injection E as -> <-. split; [lia|]. rewrite Nat.sub_diag. exists cs. auto.
      * split; [lia|]. replace (w - k) with (S (w - S k)) by lia. exists ch. auto.
    + intros (Hk & ch & H & Hin). destruct (Nat.eq_dec w k) as [->|Hne].
      * rewrite Nat.sub_diag in H. injection H as ->. left. exists c. auto.
      * right. split; [lia|]. replace (w - k) with (S (w - S k)) in H by lia. exists ch. auto.
Qed.

Lemma entries_In c w l : In w (entries c l) <-> In (c, w) l.
Proof.
  unfold entries. rewrite in_map_iff. split.
  - intros ([c' w'] & <- & H). apply filter_In in H. cbn in H. destruct H as [H E].
    apply Nat.eqb_eq in E. subst. exact H.
  - intros H. exists (c, w). split; [reflexivity|]. apply filter_In. cbn. rewrite Nat.eqb_refl. auto.
Qed.

Lemma entries_uses_bound k wc c w : In w (entries c (uses k wc)) -> k <= w < k + length wc.
Proof.
  rewrite entries_In, uses_In. intros [Hk (ch & H & _)]. 
  assert (w - k < length wc) by (apply nth_error_Some; congruence). lia.
Qed.

Lemma entries_same c w cs :
  entries c (map (fun c' => (c', w)) cs) = repeat w (count_occ Nat.eq_dec cs c).
Proof.
  induction cs as [|x cs IH]; [reflexivity|]. unfold entries in *. cbn.
  destruct (Nat.eq_dec x c) as [->|H]; [rewrite Nat.eqb_refl; cbn; f_equal; exact IH|].
  destruct (Nat.eqb_spec x c); [congruence|exact IH].
Qed.

Lemma entries_uses_NoDup k wc c : Forall (@NoDup nat) wc -> NoDup (entries c (uses k wc)).
Proof.
  revert k; induction wc as [|cs wc IH]; intros k H; [constructor|]. inversion H; subst.
  change (uses k (cs :: wc)) with (map (fun c' => (c', k)) cs ++ uses (S k) wc).
  rewrite entries_app, entries_same.
  assert (Hc : count_occ Nat.eq_dec cs c <= 1) by (apply (proj1 (NoDup_count_occ Nat.eq_dec cs)); auto).
  specialize (IH (S k) H3).
  destruct (count_occ Nat.eq_dec cs c) as [|[|]]; [exact IH| |lia]. cbn. constructor; [|exact IH].
  intros Hin. apply entries_uses_bound in Hin. lia.
Qed.

Lemma entries_ge2_shared wc c :
  Forall (@NoDup nat) wc ->
  (2 <= length (entries c (uses 0 wc)) <-> shared_by_two wc c).
Proof.
  intros Hn. pose proof (entries_uses_NoDup 0 wc c Hn) as Hd.
  assert (HR : forall w, In w (entries c (uses 0 wc)) <-> reads wc w c).
  { intros w. rewrite entries_In, uses_In. rewrite Nat.sub_0_r. split; [tauto|]. intros; split; [lia|auto]. }
  split.
  - destruct (entries c (uses 0 wc)) as [|w1 [|w2 l]]; cbn; try lia. intros _.
    exists w1, w2. inversion Hd; subst. split; [intros ->; apply H1; left; reflexivity|].
    split; apply HR; cbn; auto.
  - intros (w1 & w2 & Hne & H1 & H2). apply HR in H1, H2.
    destruct (entries c (uses 0 wc)) as [|a [|b l]]; cbn in *; [tauto| |lia].
    destruct H1 as [<-|[]], H2 as [<-|[]]; congruence.
Qed.

(** ** The simulation *)

Definition occ (c : nat) (chunks : list (list nat)) : nat :=
  sum (map (fun l => count_occ Nat.eq_dec l c) chunks).

Lemma occ_upd_tl c chunks i cur rest :
  nth_error chunks i = Some (cur :: rest) ->
  occ c chunks = occ c (upd i (@tl nat) chunks) + (if cur =? c then 1 else 0).
Proof.
  revert i; induction chunks as [|l chunks IH]; intros [|i] H; try discriminate.
  - injection H as ->. unfold occ. cbn. destruct (Nat.eq_dec cur c) as [->|Hn];
    [rewrite Nat.eqb_refl|destruct (Nat.eqb_spec cur c); [congruence|]]; lia.
  - unfold occ in *. cbn in *. rewrite (IH i H). lia.
Qed.

Lemma occ_pos c chunks : 1 <= occ c chunks -> exists i l, nth_error chunks i = Some l /\ In c l.
Proof.
  induction chunks as [|l chunks IH]; unfold occ; cbn; [lia|]. intros H.
  destruct (count_occ Nat.eq_dec l c) eqn:E.
  - destruct IH as (i & l' & H1 & H2); [exact H|]. exists (S i), l'. auto.
  - exists 0, l. split; [reflexivity|]. apply (count_occ_In Nat.eq_dec). lia.
Qed.

Definition total (sizes : list (list nat)) : nat := sum (map sum sizes).

Lemma total_upd_tl sizes i x rest :
  nth_error sizes i = Some (x :: rest) -> total sizes = total (upd i (@tl nat) sizes) + x.
Proof.
  revert i; induction sizes as [|l sizes IH]; intros [|i] H; try discriminate.
  - injection H as ->. unfold total; cbn. lia.
  - unfold total in *; cbn in *. rewrite (IH i H). lia.
Qed.

Lemma total_upd_sub sizes i x rest r :
  nth_error sizes i = Some (x :: rest) -> r <= x ->
  total sizes = total (upd i (sub_head r) sizes) + r.
Proof.
  revert i; induction sizes as [|l sizes IH]; intros [|i] H Hr; try discriminate.
  - injection H as ->. unfold total; cbn. lia.
  - unfold total in *; cbn in *. rewrite (IH i H Hr). lia.
Qed.

(** The chunk lists and the lists of sizes stay parallel, all sizes positive. *)
Definition par (nw : nat) (chunks sizes : list (list nat)) : Prop :=
  length chunks = nw /\ length sizes = nw /\
  (forall i l, nth_error sizes i = Some l ->
     Forall (fun x => 1 <= x) l /\ exists l', nth_error chunks i = Some l' /\ length l' = length l).

Lemma par_upd_tl nw chunks sizes i :
  par nw chunks sizes -> par nw (upd i (@tl nat) chunks) (upd i (@tl nat) sizes).
Proof.
  intros (H1 & H2 & H3). split; [rewrite upd_length; exact H1|]. split; [rewrite upd_length; exact H2|].
  intros j l. destruct (Nat.eq_dec i j) as [->|Hn].
  - rewrite !nth_error_upd_eq. destruct (nth_error sizes j) as [l0|] eqn:E; [|discriminate].
    cbn. intros E'; injection E' as <-. destruct (H3 j l0 E) as (HF & l' & -> & Hl).
    split; [destruct HF; cbn; auto|]. exists (tl l'). split; [reflexivity|].
    destruct l', l0; cbn in *; lia.
  - rewrite !nth_error_upd_neq by auto. apply H3.
Qed.

Lemma par_upd_sub nw chunks sizes i x rest r :
  par nw chunks sizes -> nth_error sizes i = Some (x :: rest) -> r < x ->
  par nw chunks (upd i (sub_head r) sizes).
Proof.
  intros (H1 & H2 & H3) Hi Hr. split; [exact H1|]. split; [rewrite upd_length; exact H2|].
  intros j l. destruct (Nat.eq_dec i j) as [->|Hn].
  - rewrite nth_error_upd_eq, Hi. cbn. intros E; injection E as <-.
    destruct (H3 j _ Hi) as (HF & l' & Hc & Hl). inversion HF; subst.
    split; [constructor; [lia|auto]|]. exists l'. split; [exact Hc|]. cbn in *; exact Hl.
  - rewrite nth_error_upd_neq by auto. apply H3.
Qed.

Lemma min_head_le sizes m : min_head sizes = Some m -> forall i x l, nth_error sizes i = Some (x :: l) -> m <= x.
Proof.
  revert m; induction sizes as [|l0 sizes IH]; intros m H i x l Hi; [destruct i; discriminate|].
  destruct l0 as [|y l0]; cbn in H.
  - destruct i; [discriminate|]. eapply IH; eauto.
  - destruct (min_head sizes) as [m'|] eqn:E; injection H as <-.
    + destruct i; cbn in Hi; [injection Hi as -> ->; lia|]. specialize (IH m' eq_refl i x l Hi). lia.
    + destruct i; cbn in Hi; [injection Hi as -> ->; lia|].
      exfalso. clear -E Hi. revert i Hi; induction sizes as [|l1 sizes IH]; intros i Hi; [destruct i; discriminate|].
      destruct l1 as [|z l1]; cbn in E; [destruct i; [discriminate|]; eapply IH; eauto|].
      destruct (min_head sizes); discriminate.
Qed.

Lemma min_head_Some sizes i x l : nth_error sizes i = Some (x :: l) -> exists m, min_head sizes = Some m.
Proof.
  revert i; induction sizes as [|l0 sizes IH]; intros i Hi; [destruct i; discriminate|].
  destruct l0 as [|y l0]; cbn.
  - destruct i; [discriminate|]. eapply IH; eauto.
  - destruct (min_head sizes); eauto.
Qed.

Lemma nth_error_map_some {A B} (f : A -> B) l i y :
  nth_error (map f l) i = Some y -> exists x, nth_error l i = Some x /\ y = f x.
Proof. rewrite nth_error_map. destruct (nth_error l i); cbn; [|discriminate]. intros E; injection E as <-; eauto. Qed.

Lemma total_sub_all sizes k :
  (forall i x l, nth_error sizes i = Some (x :: l) -> k <= x) ->
  total sizes = total (map (sub_head k) sizes) + k * length (filter is_nonempty sizes).
Proof.
  induction sizes as [|l sizes IH]; intros H; [unfold total; cbn; lia|].
  unfold total in *. cbn. rewrite IH by (intros i x l' Hi; apply (H (S i) x l' Hi)).
  destruct l as [|x l]; cbn; [lia|]. specialize (H 0 x l eq_refl). nia.
Qed.

Lemma filter_length_pos {A} (f : A -> bool) l i x : nth_error l i = Some x -> f x = true -> 1 <= length (filter f l).
Proof.
  intros H Hf. assert (Hin : In x (filter f l)) by (apply filter_In; split; [eapply nth_error_In; eauto|exact Hf]).
  destruct (filter f l); [destruct Hin|cbn; lia].
Qed.

(** PART 1 keeps the invariant; if it moves the cursor it also consumes samples. *)
Lemma part1_ok nw B s c :
  1 <= B -> par nw (k_chunks s) (k_sizes s) -> 1 <= occ c (k_chunks s) ->
  exists s1, part1 B s = Ok s1 /\ k_chunks s1 = k_chunks s /\ k_shared s1 = k_shared s /\
    k_carry s1 = k_carry s /\ par nw (k_chunks s1) (k_sizes s1) /\
    ((k_idx s1 = k_idx s /\ k_sizes s1 = k_sizes s) \/ total (k_sizes s1) < total (k_sizes s)).
Proof.
  intros HB HP Ho. unfold part1. destruct (k_carry s) as [r|] eqn:Ec.
  { exists s. do 4 (split; [reflexivity || assumption|]). split; [exact HP|left; auto]. }
  destruct (occ_pos c _ Ho) as (i & l & Hi & Hin). destruct HP as (P1 & P2 & P3).
  assert (Hlt : i < length (k_sizes s)) by (rewrite P2, <- P1; apply nth_error_Some; congruence).
  destruct (nth_error (k_sizes s) i) as [l2|] eqn:E2; [|apply nth_error_None in E2; lia].
  destruct (P3 i l2 E2) as (_ & l' & Hi' & Hlen). rewrite Hi in Hi'. injection Hi' as <-.
  destruct l2 as [|x l2]; [destruct l; [destruct Hin|cbn in Hlen; lia]|].
  destruct (min_head_Some _ _ _ _ E2) as [m Hm]. rewrite Hm.
  eexists; split; [reflexivity|]. cbn [k_chunks k_sizes k_shared k_idx k_carry].
  split; [reflexivity|]. split; [reflexivity|]. split; [reflexivity|].
  set (nb := m / B - 1).
  assert (Hnb : nb = 0 \/ nb * B + B <= m).
  { unfold nb. destruct (Nat.eq_dec (m / B) 0) as [->|H]; [left; reflexivity|]. right.
    pose proof (Nat.mul_div_le m B ltac:(lia)) as Hd. generalize dependent (m / B). intros q _ Hq Hd.
    replace q with (q - 1 + 1) in Hd by lia. nia. }
  assert (Hle : forall j y l3, nth_error (k_sizes s) j = Some (y :: l3) -> nb * B < y).
  { intros j y l3 Hj. pose proof (min_head_le _ _ Hm j y l3 Hj). destruct Hnb as [->|Hnb]; [|lia].
    destruct (P3 j _ Hj) as [HF _]. inversion HF; subst. lia. }
  clearbody nb. split.
  - split; [exact P1|]. split; [rewrite map_length; exact P2|]. intros j l3 Hj.
    apply nth_error_map_some in Hj. destruct Hj as (l4 & Hj & ->).
    destruct (P3 j l4 Hj) as (HF & l5 & H5 & Hl5). destruct l4 as [|y l4]; cbn.
    + split; [constructor|]. exists l5. auto.
    + inversion HF; subst. split; [constructor; [|auto]|exists l5; auto].
      specialize (Hle j y l4 Hj). lia.
  - pose proof (total_sub_all (k_sizes s) (nb * B)) as Ht.
    rewrite Ht by (intros j y l3 Hj; specialize (Hle j y l3 Hj); lia).
    destruct (Nat.eq_dec nb 0) as [->|Hn0].
    + left. cbn. split; [lia|]. clear. induction (k_sizes s) as [|l sz IH]; cbn; [reflexivity|].
      rewrite IH. destruct l; cbn; [reflexivity|]. rewrite Nat.sub_0_r; reflexivity.
    + right. pose proof (filter_length_pos is_nonempty _ _ _ E2 eq_refl). nia.
Qed.

Lemma mod_reach nw idx j : 1 <= nw -> j < nw -> exists k, k < nw /\ (idx + k) mod nw = j.
Proof.
  intros Hn Hj. exists ((j + (nw - idx mod nw)) mod nw). split; [apply Nat.mod_upper_bound; lia|].
  rewrite Nat.add_mod_idemp_r by lia. rewrite <- (Nat.add_mod_idemp_l idx) by lia.
  pose proof (Nat.mod_upper_bound idx nw ltac:(lia)).
  replace (idx mod nw + (j + (nw - idx mod nw))) with (j + 1 * nw) by lia.
  rewrite Nat.mod_add by lia. apply Nat.mod_small; exact Hj.
Qed.

(** Some worker still has something to read while the tracked chunk is not consumed. *)
Lemma reach nw c chunks sizes idx :
  1 <= nw -> par nw chunks sizes -> 1 <= occ c chunks ->
  exists k x l, k < nw /\ nth_error sizes ((idx + k) mod nw) = Some (x :: l).
Proof.
  intros Hn (P1 & P2 & P3) Ho. destruct (occ_pos c _ Ho) as (i & l & Hi & Hin).
  assert (Hlt : i < nw) by (rewrite <- P1; apply nth_error_Some; congruence).
  destruct (mod_reach nw idx i Hn Hlt) as (k & Hk & Hmod).
  destruct (nth_error sizes i) as [l2|] eqn:E2; [|apply nth_error_None in E2; lia].
  destruct (P3 i l2 E2) as (_ & l' & Hi' & Hlen). rewrite Hi in Hi'. injection Hi' as <-.
  destruct l2 as [|x l2]; [destruct l; [destruct Hin|cbn in Hlen; lia]|].
  exists k, x, l2. rewrite Hmod. auto.
Qed.

Definition has (chunks : list (list nat)) (i c : nat) : Prop :=
  exists l, nth_error chunks i = Some l /\ In c l.

Lemma has_upd_tl chunks i j c : has (upd i (@tl nat) chunks) j c -> has chunks j c.
Proof.
  intros (l & Hl & Hin). destruct (Nat.eq_dec i j) as [->|Hn].
  - rewrite nth_error_upd_eq in Hl. destruct (nth_error chunks j) as [l0|] eqn:E; [|discriminate].
    injection Hl as <-. exists l0. split; [exact E|]. destruct l0; cbn in *; auto.
  - rewrite nth_error_upd_neq in Hl by auto. exists l. auto.
Qed.

Definition carry_ok (carry : option nat) : Prop := forall r, carry = Some r -> 1 <= r.

Lemma simulate_ok nw B c : 1 <= nw -> 1 <= B ->
  forall fuel s k x l,
    par nw (k_chunks s) (k_sizes s) -> k_shared s = occ c (k_chunks s) -> 1 <= k_shared s ->
    carry_ok (k_carry s) ->
    k < nw -> nth_error (k_sizes s) ((k_idx s + k) mod nw) = Some (x :: l) ->
    total (k_sizes s) * nw + k < fuel ->
    exists i n, simulate fuel nw B c s = Ok (i, n) /\ i < nw /\ has (k_chunks s) i c.
Proof.
  intros Hnw HB. induction fuel as [|fuel IH]; intros s k x l HP Hs Hs1 Hc Hk Hx Hf; [lia|].
  cbn [simulate]. destruct (part1_ok nw B s c HB HP ltac:(lia)) as (s1 & E1 & Q1 & Q2 & Q3 & QP & Q).
  rewrite E1. cbn [bind]. clear E1.
  (* after part 1 there is again a reachable non-empty worker within the budget *)
  assert (R : exists k1 x1 l1, k1 < nw /\ nth_error (k_sizes s1) ((k_idx s1 + k1) mod nw) = Some (x1 :: l1) /\
                total (k_sizes s1) * nw + k1 < S fuel).
  { destruct Q as [[Qa Qb]|Qt].
    - rewrite Qa, Qb. exists k, x, l. auto.
    - destruct (reach nw c (k_chunks s1) (k_sizes s1) (k_idx s1) Hnw QP ltac:(rewrite Q1; lia))
        as (k1 & x1 & l1 & Hk1 & Hx1). exists k1, x1, l1. split; [exact Hk1|]. split; [exact Hx1|].
      assert ((total (k_sizes s1) + 1) * nw <= total (k_sizes s) * nw) by (apply Nat.mul_le_mono_r; lia).
      lia. }
  rewrite <- Q1 in *. rewrite <- Q2 in *. rewrite <- Q3 in *.
  clear Q Q1 Q2 Q3 HP Hx Hf Hk k x l. destruct R as (k & x & l & Hk & Hx & Hf).
  assert (Again : forall s2, par nw (k_chunks s2) (k_sizes s2) -> k_shared s2 = occ c (k_chunks s2) ->
            1 <= k_shared s2 -> carry_ok (k_carry s2) -> total (k_sizes s2) < total (k_sizes s1) ->
            exists i n, simulate fuel nw B c s2 = Ok (i, n) /\ i < nw /\ has (k_chunks s2) i c).
  { intros s2 A1 A2 A3 A4 A5.
    destruct (reach nw c (k_chunks s2) (k_sizes s2) (k_idx s2) Hnw A1 ltac:(lia)) as (k1 & x1 & l1 & B1 & B2).
    apply (IH s2 k1 x1 l1); auto.
    assert ((total (k_sizes s2) + 1) * nw <= total (k_sizes s1) * nw) by (apply Nat.mul_le_mono_r; lia). lia. }
  unfold part2. set (i := k_idx s1 mod nw). pose proof (Nat.mod_upper_bound (k_idx s1) nw ltac:(lia)) as Hi.
  fold i in Hi. pose proof QP as (P1 & P2 & P3).
  destruct (nth_error (k_sizes s1) i) as [li|] eqn:Ei; [|apply nth_error_None in Ei; lia].
  destruct li as [|left li].
  - (* this worker is exhausted: go to the next one *)
    cbn [bind]. destruct k as [|k].
    { rewrite Nat.add_0_r in Hx. fold i in Hx. congruence. }
    apply (IH (Sk (k_chunks s1) (k_sizes s1) (k_shared s1) (k_idx s1 + 1) (k_carry s1) (k_counter s1)) k x l);
      cbn [k_chunks k_sizes k_shared k_idx k_carry]; try assumption; [lia| |lia].
    replace (k_idx s1 + 1 + k) with (k_idx s1 + S k) by lia. exact Hx.
  - destruct (P3 i _ Ei) as (HF & lc & Hlc & Hll).
    pose proof (Forall_inv HF) as Hleft. cbn in Hleft. clear HF.
    set (rem := match k_carry s1 with None => B | Some r => r end).
    assert (Hrem : 1 <= rem) by (unfold rem; destruct (k_carry s1) as [r|] eqn:E; [apply Hc; reflexivity|exact HB]).
    destruct (Nat.ltb_spec rem left) as [Hlt|Hge].
    + cbn [bind]. match goal with |- context [simulate fuel nw B c ?s2] => apply (Again s2) end; cbn [k_chunks k_sizes k_shared k_idx k_carry]; auto.
      * apply (par_upd_sub nw (k_chunks s1) (k_sizes s1) i left li rem QP Ei Hlt).
      * intros r E; discriminate.
      * pose proof (total_upd_sub (k_sizes s1) i left li rem Ei ltac:(lia)). lia.
    + rewrite Hlc. destruct lc as [|cur lc]; [cbn in Hll; lia|].
      pose proof (occ_upd_tl c (k_chunks s1) i cur lc Hlc) as Hocc.
      pose proof (total_upd_tl (k_sizes s1) i left li Ei) as Htot.
      pose proof (par_upd_tl nw (k_chunks s1) (k_sizes s1) i QP) as HP2.
      set (shared := if cur =? c then k_shared s1 - 1 else k_shared s1).
      assert (Hsh : shared = occ c (upd i (@tl nat) (k_chunks s1))).
      { unfold shared. destruct (cur =? c); lia. }
      destruct (Nat.eqb_spec shared 0) as [Hz|Hz]; destruct (Nat.eqb_spec cur c) as [->|Hne]; cbn [andb bind].
      * exists i, (k_counter s1 + rem). split; [reflexivity|]. split; [exact Hi|].
        exists (c :: lc). split; [exact Hlc|left; reflexivity].
      * exfalso. unfold shared in Hz. lia.
      * match goal with |- context [simulate fuel nw B c ?s2] => edestruct (Again s2) as (i' & n & A1 & A2 & A3) end;
          [| | | | |exists i', n; split; [exact A1|split; [exact A2|eapply has_upd_tl; exact A3]]]; cbn [k_chunks k_sizes k_shared k_idx k_carry]; auto; try lia.
        intros r. destruct (rem =? B) eqn:Erem; [|discriminate].
        destruct (Nat.eqb_spec left B) as [->|Hlb]; [apply Hc|]. intros E; injection E as <-.
        apply Nat.eqb_eq in Erem. lia.
      * match goal with |- context [simulate fuel nw B c ?s2] => edestruct (Again s2) as (i' & n & A1 & A2 & A3) end;
          [| | | | |exists i', n; split; [exact A1|split; [exact A2|eapply has_upd_tl; exact A3]]]; cbn [k_chunks k_sizes k_shared k_idx k_carry]; auto; try lia.
        intros r. destruct (rem =? B) eqn:Erem; [|discriminate].
        destruct (Nat.eqb_spec left B) as [->|Hlb]; [apply Hc|]. intros E; injection E as <-.
        apply Nat.eqb_eq in Erem. lia.
Qed.

(** ** From the simulation to the table *)

Lemma uses_app k a b : uses k (a ++ b) = uses k a ++ uses (k + length a) b.
Proof.
  revert k; induction a as [|x a IH]; intros k; cbn; [rewrite Nat.add_0_r; reflexivity|].
  fold (uses (S k) (a ++ b)). rewrite IH. unfold uses at 1. rewrite <- app_assoc.
  replace (S k + length a) with (k + S (length a)) by lia. reflexivity.
Qed.

Lemma filter_all {A} (f : A -> bool) l : (forall x, In x l -> f x = true) -> filter f l = l.
Proof.
  induction l as [|x l IH]; intros H; cbn; [reflexivity|]. rewrite H by (left; reflexivity).
  f_equal; apply IH; intros; apply H; right; assumption.
Qed.

Lemma filter_none {A} (f : A -> bool) l : (forall x, In x l -> f x = false) -> filter f l = [].
Proof.
  induction l as [|x l IH]; intros H; cbn; [reflexivity|]. rewrite H by (left; reflexivity).
  apply IH; intros; apply H; right; assumption.
Qed.

Lemma entries_uses_length k wc c : length (entries c (uses k wc)) = occ c wc.
Proof.
  revert k; induction wc as [|cs wc IH]; intros k; [reflexivity|].
  change (uses k (cs :: wc)) with (map (fun c' => (c', k)) cs ++ uses (S k) wc).
  rewrite entries_app, app_length, entries_same, repeat_length, IH. reflexivity.
Qed.

Lemma rank_share nw lr wc c :
  1 <= nw ->
  length (filter (fun w => w / nw =? lr) (entries c (uses 0 wc))) =
  occ c (firstn nw (skipn (lr * nw) wc)).
Proof.
  intros Hn. set (A := firstn (lr * nw) wc). set (S := firstn nw (skipn (lr * nw) wc)).
  set (Z := skipn nw (skipn (lr * nw) wc)).
  assert (E : wc = A ++ S ++ Z) by (unfold A, S, Z; rewrite !firstn_skipn; reflexivity).
  assert (HA : length A <= lr * nw) by (unfold A; rewrite firstn_length; lia).
  assert (HS : length S <= nw) by (unfold S; rewrite firstn_length; lia).
  assert (HA2 : length S + length Z = 0 \/ length A = lr * nw).
  { unfold A, S, Z. rewrite <- app_length, firstn_skipn, firstn_length, skipn_length. lia. }
  assert (HS2 : length Z = 0 \/ length S = nw).
  { unfold S, Z. rewrite !firstn_length, !skipn_length. lia. }
  rewrite E. clearbody A S Z. clear E wc.
  rewrite !uses_app, !entries_app, !filter_app, !app_length, Nat.add_0_l.
  rewrite (filter_none _ (entries c (uses 0 A))).
  2:{ intros w Hw. apply entries_uses_bound in Hw. apply Nat.eqb_neq. intros Hq.
      assert (w / nw < lr) by (apply Nat.div_lt_upper_bound; lia). lia. }
  rewrite (filter_none _ (entries c (uses (length A + length S) Z))).
  2:{ intros w Hw. apply entries_uses_bound in Hw. apply Nat.eqb_neq. intros Hq.
      assert (lr + 1 <= w / nw) by (apply Nat.div_le_lower_bound; lia). lia. }
  rewrite (filter_all _ (entries c (uses (length A) S))).
  2:{ intros w Hw. apply entries_uses_bound in Hw. apply Nat.eqb_eq.
      symmetry. apply (Nat.div_unique w nw lr (w - lr * nw)); lia. }
  rewrite entries_uses_length. cbn. lia.
Qed.

Lemma aggregate_build nw ws : aggregate_one nw ws = build (map (fun w => (w / nw, w)) ws) [].
Proof.
  unfold aggregate_one, build. generalize (@nil (nat * list nat)).
  induction ws as [|w ws IH]; intros d; cbn; [reflexivity|]. apply IH.
Qed.

Lemma entries_div nw lr ws : entries lr (map (fun w => (w / nw, w)) ws) = filter (fun w => w / nw =? lr) ws.
Proof.
  induction ws as [|w ws IH]; [reflexivity|]. unfold entries in *. cbn.
  destruct (w / nw =? lr); cbn; [f_equal|]; exact IH.
Qed.

Lemma aggregate_In nw ws lr l :
  In (lr, l) (aggregate_one nw ws) -> l = filter (fun w => w / nw =? lr) ws /\ l <> [].
Proof.
  intros H. rewrite aggregate_build in H.
  apply In_dget in H; [|apply build_NoDup; constructor]. apply build_dget_nil in H.
  rewrite entries_div in H. destruct H; auto.
Qed.

Lemma aggregate_nonempty nw ws : ws <> [] -> aggregate_one nw ws <> [].
Proof.
  intros H E. destruct ws as [|w ws]; [congruence|].
  assert (Hd : dget (w / nw) (aggregate_one nw (w :: ws)) = Some (filter (fun v => v / nw =? w / nw) (w :: ws))).
  { rewrite aggregate_build. apply build_dget_nil. rewrite entries_div. split; [reflexivity|].
    cbn. rewrite Nat.eqb_refl. discriminate. }
  rewrite E in Hd. discriminate.
Qed.

(** The shape every assignment has: [R] ranks of [nw] workers. *)
Definition shaped (nw R : nat) (wc : list (list nat)) (wi : list (list interval)) : Prop :=
  length wc = R * nw /\ length wi = R * nw /\
  forall w cs ivs, nth_error wc w = Some cs -> nth_error wi w = Some ivs ->
    length cs = length ivs /\ Forall (fun iv => 1 <= iv_size iv) ivs.

Lemma nth_error_slice {A} (l : list A) a n i : i < n -> nth_error (firstn n (skipn a l)) i = nth_error l (a + i).
Proof.
  intros H. revert l; induction a as [|a IH]; intros l.
  - rewrite skipn_O. cbn. revert i l H; induction n as [|n IHn]; intros i l H; [lia|].
    destruct l; [destruct i; reflexivity|]. destruct i; cbn; [reflexivity|]. apply IHn; lia.
  - destruct l as [|x l]; [rewrite skipn_nil, firstn_nil; destruct i; reflexivity|]. cbn. apply IH.
Qed.

Lemma track_ok nw R B c wc wi lr ws :
  1 <= nw -> 1 <= B -> shaped nw R wc wi ->
  In (lr, ws) (aggregate_one nw (entries c (uses 0 wc))) ->
  exists i n, track nw B c wc wi lr (length ws) = Ok (i, n) /\ i < nw /\ reads wc (lr * nw + i) c.
Proof.
  intros Hn HB (S1 & S2 & S3) Hin. apply aggregate_In in Hin. destruct Hin as [-> Hne].
  assert (Hocc := rank_share nw lr wc c Hn).
  assert (Hpos : 1 <= occ c (firstn nw (skipn (lr * nw) wc))).
  { rewrite <- Hocc. destruct (filter _ _) as [|a l]; [congruence|cbn; lia]. }
  assert (Hlr : lr * nw + nw <= R * nw).
  { destruct (filter _ (entries c (uses 0 wc))) as [|w l] eqn:Ef; [congruence|].
    assert (Hw : In w (w :: l)) by (left; reflexivity). rewrite <- Ef in Hw.
    apply filter_In in Hw. destruct Hw as [Hw Hq]. apply Nat.eqb_eq in Hq.
    apply entries_uses_bound in Hw. rewrite S1 in Hw.
    assert (lr < R) by (rewrite <- Hq; apply Nat.div_lt_upper_bound; lia). nia. }
  rewrite Hocc. unfold track.
  set (chunks := firstn nw (skipn (lr * nw) wc)) in *.
  set (sizes := map (map iv_size) (firstn nw (skipn (lr * nw) wi))).
  assert (HP : par nw chunks sizes).
  { split; [unfold chunks; rewrite firstn_length, skipn_length; lia|].
    split; [unfold sizes; rewrite map_length, firstn_length, skipn_length; lia|].
    intros i l Hi. apply nth_error_map_some in Hi. destruct Hi as (ivs & Hi & ->).
    assert (Hlt : i < nw).
    { assert (Hs : i < length (firstn nw (skipn (lr * nw) wi))) by (apply nth_error_Some; congruence).
      rewrite firstn_length in Hs. lia. }
    rewrite nth_error_slice in Hi by exact Hlt.
    assert (Hb : lr * nw + i < length wc) by lia. apply nth_error_Some in Hb.
    destruct (nth_error wc (lr * nw + i)) as [cs|] eqn:Ec; [|congruence].
    destruct (S3 _ _ _ Ec Hi) as [Hl HF]. split.
    - rewrite Forall_map. exact HF.
    - exists cs. unfold chunks. rewrite nth_error_slice by exact Hlt. rewrite map_length. auto. }
  destruct (reach nw c chunks sizes 0 Hn HP Hpos) as (k & x & l & Hk & Hx).
  destruct (simulate_ok nw B c Hn HB (sum (map sum sizes) * nw + nw + 1) (Sk chunks sizes (occ c chunks) 0 None 0) k x l)
    as (i & n & H1 & H2 & H3); cbn [k_chunks k_sizes k_shared k_idx k_carry]; auto.
  - intros r Hr; discriminate.
  - unfold total. lia.
  - exists i, n. split; [exact H1|]. split; [exact H2|]. destruct H3 as (cs & Hcs & Hin).
    unfold chunks in Hcs. cbn [k_chunks] in Hcs. rewrite nth_error_slice in Hcs by exact H2. exists cs. auto.
Qed.

(** [P c w]: worker [w] may be the one that deletes chunk [c]. *)
Definition good (P : nat -> nat -> Prop) (c : nat) (o : option (nat * nat)) : Prop :=
  exists w n, o = Some (w, n) /\ P c w.

Lemma track_ranks_ok nw B c wc wi by_rank P :
  (forall lr ws, In (lr, ws) by_rank ->
     exists i n, track nw B c wc wi lr (length ws) = Ok (i, n) /\ P c (lr * nw + i)) ->
  forall mt, dget c mt = None \/ good P c (dget c mt) ->
  exists mt', track_ranks nw B c wc wi by_rank mt = Ok mt' /\
    (forall k, k <> c -> dget k mt' = dget k mt) /\
    (by_rank <> [] \/ good P c (dget c mt) -> good P c (dget c mt')).
Proof.
  induction by_rank as [|[lr ws] rest IH]; intros Hall mt Hmt.
  - exists mt. split; [reflexivity|]. split; [reflexivity|]. intros [H|H]; [congruence|exact H].
  - destruct (Hall lr ws (or_introl eq_refl)) as (i & n & Ht & Hr). cbn [track_ranks]. rewrite Ht. cbn [bind fst snd].
    set (mt1 := match dget c mt with None => _ | Some old => _ end).
    assert (Hg : good P c (dget c mt1) /\ forall k, k <> c -> dget k mt1 = dget k mt).
    { assert (Hset : good P c (dget c (dset c (lr * nw + i, n) mt)) /\
                     forall k, k <> c -> dget k (dset c (lr * nw + i, n) mt) = dget k mt).
      { split; [|intros k Hk; rewrite dget_dset; destruct (Nat.eqb_spec c k); congruence].
        rewrite dget_dset, Nat.eqb_refl. exists (lr * nw + i), n. auto. }
      unfold mt1. destruct (dget c mt) as [[w m]|] eqn:Ec; [|exact Hset].
      destruct (snd (w, m) <? n); [exact Hset|]. rewrite Ec. split; [|reflexivity].
      destruct Hmt as [H|H]; [discriminate|exact H]. }
    destruct Hg as [Hg Hk].
    destruct (IH (fun lr' ws' H => Hall lr' ws' (or_intror H)) mt1 (or_intror Hg)) as (mt' & E & K1 & K2).
    exists mt'. split; [exact E|]. split; [intros k Hne; rewrite K1 by exact Hne; apply Hk, Hne|].
    intros _. apply K2. right; exact Hg.
Qed.

Lemma reads_entries wc w c : In w (entries c (uses 0 wc)) <-> reads wc w c.
Proof.
  rewrite entries_In, uses_In, Nat.sub_0_r. split; [tauto|]. intros H; split; [lia|exact H].
Qed.

Lemma track_all_ok nw B wc wi P :
  forall shared, (forall c ws, In (c, ws) shared -> ws = entries c (uses 0 wc) /\ ws <> []) ->
  (forall c ws lr l, In (c, ws) shared -> In (lr, l) (aggregate_one nw (entries c (uses 0 wc))) ->
     exists i n, track nw B c wc wi lr (length l) = Ok (i, n) /\ P c (lr * nw + i)) ->
  NoDup (map fst shared) ->
  forall mt, (forall c ws, In (c, ws) shared -> dget c mt = None) ->
  exists mt', track_all nw B wc wi shared mt = Ok mt' /\
    (forall c ws, In (c, ws) shared -> good P c (dget c mt')) /\
    (forall k, ~ In k (map fst shared) -> dget k mt' = dget k mt).
Proof.
  induction shared as [|[c ws] rest IH]; intros Hsh Htr Hnd mt Hmt.
  - exists mt. split; [reflexivity|]. split; [intros c ws []|reflexivity].
  - cbn in Hnd. inversion Hnd; subst. destruct (Hsh c ws (or_introl eq_refl)) as [-> Hne].
    cbn [track_all].
    destruct (track_ranks_ok nw B c wc wi (aggregate_one nw (entries c (uses 0 wc))) P) with (mt := mt)
      as (mt1 & E1 & K1 & K2).
    { intros lr l Hin. exact (Htr c _ lr l (or_introl eq_refl) Hin). }
    { left. eapply Hmt. left; reflexivity. }
    rewrite E1. cbn [bind].
    destruct (IH (fun c' ws' H => Hsh c' ws' (or_intror H)) (fun c' ws' lr l H => Htr c' ws' lr l (or_intror H)) H2 mt1) as (mt' & E2 & L1 & L2).
    { intros c' ws' Hin. rewrite K1; [eapply Hmt; right; exact Hin|].
      intros ->. apply H1. apply in_map_iff. exists (c, ws'). auto. }
    exists mt'. split; [exact E2|]. split.
    + intros c' ws' [E|Hin]; [|eapply L1; exact Hin]. injection E as -> _.
      rewrite L2 by exact H1. apply K2. left. apply aggregate_nonempty, Hne.
    + intros k Hk. cbn in Hk. rewrite L2 by tauto. apply K1. intros ->. tauto.
Qed.

Lemma disable_all_ok P mt shared :
  (forall c ws, In (c, ws) shared -> good P c (dget c mt)) ->
  exists t, disable_all shared mt = Ok t /\ map fst t = map fst shared /\
    (forall c vs, In (c, vs) t -> exists ws w0, In (c, ws) shared /\ P c w0 /\
                                  vs = filter (fun w => negb (w =? w0)) ws).
Proof.
  induction shared as [|[c ws] rest IH]; intros H.
  - exists []. split; [reflexivity|]. split; [reflexivity|]. intros c vs [].
  - destruct (H c ws (or_introl eq_refl)) as (w0 & n & Hd & Hr). cbn [disable_all]. rewrite Hd.
    destruct IH as (t & E & K1 & K2); [intros c' ws' Hin; eapply H; right; exact Hin|].
    rewrite E. cbn [bind]. eexists; split; [reflexivity|]. split; [cbn; f_equal; exact K1|].
    intros c' vs [Ei|Hin].
    + injection Ei as -> <-. exists ws, w0. split; [left; reflexivity|]. auto.
    + destruct (K2 c' vs Hin) as (ws' & w' & H1 & H2 & H3). exists ws', w'. split; [right; exact H1|]. auto.
Qed.

(** [w] is listed under [c] in a table. *)
Definition listed (t : list (nat * list nat)) (w c : nat) : Prop := exists vs, dget c t = Some vs /\ In w vs.

Lemma find_skip_gen nw B wc wi (P : nat -> nat -> Prop) :
  1 <= nw -> 1 <= B -> Forall (@NoDup nat) wc ->
  (forall c lr l, shared_by_two wc c -> In (lr, l) (aggregate_one nw (entries c (uses 0 wc))) ->
     exists i n, track nw B c wc wi lr (length l) = Ok (i, n) /\ P c (lr * nw + i)) ->
  exists t, find_skip_deletion nw B wc wi = Ok t /\ NoDup (map fst t) /\
    (forall c, shared_by_two wc c -> exists w0, P c w0 /\ forall w, reads wc w c -> (listed t w c <-> w <> w0)) /\
    (forall w c, listed t w c -> reads wc w c /\ shared_by_two wc c).
Proof.
  intros Hn HB Hnd Htr. unfold find_skip_deletion.
  replace (is_nonempty (get_shared_chunks wc) && ((nw =? 0) || (B =? 0))) with false.
  2:{ destruct (Nat.eqb_spec nw 0); [lia|]. destruct (Nat.eqb_spec B 0); [lia|].
      rewrite andb_false_r. reflexivity. }
  destruct (track_all_ok nw B wc wi P (get_shared_chunks wc)) with (mt := @nil (nat * (nat * nat)))
    as (mt & E & K1 & _).
  - intros c ws Hin. apply get_shared_In in Hin. destruct Hin as [H1 H2]. split; [auto|].
    intros ->. cbn in H2. lia.
  - intros c ws lr l Hin. apply Htr. apply get_shared_In in Hin. destruct Hin as [H1 H2].
    apply entries_ge2_shared; auto. rewrite H1. lia.
  - apply get_shared_keys.
  - reflexivity.
  - rewrite E. cbn [bind]. destruct (disable_all_ok P mt (get_shared_chunks wc) K1) as (t & Et & L1 & L2).
    exists t. split; [exact Et|]. split; [rewrite L1; apply get_shared_keys|]. split.
    + intros c Hc.
      assert (Hin : In (c, entries c (uses 0 wc)) (get_shared_chunks wc)).
      { apply get_shared_In. split; [reflexivity|]. apply entries_ge2_shared; auto. }
      assert (Hk : In c (map fst t)).
      { rewrite L1. apply in_map_iff. eexists; split; [|exact Hin]. reflexivity. }
      apply in_map_iff in Hk. destruct Hk as ([c' vs] & Hcc & Hk). cbn in Hcc. subst c'.
      destruct (L2 c vs Hk) as (ws & w0 & H1 & H2 & H3). exists w0. split; [exact H2|].
      apply get_shared_In in H1. destruct H1 as [H1 _]. intros w Hw. split.
      * intros (vs' & Hd & Hv). rewrite (In_dget c vs t) in Hd; [|rewrite L1; apply get_shared_keys|exact Hk].
        injection Hd as <-. rewrite H3 in Hv. apply filter_In in Hv. destruct Hv as [_ Hv].
        intros ->. rewrite Nat.eqb_refl in Hv. discriminate.
      * intros Hne. exists vs. split; [apply In_dget; [rewrite L1; apply get_shared_keys|exact Hk]|].
        rewrite H3. apply filter_In. split; [rewrite <- H1; apply reads_entries, Hw|].
        destruct (Nat.eqb_spec w w0); [congruence|reflexivity].
    + intros w c (vs & Hd & Hv). apply dget_In in Hd.
      destruct (L2 c vs Hd) as (ws & w0 & H1 & H2 & H3). apply get_shared_In in H1. destruct H1 as [H1 Hlen].
      rewrite H3 in Hv. apply filter_In in Hv. destruct Hv as [Hv _]. rewrite <- H1 in *. split.
      * apply reads_entries, Hv.
      * apply entries_ge2_shared; auto.
Qed.

Lemma find_skip_ok nw R B wc wi :
  1 <= nw -> 1 <= B -> shaped nw R wc wi -> Forall (@NoDup nat) wc ->
  exists t, find_skip_deletion nw B wc wi = Ok t /\ NoDup (map fst t) /\
    exactly_one_deletes wc (listed t).
Proof.
  intros Hn HB HS Hnd.
  destruct (find_skip_gen nw B wc wi (fun c w => reads wc w c) Hn HB Hnd) as (t & E & K & A & A2); [|exists t; split; [exact E|]; split; [exact K|]; split; assumption].
  intros c lr l _ Hin. destruct (track_ok nw R B c wc wi lr l Hn HB HS Hin) as (i & n & A1 & _ & A3). eauto.
Qed.

(** The inverted table says the same. *)
Lemma invert_build t :
  invert_map t = build (flat_map (fun cw => map (fun w => (w, fst cw)) (snd cw)) t) [].
Proof.
  unfold invert_map. generalize (@nil (nat * list nat)).
  induction t as [|[c ws] t IH]; intros d; cbn; [reflexivity|]. rewrite IH.
  unfold build. rewrite fold_left_app. f_equal. clear.
  revert d; induction ws as [|w ws IH]; intros d; cbn; auto.
Qed.

Lemma invert_listed t w c : NoDup (map fst t) -> (listed (invert_map t) c w <-> listed t w c).
Proof.
  intros Hn. unfold listed. rewrite invert_build. split.
  - intros (cs & Hd & Hin). apply build_dget_nil in Hd. destruct Hd as [<- _].
    apply entries_In in Hin. apply in_flat_map in Hin. destruct Hin as ([c' ws] & H1 & H2).
    cbn in H2. apply in_map_iff in H2. destruct H2 as (w' & E & H2). injection E as -> ->.
    exists ws. split; [apply In_dget; auto|exact H2].
  - intros (ws & Hd & Hin). apply dget_In in Hd.
    assert (He : In c (entries w (flat_map (fun cw => map (fun w => (w, fst cw)) (snd cw)) t))).
    { apply entries_In, in_flat_map. exists (c, ws). split; [exact Hd|]. cbn. apply in_map_iff. exists w. auto. }
    eexists; split; [apply build_dget_nil; split; [reflexivity|]|exact He].
    intros E. rewrite E in He. destruct He.
Qed.
