(** What the workers of a rank are given, and in which order it is served. *)
From Verif Require Import Base Assign_Model Assign_Spec Assign_Proofs Shuffle_Proofs Iter_Model Iter_Spec Iter_Proofs.
From Verif Require Import Loader_Order_Model Skip_Model Skip_Spec Skip_Proofs Skip_Proofs2 Skip_Proofs3.
Local Ltac Zify.zify_post_hook ::= idtac.

(** ** All chunks of a worker but its first and last are whole *)
Definition wfat (B : nat) (w : wst) : Prop :=
  forall a x b, w_ivs w = a ++ x :: b -> a <> [] -> (b <> [] \/ w_left w <> 0) -> B <= iv_size x.

Lemma snoc_split {A} (l a b : list A) p x : l ++ [p] = a ++ x :: b -> (b = [] /\ x = p /\ a = l) \/ exists b', b = b' ++ [p] /\ l = a ++ x :: b'.
Proof.
  destruct (exists_last (l := x :: b)) as (m & y & E); [discriminate|]. rewrite E. rewrite app_assoc. intros H.
  apply app_inj_tail in H. destruct H as [H <-]. destruct m as [|x' m].
  - injection E as -> ->. left. rewrite app_nil_r in H. auto.
  - injection E as <- ->. right. exists m. auto.
Qed.

Lemma give_fat B c ws : forall iv, Inv ws -> Forall (wfat B) ws ->
  (B <= iv_size iv \/ Forall (fun v => w_chunks v = [] /\ w_ivs v = []) ws) -> Forall (wfat B) (give c iv ws).
Proof.
  induction ws as [|w ws IH]; intros iv HI HF HB; [constructor|]. cbn [Inv] in HI. inversion HF as [|? ? Fw Fws]; subst. cbn [give].
  destruct (Nat.eqb_spec (w_left w) 0) as [E|E].
  { constructor; [exact Fw|]. apply IH; auto. destruct HB as [HB|HB]; [left; exact HB|right]. inversion HB; auto. }
  destruct (Nat.eqb_spec (iv_size iv) 0); [exact HF|].
  destruct (Nat.ltb_spec (w_left w) (iv_size iv)) as [L|L]; constructor.
  - intros a x b Hs Ha Hb. cbn [w_ivs w_left] in *. destruct Hb as [Hb|Hb]; [|congruence].
    apply snoc_split in Hs. destruct Hs as [(-> & _)|(b' & -> & Hs)]; [congruence|]. apply (Fw a x b' Hs Ha). auto.
  - apply IH; [apply Inv_empty; exact HI|exact Fws|right; exact HI].
  - intros a x b Hs Ha Hb. cbn [w_ivs w_left] in *. apply snoc_split in Hs. destruct Hs as [(-> & -> & ->)|(b' & -> & Hs)]; [|apply (Fw a x b' Hs Ha); auto].
    destruct HB as [HB|HB]; [exact HB|]. inversion HB as [|? ? [_ Q] _]; subst. congruence.
  - exact Fws.
Qed.

Lemma assign_fold_fat B l : forall ws, Inv ws -> Forall w_ok ws -> Forall (wfat B) ws -> Forall (fun ci => B <= iv_size (snd ci)) l -> Forall (wfat B) (assign_fold l ws).
Proof.
  induction l as [|[c iv] l IH]; intros ws HI Hok HF Hl; [exact HF|]. inversion Hl; subst. cbn [assign_fold fold_left fst snd].
  fold (assign_fold l (give c iv ws)). destruct (give_spec c iv ws HI Hok) as (_ & A2 & A3 & _).
  apply IH; [exact A2|exact A3| |assumption]. apply give_fat; [exact HI|exact HF|left; assumption].
Qed.

Lemma assign_fat W nw B dl idx ivs a : 1 <= nw -> 1 <= B -> Forall (fun iv => B <= iv_size iv) ivs ->
  assign W nw B dl idx ivs = Ok a -> Forall (fun l => fat B (map iv_size l)) (snd a).
Proof.
  intros Hnw HB Hiv H. rewrite assign_eq in H by assumption. cbn zeta in H. injection H as <-. cbn [snd].
  assert (F : Forall (fun ci : nat * interval => B <= iv_size (snd ci)) (combine idx ivs)).
  { apply Forall_forall. intros [c iv] Hin. apply in_combine_r in Hin. rewrite Forall_forall in Hiv. exact (Hiv iv Hin). }
  rewrite Forall_map. eapply Forall_impl; [|apply (assign_fold_fat B _ _); [| | |exact F]].
  - intros w Hw a x b Hs Ha Hb. apply map_eq_app in Hs. destruct Hs as (l1 & l2 & E & <- & E2).
    destruct l2 as [|y l2]; [discriminate|]. cbn [map] in E2. injection E2 as <- <-.
    apply (Hw l1 y l2 E); [destruct l1; [exfalso; apply Ha; reflexivity|discriminate]|left; destruct l2; [exfalso; apply Hb; reflexivity|discriminate]].
  - apply Inv_empty. apply Forall_map, Forall_forall. intros q _. cbn. auto.
  - apply Forall_map, Forall_forall. intros q _. reflexivity.
  - apply Forall_map, Forall_forall. intros q _ a' x b E. cbn [w_ivs] in E. destruct a'; discriminate.
Qed.

(** ** The order of serving *)
Definition slot {A} (nw : nat) (qs : list (list A)) (j : nat) : list (nat * A) :=
  match nth_error qs (j mod nw) with
  | Some q => match nth_error q (j / nw) with Some b => [(j mod nw, b)] | None => [] end
  | None => []
  end.
Definition cnt (nw v j : nat) : nat := if v <? j mod nw then j / nw + 1 else j / nw.

Lemma div_mod_S nw j : 1 <= nw ->
  (j + 1) / nw = (if j mod nw + 1 =? nw then j / nw + 1 else j / nw) /\ (j + 1) mod nw = (if j mod nw + 1 =? nw then 0 else j mod nw + 1).
Proof.
  intros H. pose proof (Nat.div_mod j nw ltac:(lia)) as D. pose proof (Nat.mod_upper_bound j nw ltac:(lia)) as U.
  destruct (Nat.eqb_spec (j mod nw + 1) nw) as [E|E].
  - assert (Q : j + 1 = (j / nw + 1) * nw) by nia. rewrite Q. rewrite Nat.div_mul, Nat.mod_mul by lia. auto.
  - assert (Q : j + 1 = (j mod nw + 1) + j / nw * nw) by nia. split.
    + rewrite Q at 1. rewrite Nat.div_add by lia. rewrite Nat.div_small by lia. reflexivity.
    + rewrite Q at 1. rewrite Nat.mod_add by lia. apply Nat.mod_small. lia.
Qed.

Lemma cnt_S nw v j : 1 <= nw -> v < nw -> cnt nw v (j + 1) = if v =? j mod nw then cnt nw v j + 1 else cnt nw v j.
Proof.
  intros H Hv. unfold cnt. destruct (div_mod_S nw j H) as [-> ->]. pose proof (Nat.mod_upper_bound j nw ltac:(lia)).
  destruct (Nat.eqb_spec (j mod nw + 1) nw), (Nat.eqb_spec v (j mod nw)); subst;
    repeat match goal with |- context [?a <? ?b] => destruct (Nat.ltb_spec a b) end; lia.
Qed.

Lemma skipn_nth {A} k (l : list A) : skipn k l = match nth_error l k with Some x => x :: skipn (k + 1) l | None => [] end.
Proof.
  revert k; induction l as [|x l IH]; intros [|k]; try reflexivity. cbn [skipn nth_error Nat.add]. exact (IH k).
Qed.

Lemma serve_slots {A} nw (qs : list (list A)) : 1 <= nw -> length qs = nw -> forall n j qs', length qs' = nw ->
  (forall v q, nth_error qs v = Some q -> nth_error qs' v = Some (skipn (cnt nw v j) q)) ->
  fst (serve (map (task_worker nw 0 false) (seq j n)) qs') = flat_map (slot nw qs) (seq j n).
Proof.
  intros Hnw L. induction n as [|n IH]; intros j qs' L' H; [reflexivity|]. cbn [seq map flat_map serve].
  assert (T : task_worker nw 0 false j = j mod nw) by (unfold task_worker; cbn [andb]; rewrite Nat.sub_0_r; reflexivity).
  rewrite T. pose proof (Nat.mod_upper_bound j nw ltac:(lia)) as U.
  unfold slot at 1. destruct (nth_error qs (j mod nw)) as [q|] eqn:Eq; [|apply nth_error_None in Eq; lia].
  rewrite (H _ _ Eq). assert (C : cnt nw (j mod nw) j = j / nw) by (unfold cnt; destruct (Nat.ltb_spec (j mod nw) (j mod nw)); [lia|reflexivity]).
  rewrite C, skipn_nth. destruct (nth_error q (j / nw)) as [b|] eqn:Eb.
  - cbn [app]. specialize (IH (S j) (upd (j mod nw) (@tl A) qs')).
    destruct (serve (map (task_worker nw 0 false) (seq (S j) n)) (upd (j mod nw) (@tl A) qs')) as [out rest]. cbn [fst] in *. f_equal.
    apply IH; [rewrite upd_length; exact L'|]. intros v q' Ev. replace (S j) with (j + 1) by lia.
    assert (Hv : v < nw) by (rewrite <- L; apply nth_error_Some; congruence). rewrite cnt_S by assumption.
    destruct (Nat.eqb_spec v (j mod nw)) as [->|N].
    + rewrite nth_error_upd_eq, (H _ _ Eq). rewrite Eq in Ev. injection Ev as <-. cbn [option_map]. f_equal.
      rewrite C, skipn_nth, Eb. reflexivity.
    + rewrite nth_error_upd_neq by auto. apply H, Ev.
  - cbn [app]. apply IH; [exact L'|]. intros v q' Ev. replace (S j) with (j + 1) by lia.
    assert (Hv : v < nw) by (rewrite <- L; apply nth_error_Some; congruence). rewrite cnt_S by assumption.
    rewrite (H v q' Ev). destruct (Nat.eqb_spec v (j mod nw)) as [->|N]; [|reflexivity].
    rewrite Eq in Ev. injection Ev as <-. f_equal. rewrite C. apply nth_error_None in Eb. rewrite !skipn_all2 by lia. reflexivity.
Qed.

Lemma serve_tasks {A} nw (qs : list (list A)) n : 1 <= nw -> length qs = nw -> fst (serve (tasks nw 0 false n) qs) = flat_map (slot nw qs) (seq 0 n).
Proof.
  intros H L. apply serve_slots; [exact H|exact L|exact L|]. intros v q E. unfold cnt. rewrite Nat.mod_0_l, Nat.div_0_l by lia.
  destruct (Nat.ltb_spec v 0); [lia|]. exact E.
Qed.

Lemma skipn_skipn {A} a b (l : list A) : skipn a (skipn b l) = skipn (a + b) l.
Proof. revert l; induction b as [|b IH]; intros l; [rewrite Nat.add_0_r; reflexivity|]. destruct l; [rewrite !skipn_nil; reflexivity|]. rewrite Nat.add_succ_r. cbn [skipn]. apply IH. Qed.

Lemma pieces_nth {A} k t : 1 <= k -> forall l : list A,
  nth_error (pieces k l) t = if t * k <? length l then Some (firstn k (skipn (t * k) l)) else None.
Proof.
  intros Hk. induction t as [|t IH]; intros l.
  - destruct l as [|x l]; [reflexivity|]. rewrite pieces_cons by (auto; discriminate). reflexivity.
  - destruct l as [|x l]; [rewrite pieces_nil; cbn [length]; destruct (Nat.ltb_spec (S t * k) 0); [lia|reflexivity]|].
    rewrite pieces_cons by (auto; discriminate). cbn [nth_error]. rewrite IH, skipn_length, skipn_skipn.
    replace (t * k + k) with (S t * k) by lia.
    destruct (Nat.ltb_spec (t * k) (length (x :: l) - k)), (Nat.ltb_spec (S t * k) (length (x :: l))); try reflexivity; lia.
Qed.

(** ** The chunks along a stream *)
Definition colours (C S : list nat) : list nat := flat_map (fun cx => repeat (fst cx) (snd cx)) (combine C S).

Lemma stream_colours shuf e cs : shuf_ok shuf -> forall n k ivs,
  map fst (chunk_order shuf n e k (combine cs ivs)) = colours cs (map iv_size ivs).
Proof.
  intros Hs. induction cs as [|c cs IH]; intros n k [|iv ivs]; try reflexivity.
  cbn [combine chunk_order map]. rewrite map_app, IH. unfold colours. cbn [combine flat_map map fst snd]. f_equal.
  rewrite map_map. cbn [fst]. assert (L := Permutation_length (Hs (seq (iv_rs iv) (iv_re iv - iv_rs iv)) n e k)). rewrite seq_length in L.
  change (iv_size iv) with (iv_re iv - iv_rs iv). revert L. generalize (iv_re iv - iv_rs iv) at 2 4. generalize (shuf (seq (iv_rs iv) (iv_re iv - iv_rs iv)) n e k).
  induction l as [|y l IHl]; intros m <-; cbn; [reflexivity|f_equal; apply IHl; reflexivity].
Qed.

Lemma colour_ends C : forall S p c, nth_error (colours C S) p = Some c -> exists E, ends_at C S c E /\ p < E.
Proof.
  induction C as [|c0 C IH]; intros [|x S] p c H; try (destruct p; discriminate).
  unfold colours in H. cbn [combine flat_map fst snd] in H. fold (colours C S) in H.
  destruct (Nat.lt_ge_cases p x) as [L|L].
  - rewrite nth_error_app1 in H by (rewrite repeat_length; exact L). apply nth_error_In, repeat_spec in H. subst c0.
    exists x. split; [|exact L]. exists [], [], x, C, S. auto.
  - rewrite nth_error_app2 in H by (rewrite repeat_length; exact L). rewrite repeat_length in H.
    destruct (IH S _ _ H) as (E & (pc & ps & y & qc & qs & -> & -> & Lp & ->) & Hp). exists (x + (sum ps + y)). split; [|lia].
    exists (c0 :: pc), (x :: ps), y, qc, qs. cbn. repeat split; lia.
Qed.

Lemma ends_colour C S c E : Forall (fun x => 1 <= x) S -> ends_at C S c E -> nth_error (colours C S) (E - 1) = Some c.
Proof.
  intros F (pc & ps & x & qc & qs & -> & -> & L & ->). unfold colours. rewrite combine_app by exact L. rewrite Base.flat_map_app.
  assert (Lp : length (flat_map (fun cx : nat * nat => repeat (fst cx) (snd cx)) (combine pc ps)) = sum ps).
  { clear -L. revert ps L; induction pc as [|y pc IH]; intros [|z ps] L; try discriminate; [reflexivity|]. cbn. rewrite app_length, repeat_length, IH by (cbn in L; lia). reflexivity. }
  apply Forall_app in F. destruct F as [_ F]. inversion F as [|? ? Hx _]; subst.
  rewrite nth_error_app2 by lia. rewrite Lp. cbn [combine flat_map fst snd]. rewrite nth_error_app1 by (rewrite repeat_length; lia).
  apply nth_error_repeat. lia.
Qed.

Lemma colours_length C : forall S, length C = length S -> length (colours C S) = sum S.
Proof.
  induction C as [|c C IH]; intros [|x S] L; try discriminate; [reflexivity|]. unfold colours. cbn [combine flat_map fst snd].
  fold (colours C S). rewrite app_length, repeat_length, IH by (cbn in L; lia). reflexivity.
Qed.

(** ** From the simulation to the batches *)
Lemma served_last nw B c C0 S0 t i (streams : list (list sample)) n :
  1 <= nw -> 1 <= B -> i < nw -> par nw C0 S0 ->
  length streams = nw ->
  (forall v s C S, nth_error streams v = Some s -> nth_error C0 v = Some C -> nth_error S0 v = Some S -> map fst s = colours C S) ->
  Forall (fun s => nw * length (pieces B s) <= n) streams ->
  lastly B c C0 S0 t i ->
  last_served c (fst (serve (tasks nw 0 false n) (map (pieces B) streams))) i.
Proof.
  intros Hnw HB Hi Hp L Hs Hn [Hle (C & S & E & EC & ES & He & Ht)].
  rewrite serve_tasks by (rewrite ?map_length; assumption).
  destruct (nth_error streams i) as [s|] eqn:Es; [|apply nth_error_None in Es; lia].
  pose proof (Hs _ _ _ _ Es EC ES) as Hc. destruct Hp as (P1 & P2 & P3). destruct (P3 i S ES) as (FS & C1 & EC1 & LC).
  rewrite EC in EC1. injection EC1 as <-.
  pose proof (ends_colour C S c E FS He) as Hcol. rewrite <- Hc in Hcol.
  pose proof (Hle i C S E EC ES He) as Hub. rewrite Nat.leb_refl in Hub.
  assert (HlenE : E - 1 < length s) by (assert (Q : E - 1 < length (map fst s)) by (apply nth_error_Some; congruence); rewrite map_length in Q; exact Q).
  assert (Hpt : nth_error (pieces B s) t = Some (firstn B (skipn (t * B) s))).
  { rewrite pieces_nth by exact HB. destruct (Nat.ltb_spec (t * B) (length s)); [reflexivity|lia]. }
  assert (Hj : t * nw + i < n).
  { rewrite Forall_forall in Hn. specialize (Hn s (nth_error_In _ _ Es)).
    assert (t < length (pieces B s)) by (apply nth_error_Some; congruence). nia. }
  assert (Hmod : (t * nw + i) mod nw = i) by (rewrite Nat.add_comm, Nat.mod_add by lia; apply Nat.mod_small; exact Hi).
  assert (Hdiv : (t * nw + i) / nw = t) by (rewrite Nat.add_comm, Nat.div_add by lia; rewrite Nat.div_small by exact Hi; reflexivity).
  exists (flat_map (slot nw (map (pieces B) streams)) (seq 0 (t * nw + i))), (firstn B (skipn (t * B) s)),
         (flat_map (slot nw (map (pieces B) streams)) (seq (t * nw + i + 1) (n - (t * nw + i + 1)))).
  split; [|split].
  - replace n with ((t * nw + i) + (1 + (n - (t * nw + i + 1)))) at 1 by lia. rewrite seq_app, Base.flat_map_app. f_equal.
    rewrite Nat.add_0_l. rewrite seq_app, Base.flat_map_app. cbn [seq flat_map]. rewrite app_nil_r. unfold slot at 1. rewrite Hmod, Hdiv, nth_error_map, Es. cbn [option_map]. rewrite Hpt. reflexivity.
  - rewrite <- firstn_map, <- skipn_map. apply (nth_error_In _ (E - 1 - t * B)).
    rewrite firstn_skipn_nth by (rewrite q_s in Hub; lia). replace (t * B + (E - 1 - t * B)) with (E - 1) by lia. exact Hcol.
  - intros w' b' Hin Hc'. apply in_flat_map in Hin. destruct Hin as (j & Hj2 & Hin). apply in_seq in Hj2. unfold slot in Hin.
    rewrite nth_error_map in Hin. destruct (nth_error streams (j mod nw)) as [s'|] eqn:Es'; [|destruct Hin]. cbn [option_map] in Hin.
    rewrite pieces_nth in Hin by exact HB. destruct (Nat.ltb_spec (j / nw * B) (length s')) as [Lj|Lj]; [|destruct Hin].
    destruct Hin as [Hin|[]]. injection Hin as <- <-.
    assert (Hv : j mod nw < nw) by (apply Nat.mod_upper_bound; lia).
    destruct (nth_error S0 (j mod nw)) as [S'|] eqn:ES'; [|apply nth_error_None in ES'; lia].
    destruct (P3 _ _ ES') as (FS' & C' & EC' & LC').
    pose proof (Hs _ _ _ _ Es' EC' ES') as Hcs. rewrite <- firstn_map, <- skipn_map in Hc'. change (@map sample nat) with (@map (nat * nat) nat) in *. rewrite Hcs in Hc'.
    apply In_nth_error in Hc'. destruct Hc' as (p & Hp). assert (Hpb : p < B).
    { assert (Q : p < length (firstn B (skipn (j / nw * B) (colours C' S')))) by (apply nth_error_Some; congruence). rewrite firstn_length in Q. lia. }
    rewrite firstn_skipn_nth in Hp by exact Hpb. apply colour_ends in Hp. destruct Hp as (E' & He' & HE').
    pose proof (Hle _ _ _ _ EC' ES' He') as Hb. pose proof (Nat.div_mod j nw ltac:(lia)) as D.
    destruct (Nat.leb_spec (j mod nw) i) as [Q|Q].
    + assert (t + 1 <= j / nw) by (clear -D Hj2 Q Hnw; nia). pose proof (Nat.mul_le_mono_r (t + 1) (j / nw) B). lia.
    + assert (t <= j / nw) by (clear -D Hj2 Q Hnw Hv; nia). pose proof (Nat.mul_le_mono_r t (j / nw) B). lia.
Qed.
