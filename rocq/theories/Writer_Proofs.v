(** Lemmas about the writer: additions in order. *)
From Verif Require Import Base Dict Format_Model Writer_Model Writer_Spec.
Local Ltac Zify.zify_post_hook ::= idtac.

(** ** Dictionaries with consecutive keys *)

Definition items_at (b : nat) (p : list item) : list (nat * item) := combine (seq b (length p)) p.

Lemma items_at_cons b x p : items_at b (x :: p) = (b, x) :: items_at (S b) p.
Proof. reflexivity. Qed.

Lemma items_at_length b p : length (items_at b p) = length p.
Proof. unfold items_at. rewrite combine_length, seq_length. lia. Qed.

Lemma items_at_app b p q : items_at b (p ++ q) = items_at b p ++ items_at (b + length p) q.
Proof. unfold items_at. rewrite app_length, seq_app. apply combine_app. apply seq_length. Qed.

Lemma items_at_keys b p : map fst (items_at b p) = seq b (length p).
Proof. revert b; induction p as [|x p IH]; intros b; [reflexivity|]. rewrite items_at_cons. cbn. rewrite IH. reflexivity. Qed.

Lemma dget_items_at b p i : dget (b + i) (items_at b p) = nth_error p i.
Proof.
  revert b i; induction p as [|x p IH]; intros b i; [destruct i; reflexivity|].
  rewrite items_at_cons. cbn [dget]. destruct i as [|i].
  - rewrite Nat.add_0_r, Nat.eqb_refl. reflexivity.
  - replace (b =? b + S i) with false by (symmetry; apply Nat.eqb_neq; lia).
    replace (b + S i) with (S b + i) by lia. apply IH.
Qed.

Lemma dset_items_at b p x : dset (b + length p) x (items_at b p) = items_at b (p ++ [x]).
Proof.
  rewrite items_at_app. apply dset_new. rewrite dget_items_at. apply nth_error_None. lia.
Qed.

Lemma pop_range_items b p q :
  pop_range (length p) b (items_at b (p ++ q)) = Ok (p, items_at (b + length p) q).
Proof.
  revert b; induction p as [|x p IH]; intros b; cbn [pop_range length app].
  - rewrite Nat.add_0_r. reflexivity.
  - rewrite items_at_cons. cbn [dpop]. rewrite Nat.eqb_refl. rewrite IH. cbn [bind fst snd].
    replace (S b + length p) with (b + S (length p)) by lia. reflexivity.
Qed.

Lemma sort_keys_seq b n : sort_keys (seq b n) = seq b n.
Proof.
  revert b; induction n as [|n IH]; intros b; [reflexivity|].
  cbn [seq]. change (sort_keys (b :: seq (S b) n)) with (insert_key b (sort_keys (seq (S b) n))). rewrite IH.
  destruct n as [|n]; [reflexivity|]. cbn [seq insert_key].
  replace (b <=? S b) with true by (symmetry; apply Nat.leb_le; lia). reflexivity.
Qed.

Lemma consecutive_seq b n : consecutive (seq b n) = true.
Proof.
  revert b; induction n as [|n IH]; intros b; [reflexivity|].
  destruct n as [|n]; [reflexivity|]. specialize (IH (S b)). cbn [seq] in *.
  cbn [consecutive] in *. replace (S b - 1) with b by lia. rewrite Nat.eqb_refl. cbn [andb Nat.leb]. exact IH.
Qed.

Lemma pop_keys_items b p : pop_keys (seq b (length p)) (items_at b p) = Ok (p, []).
Proof.
  revert b; induction p as [|x p IH]; intros b; [reflexivity|].
  cbn [length seq pop_keys]. rewrite items_at_cons. cbn [dpop]. rewrite Nat.eqb_refl, IH. reflexivity.
Qed.

Lemma min_key_seq b p x : min_key (b + length p) (items_at b (p ++ [x])) = b.
Proof.
  unfold min_key. rewrite items_at_keys, app_length. cbn [length].
  replace (length p + 1) with (S (length p)) by lia. cbn [seq fold_right].
  assert (H : forall k n m, b <= k -> b <= m -> b <= fold_right Nat.min m (seq k n)).
  { intros k n; revert k; induction n as [|n IH]; intros k m Hk Hm; cbn; [exact Hm|].
    specialize (IH (S k) m ltac:(lia) Hm). lia. }
  specialize (H (S b) (length p) (b + length p) ltac:(lia) ltac:(lia)). lia.
Qed.

(** ** Limits *)

Lemma units_weight l : map units l = map weight l.
Proof. apply map_ext. intros x. unfold units, weight. destruct (it_dim x) as [[|d]|]; reflexivity. Qed.

Definition over_all (c : wcfg) (l : list item) : bool := over c (sum (map it_bytes l)) (sum (map units l)).

Lemma exceeds_within o n : exceeds o n = false <-> within o n.
Proof.
  destruct o as [[|k]|]; cbn [exceeds within]; try tauto.
  destruct (Nat.ltb_spec (S k) n); split; try tauto; try discriminate; intros; lia.
Qed.

Lemma exceeds_mono o n m : n <= m -> exceeds o n = true -> exceeds o m = true.
Proof.
  destruct o as [[|k]|]; cbn [exceeds]; try discriminate.
  intros H E. apply Nat.ltb_lt in E. apply Nat.ltb_lt. lia.
Qed.

Lemma over_mono c a b a' b' : a <= a' -> b <= b' -> over c a b = true -> over c a' b' = true.
Proof.
  unfold over. intros Ha Hb H. apply orb_true_iff in H. apply orb_true_iff.
  destruct H as [H|H]; [left|right]; eapply exceeds_mono; eauto.
Qed.

Lemma over_all_fits c l : over_all c l = false <-> fits c l.
Proof.
  unfold over_all, over, fits. rewrite units_weight, orb_false_iff, !exceeds_within. tauto.
Qed.

Lemma units_pos x : 1 <= units x.
Proof. unfold units. destruct (it_dim x) as [[|d]|]; lia. Qed.

Lemma units_length l : length l <= sum (map units l).
Proof. induction l as [|x l IH]; cbn; [lia|]. pose proof (units_pos x). lia. Qed.

Lemma over_all_app c l m : over_all c l = true -> over_all c (l ++ m) = true.
Proof. unfold over_all. apply over_mono; rewrite map_app, sum_app; lia. Qed.

(** The assertion on the number of items holds for a chunk that fits and for a single item. *)
Lemma size_ok c l : fits c l \/ length l = 1 -> truthy (c_size c) && exceeds (c_size c) (length l) = false.
Proof.
  intros H. destruct (c_size c) as [[|k]|] eqn:E; [reflexivity| |reflexivity].
  cbn [truthy andb]. apply exceeds_within. cbn [within]. right.
  destruct H as [[_ H]|H]; [|lia]. rewrite E, <- units_weight in H. cbn [within] in H. pose proof (units_length l). lia.
Qed.

(** ** The loop of [_should_write] when only the last item is new *)

Lemma scan_end fuel c b p nb ni :
  scan (S fuel) c (items_at b p) (b + length p) nb ni = Some (false, b + length p, nb, ni).
Proof.
  cbn [scan]. rewrite dget_items_at.
  replace (nth_error p (length p)) with (@None item); [reflexivity|].
  symmetry. apply nth_error_None. lia.
Qed.

Lemma scan_item fuel c b p q x nb ni :
  1 <= it_bytes x ->
  scan (S fuel) c (items_at b (p ++ x :: q)) (b + length p) nb ni =
  if over c (nb + it_bytes x) (ni + units x) then Some (true, b + length p, nb + it_bytes x, ni + units x)
  else scan fuel c (items_at b (p ++ x :: q)) (b + S (length p)) (nb + it_bytes x) (ni + units x).
Proof.
  intros Hx. cbn [scan]. rewrite dget_items_at.
  rewrite nth_error_app2 by lia. rewrite Nat.sub_diag. cbn [nth_error].
  replace (it_bytes x =? 0) with false by (symmetry; apply Nat.eqb_neq; lia).
  replace (S (b + length p)) with (b + S (length p)) by lia. reflexivity.
Qed.

Lemma scan_all fuel c b p q nb ni :
  Forall (fun x => 1 <= it_bytes x) q -> length q < fuel ->
  exists r, scan fuel c (items_at b (p ++ q)) (b + length p) nb ni = Some r /\
    ((exists q1 x q2, q = q1 ++ x :: q2 /\
        over c (nb + sum (map it_bytes (q1 ++ [x]))) (ni + sum (map units (q1 ++ [x]))) = true /\
        (q1 <> [] -> over c (nb + sum (map it_bytes q1)) (ni + sum (map units q1)) = false) /\
        fst (fst r) = (true, b + length p + length q1))
     \/ (r = (false, b + length p + length q, nb + sum (map it_bytes q), ni + sum (map units q)) /\
         (q <> [] -> over c (nb + sum (map it_bytes q)) (ni + sum (map units q)) = false))).
Proof.
  revert p q nb ni; induction fuel as [|fuel IH]; intros p q nb ni Hq Hf; [lia|].
  destruct q as [|x q].
  - rewrite app_nil_r, scan_end. eexists; split; [reflexivity|]. right. cbn. rewrite !Nat.add_0_r. split; [reflexivity|congruence].
  - rewrite scan_item by (inversion Hq; assumption).
    destruct (over c (nb + it_bytes x) (ni + units x)) eqn:E.
    + eexists; split; [reflexivity|]. left. exists [], x, q. cbn. rewrite !Nat.add_0_r. repeat split; auto; congruence.
    + cbn [length] in Hf.
      destruct (IH (p ++ [x]) q (nb + it_bytes x) (ni + units x)) as (r & Hr & Hc); [inversion Hq; assumption|lia|].
      rewrite <- app_assoc in Hr. cbn [app] in Hr. rewrite app_length in Hr, Hc. cbn [length] in Hr, Hc.
      replace (b + (length p + 1)) with (b + S (length p)) in Hr, Hc by lia.
      exists r. split; [exact Hr|]. destruct Hc as [(q1 & y & q2 & -> & H1 & H2 & H3)|[H1 H2]].
      * left. exists (x :: q1), y, q2. split; [reflexivity|]. cbn [app map sum length]. rewrite !Nat.add_assoc.
        split; [exact H1|]. split.
        -- intros _. destruct q1 as [|z q1]; [cbn; rewrite !Nat.add_0_r; exact E|]. apply H2; discriminate.
        -- rewrite H3. f_equal. lia.
      * right. cbn [map sum length]. rewrite H1. split; [f_equal; [f_equal; [f_equal|]|]; lia|].
        intros _. rewrite !Nat.add_assoc. destruct q as [|z q]; [cbn; rewrite !Nat.add_0_r; exact E|]. apply H2; discriminate.
Qed.

(** ** Writing a chunk *)

Definition mk (c : wcfg) (k : nat) (items : list item) : chunk :=
  let data := c_seal c k (chunk_data (map it_data items)) in
  Chunk k (c_compress c data) (length data) (length items) (dim_of items) items.

Lemma mk_chunk_of c k items : chunk_of c k (mk c k items).
Proof.
  unfold chunk_of, mk. cbv zeta. cbn [ch_index ch_file ch_bytes ch_size ch_dim ch_items].
  split; [reflexivity|]. split; [reflexivity|]. split; [reflexivity|]. split; [reflexivity|]. split.
  - intros H. destruct items as [|x items]; [reflexivity|]. cbn [dim_of]. rewrite (Forall_inv H). reflexivity.
  - intros ds H Hn Hp. destruct items as [|x items]; [destruct ds; [congruence|discriminate]|].
    destruct ds as [|d ds]; [discriminate|]. unfold dim_of.
    assert (Hx : it_dim x = Some d) by (cbn [map] in H; congruence).
    replace (truthy (it_dim x)) with true by (rewrite Hx; destruct d; [pose proof (Forall_inv Hp); cbn in *; lia|reflexivity]).
    f_equal. rewrite <- (map_map it_dim (fun o => match o with Some d0 => d0 | None => 0 end)), H, map_map, map_id. reflexivity.
Qed.

Lemma chunks_of_app c first chs items :
  chunks_of c first chs -> chunks_of c first (chs ++ [mk c (first + length chs) items]).
Proof.
  intros H k ch Hk. destruct (Nat.lt_ge_cases k (length chs)) as [Hlt|Hge].
  - rewrite nth_error_app1 in Hk by exact Hlt. apply H, Hk.
  - rewrite nth_error_app2 in Hk by exact Hge. destruct (k - length chs) as [|n] eqn:E.
    + injection Hk as <-. replace k with (length chs) by lia. apply mk_chunk_of.
    + destruct n; discriminate.
Qed.

Lemma flush_range c s b p q :
  p <> [] -> w_items s = items_at b (p ++ q) -> w_min s = Some b -> w_max s = Some (b + length p) ->
  fits c p \/ length p = 1 ->
  flush c s = Ok (WState (items_at (b + length p) q) None None 0 0 (w_chunks s ++ [mk c (w_index s) p])
                    (S (w_index s)) (w_done s)).
Proof.
  intros Hp Hi Hmin Hmax Hf. unfold flush, write_chunk, take_items. rewrite Hmin, Hmax, Hi.
  assert (0 < length p) by (destruct p; [congruence|cbn; lia]).
  replace (b + length p =? b) with false by (symmetry; apply Nat.eqb_neq; lia). cbn [bind fst snd].
  replace (b + length p - b) with (length p) by lia. rewrite pop_range_items. cbn [bind fst snd app].
  destruct p as [|y p]; [congruence|]. rewrite size_ok by exact Hf. reflexivity.
Qed.

Lemma flush_single c s b x q :
  w_items s = items_at b (x :: q) -> w_min s = Some b -> w_max s = Some b ->
  flush c s = Ok (WState (items_at (S b) q) None None 0 0 (w_chunks s ++ [mk c (w_index s) [x]])
                    (S (w_index s)) (w_done s)).
Proof.
  intros Hi Hmin Hmax. unfold flush, write_chunk, take_items. rewrite Hmin, Hmax, Hi, Nat.eqb_refl.
  rewrite items_at_cons. cbn [dpop]. rewrite Nat.eqb_refl. cbn [bind fst snd]. rewrite Nat.sub_diag. cbn [pop_range bind fst snd app].
  rewrite size_ok by (right; reflexivity). reflexivity.
Qed.

(** ** Invariant *)

Record inv (c : wcfg) (first b a : nat) (s : wstate) (D : list (list item)) (p : list item) : Prop := Inv {
  i_items : w_items s = items_at b p;
  i_next : a = b + length p;
  i_chunks : map ch_items (w_chunks s) = D;
  i_of : chunks_of c first (w_chunks s);
  i_index : w_index s = first + length (w_chunks s);
  i_done : w_done s = false;
  i_pos : Forall (fun x => 1 <= it_bytes x) p;
  i_mode : (w_min s = None /\ w_max s = None /\ length p <= 1) \/
           (p <> [] /\ w_min s = Some b /\ w_max s = Some a /\ w_nb s = sum (map it_bytes p) /\
            w_ni s = sum (map units p) /\ over_all c p = false)
}.

Definition closed (c : wcfg) (ch rest : list item) : Prop :=
  over_all c ch = true \/ exists x r, rest = x :: r /\ over_all c (ch ++ [x]) = true.
Fixpoint chain (c : wcfg) (D : list (list item)) (p : list item) : Prop :=
  match D with [] => True | ch :: D' => closed c ch (concat D' ++ p) /\ chain c D' p end.
Definition good (c : wcfg) (D : list (list item)) (p : list item) : Prop :=
  Forall (fun ch => ch <> [] /\ (fits c ch \/ length ch = 1)) D /\ chain c D p.

Lemma closed_app c ch r m : closed c ch r -> closed c ch (r ++ m).
Proof. intros [H|(x & r' & -> & H)]; [left; exact H|right]. exists x, (r' ++ m). auto. Qed.

Lemma chain_more c D p m : chain c D p -> chain c D (p ++ m).
Proof.
  induction D as [|ch D IH]; cbn [chain]; [auto|]. intros [H1 H2]. split; [|auto].
  rewrite app_assoc. apply closed_app, H1.
Qed.

Lemma chain_close c D ch q : chain c D (ch ++ q) -> closed c ch q -> chain c (D ++ [ch]) q.
Proof.
  induction D as [|d D IH]; cbn [chain app]; intros H Hc.
  - cbn. auto.
  - destruct H as [H1 H2]. split; [|auto]. rewrite concat_app. cbn [concat]. rewrite app_nil_r, <- app_assoc. exact H1.
Qed.

Lemma good_more c D p x : good c D p -> good c D (p ++ [x]).
Proof. intros [H1 H2]. split; [exact H1|apply chain_more, H2]. Qed.

Lemma good_close c D ch q :
  good c D (ch ++ q) -> ch <> [] -> fits c ch \/ length ch = 1 -> closed c ch q -> good c (D ++ [ch]) q.
Proof.
  intros [H1 H2] Hn Hf Hc. split; [|apply chain_close; assumption].
  apply Forall_app. split; [exact H1|]. constructor; [auto|constructor].
Qed.

(** Outcome of adding the next item to a state with pending items [p]. *)
Definition outcome (c : wcfg) (first a : nat) (D : list (list item)) (p : list item) (x : item) (r : res wstate) : Prop :=
  exists s' b' D' p', r = Ok s' /\ inv c first b' (S a) s' D' p' /\
    concat D' ++ p' = concat D ++ p ++ [x] /\ (good c D p -> good c D' p').

Lemma full_step c first b s D p1 y p2 p x :
  p ++ [x] = p1 ++ y :: p2 ->
  map ch_items (w_chunks s) = D -> chunks_of c first (w_chunks s) -> w_index s = first + length (w_chunks s) ->
  w_done s = false -> Forall (fun z => 1 <= it_bytes z) (p ++ [x]) ->
  w_items s = items_at b (p ++ [x]) -> w_min s = Some b -> w_max s = Some (b + length p1) ->
  (p1 <> [] -> over_all c p1 = false) -> over_all c (p1 ++ [y]) = true ->
  (p1 <> [] -> p2 = []) -> (p1 = [] -> length p2 <= 1) ->
  outcome c first (b + length p) D p x (flush c s).
Proof.
  intros E HD Hof Hix Hdn Hpos Hit Hmin Hmax Hno Hov Hp2 Hp2'.
  assert (El : length p + 1 = length p1 + S (length p2)).
  { apply (f_equal (@length item)) in E. rewrite !app_length in E. cbn in E. lia. }
  destruct p1 as [|z p1].
  - cbn [app length] in *. rewrite Nat.add_0_r in Hmax. rewrite E in Hit.
    rewrite (flush_single c s b y p2 Hit Hmin Hmax).
    exists (WState (items_at (S b) p2) None None 0 0 (w_chunks s ++ [mk c (w_index s) [y]]) (S (w_index s)) (w_done s)), (S b), (D ++ [[y]]), p2.
    split; [reflexivity|]. split; [|split].
    + constructor; cbn [w_items w_chunks w_index w_done w_min w_max w_nb w_ni].
      * reflexivity.
      * lia.
      * rewrite map_app, HD. reflexivity.
      * rewrite Hix. apply chunks_of_app, Hof.
      * rewrite app_length. cbn. lia.
      * exact Hdn.
      * rewrite E in Hpos. inversion Hpos; assumption.
      * left. auto.
    + rewrite concat_app. cbn [concat]. rewrite app_nil_r, <- app_assoc, E. reflexivity.
    + intros Hg. apply good_more with (x := x) in Hg. rewrite E in Hg.
      apply good_close; [exact Hg|discriminate|right; reflexivity|]. left. exact Hov.
  - rewrite Hp2 in * by discriminate. rewrite E in Hit.
    assert (Hf : fits c (z :: p1)) by (apply over_all_fits, Hno; discriminate).
    rewrite (flush_range c s b (z :: p1) [y] ltac:(discriminate) Hit Hmin Hmax (or_introl Hf)).
    exists (WState (items_at (b + length (z :: p1)) [y]) None None 0 0 (w_chunks s ++ [mk c (w_index s) (z :: p1)]) (S (w_index s)) (w_done s)),
      (b + length (z :: p1)), (D ++ [z :: p1]), [y].
    split; [reflexivity|]. split; [|split].
    + constructor; cbn [w_items w_chunks w_index w_done w_min w_max w_nb w_ni].
      * reflexivity.
      * cbn [length] in *. lia.
      * rewrite map_app, HD. reflexivity.
      * rewrite Hix. apply chunks_of_app, Hof.
      * rewrite app_length. cbn. lia.
      * exact Hdn.
      * rewrite E in Hpos. apply Forall_app in Hpos. apply Hpos.
      * left. repeat split. cbn. lia.
    + rewrite concat_app. cbn [concat]. rewrite app_nil_r, <- app_assoc, E. reflexivity.
    + intros Hg. apply good_more with (x := x) in Hg. rewrite E in Hg.
      apply good_close; [exact Hg|discriminate|left; exact Hf|]. right. exists y, []. auto.
Qed.

Lemma over_all_eq c l : over c (0 + sum (map it_bytes l)) (0 + sum (map units l)) = over_all c l.
Proof. reflexivity. Qed.

Lemma add_in_order c first b a s D p x :
  inv c first b a s D p -> 1 <= it_bytes x -> outcome c first a D p x (add_item c s a x).
Proof.
  intros [Hit Hnext HD Hof Hix Hdn Hpos Hmode] Hx. unfold add_item. rewrite Hit, Hnext, dget_items_at.
  replace (nth_error p (length p)) with (@None item) by (symmetry; apply nth_error_None; lia).
  rewrite dset_items_at.
  assert (Hpos' : Forall (fun z => 1 <= it_bytes z) (p ++ [x])) by (apply Forall_app; auto).
  destruct Hmode as [(Hmin & Hmax & Hl)|(Hp & Hmin & Hmax & Hnb & Hni & Hov)].
  - rewrite Hmin, min_key_seq. unfold write_if_full, should_write. cbn [w_items w_max w_nb w_ni].
    assert (Hne : items_at b (p ++ [x]) <> []) by (destruct p; discriminate).
    destruct (items_at b (p ++ [x])) as [|e es] eqn:Ees; [congruence|]. rewrite <- Ees. clear Hne.
    destruct (scan_all (S (length (items_at b (p ++ [x])))) c b [] (p ++ [x]) 0 0) as (r & Hr & Hc);
      [exact Hpos'|rewrite items_at_length; lia|].
    cbn [app length] in Hr, Hc. rewrite !Nat.add_0_r in Hr, Hc. rewrite Hr.
    destruct Hc as [(q1 & y & q2 & E & H1 & H2 & H3)|[-> H2]].
    + destruct r as [[[r1 r2] r3] r4]. cbn [fst] in H3. injection H3 as -> ->. cbn [bind fst snd].
      assert (El : length p + 1 = length q1 + S (length q2)).
      { apply (f_equal (@length item)) in E. rewrite !app_length in E. cbn in E. lia. }
      eapply (full_step c first b _ D q1 y q2 p x E); cbn [w_items w_chunks w_index w_done w_min w_max]; try assumption.
      * rewrite Ees. reflexivity.
      * reflexivity.
      * reflexivity.
      * intros Hq1. destruct q1; [congruence|]. cbn [length] in El. destruct q2; [reflexivity|cbn [length] in El; lia].
      * intros ->. cbn [length] in El. lia.
    + cbn [bind fst snd]. eexists _, b, D, (p ++ [x]). split; [reflexivity|]. split; [|split].
      * constructor; cbn [w_items w_chunks w_index w_done w_min w_max w_nb w_ni]; try assumption.
        -- rewrite Ees. reflexivity.
        -- rewrite app_length. cbn. lia.
        -- right. split; [destruct p; discriminate|]. split; [reflexivity|]. split; [rewrite app_length; cbn [length]; f_equal; lia|].
           split; [reflexivity|]. split; [reflexivity|]. apply H2. destruct p; discriminate.
      * reflexivity.
      * apply good_more.
  - rewrite Hmin. replace (b + length p <? b) with false by (symmetry; apply Nat.ltb_ge; lia).
    rewrite Hmax, Hnext, Nat.eqb_refl. unfold write_if_full, should_write. cbn [w_items w_max w_nb w_ni].
    destruct (items_at b (p ++ [x])) as [|e es] eqn:Ees; [destruct p; discriminate|]. rewrite <- Ees.
    rewrite items_at_length, app_length. cbn [length]. replace (S (length p + 1)) with (S (S (length p))) by lia.
    rewrite scan_item by exact Hx. rewrite Hnb, Hni.
    assert (Eo : over c (sum (map it_bytes p) + it_bytes x) (sum (map units p) + units x) = over_all c (p ++ [x])).
    { unfold over_all. rewrite !map_app, !sum_app. cbn. rewrite !Nat.add_0_r. reflexivity. }
    rewrite Eo. destruct (over_all c (p ++ [x])) eqn:Ho.
    + cbn [bind fst snd]. eapply (full_step c first b _ D p x [] p x eq_refl); cbn [w_items w_chunks w_index w_done w_min w_max]; try assumption; try reflexivity.
      * intros _. exact Hov.
      * intros ->. congruence.
    + replace (b + S (length p)) with (b + length (p ++ [x])) by (rewrite app_length; cbn; lia).
      rewrite scan_end. cbn [bind fst snd]. eexists _, b, D, (p ++ [x]). split; [reflexivity|]. split; [|split].
      * constructor; cbn [w_items w_chunks w_index w_done w_min w_max w_nb w_ni]; try assumption.
        -- rewrite Ees. reflexivity.
        -- rewrite app_length. cbn. lia.
        -- right. split; [destruct p; discriminate|]. split; [reflexivity|]. split; [rewrite app_length; cbn [length]; f_equal; lia|].
           rewrite !map_app, !sum_app. cbn [map sum]. rewrite !Nat.add_0_r. auto.
      * reflexivity.
      * apply good_more.
Qed.

Lemma add_all_ok c first l : forall b a s D p,
  inv c first b a s D p -> good c D p -> Forall (fun x => 1 <= it_bytes x) l ->
  exists s' b' D' p', add_all c s a l = Ok s' /\ inv c first b' (a + length l) s' D' p' /\
    concat D' ++ p' = concat D ++ p ++ l /\ good c D' p'.
Proof.
  induction l as [|x l IH]; intros b a s D p Hi Hg Hl.
  - exists s, b, D, p. rewrite app_nil_r. cbn [length]. rewrite Nat.add_0_r. auto.
  - cbn [add_all]. inversion Hl as [|? ? Hx Hl']; subst.
    destruct (add_in_order c first b a s D p x Hi Hx) as (s1 & b1 & D1 & p1 & -> & Hi1 & E1 & Hg1). cbn [bind].
    destruct (IH b1 (S a) s1 D1 p1 Hi1 (Hg1 Hg) Hl') as (s2 & b2 & D2 & p2 & E2 & Hi2 & E3 & Hg2).
    exists s2, b2, D2, p2. split; [exact E2|]. split; [|split; [|exact Hg2]].
    + cbn [length]. replace (a + S (length l)) with (S a + length l) by lia. exact Hi2.
    + rewrite E3, app_assoc, E1, <- !app_assoc. reflexivity.
Qed.

(** ** Finishing *)

Lemma not_fits c l : over_all c l = true -> ~ fits c l.
Proof. intros H Hf. apply over_all_fits in Hf. congruence. Qed.

Lemma chain_tight c D p :
  Forall (fun ch => ch <> []) D -> chain c D p -> tight c (D ++ match p with [] => [] | _ => [p] end).
Proof.
  induction D as [|ch D IH]; intros Hn Hc; [destruct p; exact I|].
  inversion Hn as [|? ? H1 H2]; subst. destruct Hc as [Hc1 Hc2]. specialize (IH H2 Hc2).
  destruct D as [|d D].
  - cbn [app concat] in *. destruct p as [|x p]; [exact I|]. cbn [tight]. split; [|exact I].
    exists x, p. split; [reflexivity|]. apply not_fits. destruct Hc1 as [H|(y & r & E & H)].
    + apply over_all_app, H.
    + injection E as -> ->. exact H.
  - inversion H2 as [|? ? H3 H4]; subst. destruct d as [|x d]; [congruence|].
    cbn [app tight]. split; [|exact IH]. exists x, d. split; [reflexivity|]. apply not_fits.
    destruct Hc1 as [H|(y & r & E & H)]; [apply over_all_app, H|].
    cbn [concat app] in E. injection E as -> E. exact H.
Qed.

Lemma done_ok c first b a s D p :
  inv c first b a s D p -> good c D p ->
  exists s', done c false s = Ok s' /\ w_items s' = [] /\ w_done s' = true /\ chunks_of c first (w_chunks s') /\
    stored s' = concat D ++ p /\
    Forall (fun ch => ch <> [] /\ (fits c ch \/ length ch = 1)) (map ch_items (w_chunks s')) /\
    tight c (map ch_items (w_chunks s')).
Proof.
  intros [Hit Hnext HD Hof Hix Hdn Hpos Hmode] [Hg1 Hg2]. unfold done. rewrite Hdn. cbn [orb].
  assert (Htight : tight c (D ++ match p with [] => [] | _ => [p] end)).
  { apply chain_tight; [|exact Hg2]. eapply Forall_impl; [|exact Hg1]. cbn. tauto. }
  assert (Hloop : exists s1, done_loop (S (length (w_items s))) c s = Ok s1 /\ w_items s1 = items_at b p /\
                    w_chunks s1 = w_chunks s /\ w_index s1 = w_index s /\ (p <> [] -> fits c p \/ length p = 1)).
  { cbn [done_loop]. unfold should_write. destruct (w_items s) as [|e es] eqn:Es.
    - cbn [bind fst snd]. exists s. rewrite Es. split; [reflexivity|]. split; [exact Hit|]. split; [reflexivity|]. split; [reflexivity|].
      intros Hp. destruct p; [congruence|]. rewrite items_at_cons in Hit. discriminate.
    - destruct Hmode as [(Hmin & Hmax & Hl)|(Hp & Hmin & Hmax & Hnb & Hni & Hov)].
      + rewrite Hmax. cbn [bind fst snd]. exists s. rewrite Es. split; [reflexivity|]. split; [exact Hit|]. split; [reflexivity|]. split; [reflexivity|].
        intros Hp. right. destruct p; [congruence|cbn in *; lia].
      + rewrite Hmax, Hit, Hnext, items_at_length, scan_end. cbn [bind fst snd].
        eexists; split; [reflexivity|]. cbn [w_items w_chunks w_index]. split; [reflexivity|]. split; [reflexivity|]. split; [reflexivity|].
        intros _. left. apply over_all_fits, Hov. }
  destruct Hloop as (s1 & -> & Hit1 & Hch1 & Hix1 & Hf). cbn [bind]. rewrite Hit1.
  destruct p as [|x p].
  - cbn [items_at length seq combine bind]. eexists; split; [reflexivity|]. cbn [w_items w_done w_chunks].
    unfold stored. cbn [w_chunks]. rewrite Hch1, HD. rewrite !app_nil_r in *.
    split; [exact Hit1|]. split; [reflexivity|]. split; [exact Hof|]. split; [reflexivity|]. split; [exact Hg1|exact Htight].
  - rewrite items_at_cons. unfold write_chunk, take_items. rewrite Hit1, items_at_keys, sort_keys_seq, consecutive_seq, pop_keys_items.
    cbn [bind fst snd]. rewrite size_ok by (apply Hf; discriminate). cbn [bind].
    eexists; split; [reflexivity|]. cbn [w_items w_done w_chunks]. unfold stored. cbn [w_chunks].
    rewrite Hch1, map_app, HD. cbn [map ch_items]. split; [reflexivity|]. split; [reflexivity|]. split; [|split; [|split]].
    + rewrite Hix1, Hix. apply (chunks_of_app c first (w_chunks s) (x :: p)), Hof.
    + rewrite concat_app. cbn [concat]. rewrite app_nil_r. reflexivity.
    + apply Forall_app. split; [exact Hg1|]. constructor; [|constructor]. split; [discriminate|]. apply Hf; discriminate.
    + exact Htight.
Qed.

Lemma inv_new c first a : inv c first a a (new_writer first) [] [].
Proof.
  constructor; cbn; auto.
  - intros k ch H. destruct k; discriminate.
Qed.

Theorem write_in_order c first a l :
  Forall (fun x => 1 <= it_bytes x) l ->
  exists s, bind (add_all c (new_writer first) a l) (done c false) = Ok s /\
    w_items s = [] /\ w_done s = true /\ chunks_of c first (w_chunks s) /\ stored s = l /\
    Forall (fun ch => ch <> [] /\ (fits c ch \/ length ch = 1)) (map ch_items (w_chunks s)) /\
    tight c (map ch_items (w_chunks s)).
Proof.
  intros Hl.
  destruct (add_all_ok c first l a a (new_writer first) [] [] (inv_new c first a)) as (s1 & b1 & D1 & p1 & -> & Hi & E & Hg);
    [split; [constructor|exact I]|exact Hl|].
  cbn [bind]. destruct (done_ok c first b1 (a + length l) s1 D1 p1 Hi Hg) as (s2 & H1 & H2 & H3 & H4 & H5 & H6 & H7).
  exists s2. split; [exact H1|]. split; [exact H2|]. split; [exact H3|]. split; [exact H4|].
  split; [rewrite H5, E; reflexivity|]. split; [exact H6|exact H7].
Qed.
