From Verif Require Import Base Dict Format_Model Writer_Model Writer_Spec Writer_Proofs Restart_Model Restart_Spec.
Local Ltac Zify.zify_post_hook ::= idtac.

Lemma Forall2_weaken {A B} (P Q : A -> B -> Prop) l l' : (forall a b, P a b -> Q a b) -> Forall2 P l l' -> Forall2 Q l l'.
Proof. intros H. induction 1; constructor; auto. Qed.

Lemma Forall2_same_length {A B} (P : A -> B -> Prop) l l' : Forall2 P l l' -> length l = length l'.
Proof. induction 1; cbn; congruence. Qed.

Lemma app_same_length {A} : forall (a b a' b' : list A), a ++ b = a' ++ b' -> length a = length a' -> a = a'.
Proof.
  induction a as [|x a IH]; intros b [|y a'] b' E L; cbn in *; try discriminate; [reflexivity|].
  injection E as -> E. f_equal. eapply IH; [exact E|lia].
Qed.

Lemma Forall2_right {A B} (P : A -> B -> Prop) (Q : B -> Prop) l l' : Forall2 P l l' -> Forall Q l' -> Forall2 (fun a b => P a b /\ Q b) l l'.
Proof. induction 1; intros F; constructor; [split; [assumption|exact (Forall_inv F)]|]. apply IHForall2. exact (Forall_inv_tail F). Qed.

(** A writer with chunks of an earlier run does the same as one without. *)
Definition framed (pre : list chunk) (s : wstate) : wstate :=
  WState (w_items s) (w_min s) (w_max s) (w_nb s) (w_ni s) (pre ++ w_chunks s) (w_index s) (w_done s).
Definition fmap (pre : list chunk) (r : res wstate) : res wstate :=
  match r with Ok s => Ok (framed pre s) | Err e => Err e end.
Lemma fmap_bind pre r (f g : wstate -> res wstate) : (forall s, g (framed pre s) = fmap pre (f s)) -> bind (fmap pre r) g = fmap pre (bind r f).
Proof. intros H. destruct r as [s|e]; cbn; [apply H|reflexivity]. Qed.

Lemma should_write_frame c pre s :
  should_write c (framed pre s) = match should_write c s with Ok (b, s') => Ok (b, framed pre s') | Err e => Err e end.
Proof.
  unfold should_write, framed. cbn [w_items w_min w_max w_nb w_ni w_chunks w_index w_done].
  destruct (w_items s) eqn:E; [rewrite ?E; reflexivity|]. destruct (w_max s) eqn:Em; [|cbn [w_items]; rewrite ?E, ?Em; reflexivity].
  destruct (scan _ _ _ _ _ _) as [[[[[|] ?] ?] ?]|]; reflexivity.
Qed.
Lemma write_chunk_frame c on_done pre s : write_chunk c on_done (framed pre s) = fmap pre (write_chunk c on_done s).
Proof.
  unfold write_chunk. change (take_items on_done (framed pre s)) with (take_items on_done s).
  destruct (take_items on_done s) as [[items rest]|e]; cbn [bind fst snd fmap]; [|reflexivity].
  destruct items; [reflexivity|]. destruct (truthy (c_size c) && _); [reflexivity|].
  cbn [fmap]. unfold framed. cbn [w_items w_min w_max w_nb w_ni w_chunks w_index w_done]. rewrite app_assoc. reflexivity.
Qed.
Lemma flush_frame c pre s : flush c (framed pre s) = fmap pre (flush c s).
Proof. unfold flush. rewrite write_chunk_frame. apply fmap_bind. intros s'. reflexivity. Qed.
Lemma write_if_full_frame c pre s : write_if_full c (framed pre s) = fmap pre (write_if_full c s).
Proof.
  unfold write_if_full. rewrite should_write_frame. destruct (should_write c s) as [[[|] s']|e]; cbn [bind fst snd fmap]; [apply flush_frame|reflexivity..].
Qed.
Lemma add_item_frame c pre s i x : add_item c (framed pre s) i x = fmap pre (add_item c s i x).
Proof.
  unfold add_item. change (w_items (framed pre s)) with (w_items s). change (w_min (framed pre s)) with (w_min s).
  change (w_max (framed pre s)) with (w_max s). destruct (dget i (w_items s)); [reflexivity|].
  assert (W : forall it mn mx nb ni, write_if_full c (WState it mn mx nb ni (w_chunks (framed pre s)) (w_index (framed pre s)) (w_done (framed pre s))) =
    fmap pre (write_if_full c (WState it mn mx nb ni (w_chunks s) (w_index s) (w_done s)))).
  { intros. rewrite <- write_if_full_frame. reflexivity. }
  destruct (w_min s) as [mn|] eqn:Emn; [|apply W]. destruct (i <? mn); [apply W|].
  destruct (w_max s) as [mx|] eqn:Emx; [|reflexivity]. destruct (i =? mx); [apply W|reflexivity].
Qed.
Lemma done_loop_frame fuel c pre : forall s, done_loop fuel c (framed pre s) = fmap pre (done_loop fuel c s).
Proof.
  induction fuel as [|f IH]; intros s; [reflexivity|]. cbn [done_loop]. rewrite should_write_frame.
  destruct (should_write c s) as [[[|] s']|e]; cbn [bind fst snd fmap]; [|reflexivity..].
  rewrite write_chunk_frame. apply fmap_bind. exact IH.
Qed.
Lemma done_frame c filled pre s : done c filled (framed pre s) = fmap pre (done c filled s).
Proof.
  unfold done. change (w_done (framed pre s)) with (w_done s). change (w_items (framed pre s)) with (w_items s).
  destruct (filled || w_done s); [reflexivity|]. rewrite done_loop_frame. apply fmap_bind. intros s'.
  change (w_items (framed pre s')) with (w_items s'). destruct (w_items s').
  - reflexivity.
  - rewrite write_chunk_frame. apply fmap_bind. intros s2. reflexivity.
Qed.

(** Chunks are only added. *)
Lemma write_chunk_more c on_done s s' : write_chunk c on_done s = Ok s' -> exists l, w_chunks s' = w_chunks s ++ l.
Proof.
  unfold write_chunk. destruct (take_items on_done s) as [[items rest]|e]; cbn [bind fst snd]; [|discriminate].
  destruct items; [discriminate|]. destruct (truthy (c_size c) && _); [discriminate|]. intros H. injection H as <-. cbn [w_chunks]. eauto.
Qed.
Lemma should_write_same c s b s' : should_write c s = Ok (b, s') -> w_chunks s' = w_chunks s.
Proof.
  unfold should_write. destruct (w_items s); [congruence|]. destruct (w_max s); [|congruence].
  destruct (scan _ _ _ _ _ _) as [[[[[|] ?] ?] ?]|]; intros H; [injection H as _ <-; reflexivity..|discriminate H].
Qed.
Lemma write_if_full_more c s s' : write_if_full c s = Ok s' -> exists l, w_chunks s' = w_chunks s ++ l.
Proof.
  unfold write_if_full, flush. destruct (should_write c s) as [[b s1]|e] eqn:E; cbn [bind fst snd]; [|discriminate].
  apply should_write_same in E. destruct b.
  - destruct (write_chunk c false s1) as [s2|] eqn:E2; cbn [bind]; [|discriminate]. intros H. injection H as <-. cbn [w_chunks].
    apply write_chunk_more in E2. rewrite <- E. exact E2.
  - intros H. injection H as <-. exists []. rewrite app_nil_r. exact E.
Qed.
Lemma add_item_more c s i x s' : add_item c s i x = Ok s' -> exists l, w_chunks s' = w_chunks s ++ l.
Proof.
  unfold add_item. destruct (dget i (w_items s)); [discriminate|].
  assert (S : forall it mn mx nb ni, Ok (WState it mn mx nb ni (w_chunks s) (w_index s) (w_done s)) = Ok s' -> exists l, w_chunks s' = w_chunks s ++ l).
  { intros. exists []. rewrite app_nil_r. injection H as <-. reflexivity. }
  destruct (w_min s) as [mn|]; [|intros H; apply write_if_full_more in H; exact H].
  destruct (i <? mn); [intros H; apply write_if_full_more in H; exact H|].
  destruct (w_max s) as [mx|]; [|apply S]. destruct (i =? mx); [intros H; apply write_if_full_more in H; exact H|apply S].
Qed.
Lemma done_loop_more fuel c : forall s s', done_loop fuel c s = Ok s' -> exists l, w_chunks s' = w_chunks s ++ l.
Proof.
  induction fuel as [|f IH]; intros s s'; cbn [done_loop]; [discriminate|].
  destruct (should_write c s) as [[b s1]|e] eqn:E; cbn [bind fst snd]; [|discriminate].
  apply should_write_same in E. destruct b.
  - destruct (write_chunk c false s1) as [s2|] eqn:E2; cbn [bind]; [|discriminate]. intros H.
    apply write_chunk_more in E2. destruct E2 as [l1 E2]. apply IH in H. destruct H as [l2 H]. exists (l1 ++ l2). rewrite H, E2, E, app_assoc. reflexivity.
  - intros H. injection H as <-. exists []. rewrite app_nil_r. exact E.
Qed.
Lemma done_more c filled s s' : done c filled s = Ok s' -> exists l, w_chunks s' = w_chunks s ++ l.
Proof.
  unfold done. destruct (filled || w_done s); [intros H; injection H as <-; exists []; rewrite app_nil_r; reflexivity|].
  destruct (done_loop _ c s) as [s1|] eqn:E1; cbn [bind]; [|discriminate]. apply done_loop_more in E1. destruct E1 as [l1 E1].
  destruct (w_items s1) eqn:Ei.
  - cbn [bind]. intros H. injection H as <-. cbn [w_chunks]. eauto.
  - destruct (write_chunk c true s1) as [s2|] eqn:E2; cbn [bind]; [|discriminate]. apply write_chunk_more in E2. destruct E2 as [l2 E2].
    intros H. injection H as <-. cbn [w_chunks]. exists (l1 ++ l2). rewrite E2, E1, app_assoc. reflexivity.
Qed.

(** ** The events of a run *)
Section Run.
Context (infos0 : list info).
Inductive trace : list chunk -> list event -> list chunk -> Prop :=
| t_nil chs : trace chs [] chs
| t_put chs ch es chs' : trace (chs ++ [ch]) es chs' -> trace chs (Put (ch_index ch) (ch_file ch) :: es) chs'
| t_save chs es chs' : trace chs es chs' -> trace chs (Save (infos0 ++ map info_of chs) :: es) chs'.

Lemma trace_app a es b es' d : trace a es b -> trace b es' d -> trace a (es ++ es') d.
Proof. induction 1; intros H'; cbn [app]; [exact H'|constructor; auto..]. Qed.
Lemma trace_puts l : forall chs, trace chs (map (fun ch => Put (ch_index ch) (ch_file ch)) l) (chs ++ l).
Proof.
  induction l as [|ch l IH]; intros chs; cbn [map]; [rewrite app_nil_r; constructor|].
  constructor. specialize (IH (chs ++ [ch])). rewrite <- app_assoc in IH. exact IH.
Qed.
Lemma info_known l : map info_of (map known l) = l.
Proof. rewrite map_map. rewrite <- (map_id l) at 2. apply map_ext. intros []. reflexivity. Qed.
Lemma trace_step s s' l : w_chunks s' = w_chunks s ++ l ->
  trace (w_chunks s) (new_puts (framed (map known infos0) s) (framed (map known infos0) s') ++ save (framed (map known infos0) s')) (w_chunks s').
Proof.
  intros E. unfold new_puts. cbn [framed w_chunks]. rewrite E, app_assoc, skipn_app, skipn_all, Nat.sub_diag. cbn [skipn app].
  eapply trace_app; [apply trace_puts|]. unfold save. cbn [framed w_chunks]. rewrite <- E.
  destruct (map known infos0 ++ w_chunks s') eqn:Ec; [constructor|]. rewrite <- Ec, map_app, info_known. constructor. constructor.
Qed.

Lemma work_trace c xs : forall first b a counter s D p,
  inv c first b a s D p -> good c D p -> Forall (fun x => 1 <= it_bytes x) xs ->
  exists s' b' D' p' es, work c (framed (map known infos0) s) a counter (map Some xs) = Ok (framed (map known infos0) s', es) /\
    inv c first b' (a + length xs) s' D' p' /\ good c D' p' /\ concat D' ++ p' = concat D ++ p ++ xs /\
    trace (w_chunks s) (map snd es) (w_chunks s').
Proof.
  induction xs as [|x xs IH]; intros first b a counter s D p Hi Hg Hx.
  - exists s, b, D, p, []. cbn [work map length]. rewrite app_nil_r, Nat.add_0_r. split; [reflexivity|]. split; [exact Hi|]. split; [exact Hg|]. split; [reflexivity|constructor].
  - pose proof (Forall_inv Hx) as Hx1. pose proof (Forall_inv_tail Hx) as Hx2. cbn [work map]. rewrite add_item_frame.
    destruct (add_in_order c first b a s D p x Hi Hx1) as (s1 & b1 & D1 & p1 & E1 & Hi1 & Ec1 & Hg1). rewrite E1. cbn [fmap bind].
    destruct (IH first b1 (S a) (S counter) s1 D1 p1 Hi1 (Hg1 Hg) Hx2) as (s2 & b2 & D2 & p2 & es & E2 & Hi2 & Hg2 & Ec2 & T).
    rewrite E2. cbn [bind fst snd]. exists s2, b2, D2, p2. eexists. split; [reflexivity|].
    split; [cbn [length]; replace (a + S (length xs)) with (S a + length xs) by lia; exact Hi2|]. split; [exact Hg2|].
    split; [rewrite Ec2, app_assoc, Ec1, <- !app_assoc; reflexivity|].
    rewrite map_app. destruct (add_item_more _ _ _ _ _ E1) as [l El]. eapply trace_app; [|exact T].
    rewrite map_map. cbn [snd]. rewrite map_id. apply (trace_step s s1 l El).
Qed.

Lemma finish_trace c first b a s D p counter :
  inv c first b a s D p -> good c D p ->
  exists s' es, finish_worker c (framed (map known infos0) s) counter = Ok (framed (map known infos0) s', es) /\
    chunks_of c first (w_chunks s') /\ stored s' = concat D ++ p /\ Forall (fun ch => ch_items ch <> []) (w_chunks s') /\
    trace (w_chunks s) (map snd es) (w_chunks s').
Proof.
  intros Hi Hg. destruct (done_ok c first b a s D p Hi Hg) as (s' & E & _ & _ & Hof & Hs & Hf & _).
  unfold finish_worker. rewrite done_frame, E. cbn [fmap bind]. exists s'. eexists. split; [reflexivity|].
  split; [exact Hof|]. split; [exact Hs|]. split; [rewrite Forall_map in Hf; eapply Forall_impl; [|exact Hf]; cbn; tauto|].
  destruct (done_more _ _ _ _ E) as [l El]. rewrite map_app, map_map. cbn [snd]. rewrite map_id.
  replace (map snd (combine (seq 0 (length (new_puts (framed (map known infos0) s) (framed (map known infos0) s')))) (new_puts (framed (map known infos0) s) (framed (map known infos0) s'))))
    with (new_puts (framed (map known infos0) s) (framed (map known infos0) s')).
  - apply (trace_step s s' l El).
  - generalize (new_puts (framed (map known infos0) s) (framed (map known infos0) s')). intros q. generalize 0. induction q as [|e q IH]; intros n; cbn; [reflexivity|]. rewrite <- IH. reflexivity.
Qed.
End Run.

Lemma run_trace c first xs infos0 st :
  load st = Ok infos0 -> Forall (fun x => 1 <= it_bytes x) xs ->
  exists es chs, run c first (map Some xs) st = Ok (Outcome es (infos0 ++ map info_of chs) (has_format (skipn (done_till infos0) (map Some xs)))) /\
    trace infos0 [] (map snd es) chs /\ chunks_of c (first + done_till infos0) chs /\
    concat (map ch_items chs) = skipn (done_till infos0) xs /\ Forall (fun ch => ch_items ch <> []) chs.
Proof.
  intros Hl Hx. unfold run. rewrite Hl. cbn [bind]. set (d := done_till infos0).
  rewrite skipn_map. change (start first infos0) with (WState [] None None 0 0 (map known infos0) (first + d) false).
  replace (WState [] None None 0 0 (map known infos0) (first + d) false) with (framed (map known infos0) (new_writer (first + d)))
    by (unfold framed, new_writer; cbn; rewrite app_nil_r; reflexivity).
  assert (Hx' : Forall (fun x => 1 <= it_bytes x) (skipn d xs)).
  { rewrite Forall_forall in *. intros x Hin. apply Hx. rewrite <- (firstn_skipn d xs). apply in_or_app. right. exact Hin. }
  destruct (work_trace infos0 c (skipn d xs) (first + d) 0 0 0 (new_writer (first + d)) [] [] (inv_new c (first + d) 0)) as
    (s1 & b1 & D1 & p1 & es1 & E1 & Hi1 & Hg1 & Ec1 & T1); [split; [constructor|exact I]|exact Hx'|].
  rewrite E1. cbn [bind fst snd].
  destruct (finish_trace infos0 c (first + d) b1 _ s1 D1 p1 (length (map Some (skipn d xs))) Hi1 Hg1) as (s2 & es2 & E2 & Hof & Hs & Hf & T2).
  rewrite E2. cbn [bind fst snd framed w_chunks]. exists (es1 ++ es2), (w_chunks s2). split; [rewrite map_app, info_known; reflexivity|].
  split; [rewrite map_app; eapply trace_app; eassumption|]. split; [exact Hof|]. split; [|exact Hf].
  unfold stored in Hs. rewrite Hs, Ec1. reflexivity.
Qed.

(** ** The store *)
Section Store.
Context (c : wcfg) (first : nat) (xs : list item).
Hypothesis xs_ok : Forall (fun x => 1 <= it_bytes x) xs.

Definition store_ok (st : store) : Prop :=
  match s_saved st with
  | Saved infos => exists groups rest, xs = concat groups ++ rest /\ Forall2 (holds c (s_files st)) groups infos /\
      Forall (fun i => first <= f_index i < first + done_till infos) infos /\ NoDup (map f_index infos)
  | _ => True
  end.

Lemma holds_size files g i : holds c files g i -> f_size i = length g /\ 1 <= f_size i.
Proof.
  intros (Hn & file & _ & Hc). destruct Hc as (_ & _ & _ & H & _). cbn [ch_size ch_items] in H. split; [exact H|].
  destruct g; [congruence|cbn in *; lia].
Qed.
Lemma holds_done files groups infos : Forall2 (holds c files) groups infos -> done_till infos = length (concat groups).
Proof.
  unfold done_till. induction 1 as [|g i groups infos H _ IH]; [reflexivity|]. cbn [map sum concat]. rewrite app_length, IH.
  apply holds_size in H. lia.
Qed.
Lemma holds_ext files files' g i : files' (f_index i) = files (f_index i) -> holds c files g i -> holds c files' g i.
Proof. intros E (Hn & file & Hf & Hc). split; [exact Hn|]. exists file. split; [congruence|exact Hc]. Qed.

Section OneRun.
Context (st0 : store) (infos0 : list info) (groups0 : list (list item)) (final : list chunk).
Let first' := first + done_till infos0.
Hypothesis load0 : load st0 = Ok infos0.
Hypothesis H0 : Forall2 (holds c (s_files st0)) groups0 infos0.
Hypothesis I0 : Forall (fun i => first <= f_index i < first') infos0.
Hypothesis N0 : NoDup (map f_index infos0).
Hypothesis F1 : chunks_of c first' final.
Hypothesis F2 : Forall (fun ch => ch_items ch <> []) final.
Hypothesis F3 : concat (groups0 ++ map ch_items final) = xs.

Definition mid (st : store) (chs : list chunk) : Prop :=
  Forall2 (holds c (s_files st)) (groups0 ++ map ch_items chs) (infos0 ++ map info_of chs) /\
  (s_saved st = s_saved st0 \/ exists j, s_saved st = Saved (infos0 ++ map info_of (firstn j chs))) /\
  (forall k, k < first' -> s_files st k = s_files st0 k).

Lemma final_index k ch : nth_error final k = Some ch -> ch_index ch = first' + k.
Proof. intros H. destruct (F1 k ch H) as [E _]. exact E. Qed.

Lemma below_index chs ch rest : final = chs ++ ch :: rest -> Forall (fun i => f_index i < ch_index ch) (infos0 ++ map info_of chs).
Proof.
  intros E. assert (Hc : ch_index ch = first' + length chs).
  { apply final_index. rewrite E, nth_error_app2, Nat.sub_diag by lia. reflexivity. }
  rewrite Hc. apply Forall_app. split.
  - eapply Forall_impl; [|exact I0]. cbn. intros i Hi. lia.
  - apply Forall_map, Forall_forall. intros ch' Hin. cbn [info_of f_index]. apply In_nth_error in Hin. destruct Hin as [k Hk].
    assert (Hlt : k < length chs) by (apply nth_error_Some; congruence).
    rewrite (final_index k ch'); [lia|]. rewrite E, nth_error_app1 by exact Hlt. exact Hk.
Qed.

Lemma mid_put st chs ch rest : final = chs ++ ch :: rest -> mid st chs -> mid (apply_event st (Put (ch_index ch) (ch_file ch))) (chs ++ [ch]).
Proof.
  intros E (A & B & C). pose proof (below_index chs ch rest E) as Hb. 
  assert (Hk : nth_error final (length chs) = Some ch) by (rewrite E, nth_error_app2, Nat.sub_diag by lia; reflexivity).
  assert (Hc : ch_index ch = first' + length chs) by (apply final_index; exact Hk).
  split; [|split].
  - cbn [apply_event s_files]. rewrite !map_app, !app_assoc. apply Forall2_app.
    + assert (X : Forall2 (fun g i => holds c (s_files st) g i /\ f_index i < ch_index ch) (groups0 ++ map ch_items chs) (infos0 ++ map info_of chs)).
      { apply Forall2_right; assumption. }
      eapply Forall2_weaken; [|exact X]. cbn beta. intros g i [Hh Hlt]. eapply holds_ext; [|exact Hh]. cbn beta.
      replace (f_index i =? ch_index ch) with false by (symmetry; apply Nat.eqb_neq; lia). reflexivity.
    + cbn [map]. constructor; [|constructor]. split.
      * rewrite Forall_forall in F2. apply F2. rewrite E. apply in_or_app. right. left. reflexivity.
      * exists (ch_file ch). cbn [info_of f_index f_bytes f_size f_dim]. rewrite Nat.eqb_refl. split; [reflexivity|].
        pose proof (F1 _ _ Hk) as Hch. rewrite <- Hc in Hch. destruct ch; exact Hch.
  - cbn [apply_event s_saved]. destruct B as [B|[j B]]; [left; exact B|right]. exists (Nat.min j (length chs)).
    rewrite B. f_equal. f_equal. f_equal. rewrite firstn_app. replace (Nat.min j (length chs) - length chs) with 0 by lia. cbn [firstn]. rewrite app_nil_r.
    destruct (Nat.le_ge_cases j (length chs)); [rewrite Nat.min_l by lia; reflexivity|].
    rewrite Nat.min_r by lia. rewrite firstn_all, firstn_all2 by lia. reflexivity.
  - cbn [apply_event s_files]. intros k Hlt. replace (k =? ch_index ch) with false by (symmetry; apply Nat.eqb_neq; lia). apply C. exact Hlt.
Qed.

Lemma mid_save st chs : mid st chs -> mid (apply_event st (Save (infos0 ++ map info_of chs))) chs.
Proof.
  intros (A & B & C). split; [exact A|]. split; [|exact C]. right. exists (length chs). cbn. rewrite firstn_all. reflexivity.
Qed.

Lemma trace_extends chs es chs' : trace infos0 chs es chs' -> exists l, chs' = chs ++ l.
Proof. induction 1 as [chs|chs ch es chs' _ [l ->]|chs es chs' _ IH]; [exists []; rewrite app_nil_r; reflexivity|exists (ch :: l); rewrite <- app_assoc; reflexivity|exact IH]. Qed.

Lemma mid_prefix n : forall es chs st, trace infos0 chs es final -> mid st chs ->
  exists chs', mid (apply_all st (firstn n es)) chs' /\ trace infos0 chs' (skipn n es) final.
Proof.
  induction n as [|n IH]; intros es chs st T M.
  - exists chs. split; [exact M|exact T].
  - inversion T as [? E1 E2 E3|? ch es' ? T' E1 E2 E3|? es' ? T' E1 E2 E3]; subst.
    + exists final. split; [exact M|exact T].
    + destruct (trace_extends _ _ _ T') as [l El]. rewrite <- app_assoc in El.
      destruct (IH es' (chs ++ [ch]) (apply_event st (Put (ch_index ch) (ch_file ch))) T' (mid_put st chs ch l El M)) as (chs' & M' & T'').
      exists chs'. split; [exact M'|exact T''].
    + destruct (IH es' chs (apply_event st (Save (infos0 ++ map info_of chs))) T' (mid_save st chs M)) as (chs' & M' & T'').
      exists chs'. split; [exact M'|exact T''].
Qed.

Lemma mid_start : mid st0 [].
Proof. split; [cbn [map]; rewrite !app_nil_r; exact H0|]. split; [left; reflexivity|reflexivity]. Qed.

Lemma mid_whole st chs : trace infos0 chs [] final -> mid st chs -> mid st final.
Proof. intros T M. inversion T; subst. exact M. Qed.

Lemma saved_prefix st chs l j : mid st chs -> final = chs ++ l ->
  exists rest, xs = concat (groups0 ++ map ch_items (firstn j chs)) ++ rest /\
    Forall2 (holds c (s_files st)) (groups0 ++ map ch_items (firstn j chs)) (infos0 ++ map info_of (firstn j chs)).
Proof.
  intros (A & _) E. exists (concat (map ch_items (skipn j chs ++ l))). split.
  - rewrite <- F3, <- concat_app, <- app_assoc, <- map_app. do 2 f_equal. rewrite E, app_assoc, firstn_skipn. reflexivity.
  - rewrite <- (firstn_skipn j chs), !map_app, !app_assoc in A. apply Forall2_app_inv_l in A. destruct A as (l1 & l2 & A1 & A2 & E').
    assert (L : length l1 = length (infos0 ++ map info_of (firstn j chs))).
    { apply Forall2_same_length in A1. rewrite <- A1, !app_length, !map_length. pose proof (Forall2_same_length _ _ _ H0). lia. }
    assert (l1 = infos0 ++ map info_of (firstn j chs)).
    { eapply app_same_length; [exact (eq_sym E')|exact L]. }
    subst l1. exact A1.
Qed.

Lemma new_ranges chs l : final = chs ++ l -> map f_index (map info_of chs) = seq first' (length chs).
Proof.
  intros E. rewrite map_map. cbn [info_of f_index].
  assert (G : forall n chs', chs = firstn n chs ++ chs' -> map ch_index (firstn n chs) = seq first' (length (firstn n chs))).
  { induction n as [|n IH]; intros chs' E'; [reflexivity|]. destruct (nth_error chs n) as [ch|] eqn:En.
    - assert (Es : firstn (S n) chs = firstn n chs ++ [ch]).
      { clear - En. revert chs En. induction n as [|n IH]; intros [|x chs] En; cbn in *; try discriminate; [congruence|]. f_equal. rewrite <- IH by exact En. reflexivity. }
      assert (Hlen : length (firstn n chs) = n) by (rewrite firstn_length_le; [reflexivity|]; apply Nat.lt_le_incl, nth_error_Some; congruence).
      rewrite Es, map_app, app_length, Hlen. cbn [map length]. rewrite (IH (skipn n chs)) by (rewrite firstn_skipn; reflexivity). rewrite Hlen.
      rewrite seq_app. cbn [seq]. f_equal. f_equal. apply final_index. rewrite E, nth_error_app1; [exact En|]. apply nth_error_Some. congruence.
    - assert (L : length chs <= n) by (apply nth_error_None; exact En). rewrite !firstn_all2 by lia.
      specialize (IH []). rewrite !firstn_all2 in IH by lia. apply IH. rewrite app_nil_r. reflexivity. }
  specialize (G (length chs) []). rewrite firstn_all, app_nil_r in G. apply G. reflexivity.
Qed.

Lemma all_distinct chs l : final = chs ++ l ->
  NoDup (map f_index (infos0 ++ map info_of chs)) /\
  Forall (fun i => first <= f_index i < first' + length chs) (infos0 ++ map info_of chs).
Proof.
  intros E. pose proof (new_ranges chs l E) as R. split.
  - rewrite map_app, R. 
    assert (G : forall a b : list nat, NoDup a -> NoDup b -> (forall x, In x a -> ~ In x b) -> NoDup (a ++ b)).
    { clear. induction a as [|x a IH]; intros b Ha Hb Hd; [exact Hb|]. cbn. inversion Ha; subst. constructor.
      - intros Hin. apply in_app_or in Hin. destruct Hin; [contradiction|]. apply (Hd x); [left; reflexivity|assumption].
      - apply IH; try assumption. intros y Hy. apply Hd. right. exact Hy. }
    apply G; [exact N0|apply seq_NoDup|]. intros x Hin Hs. apply in_map_iff in Hin. destruct Hin as (i & <- & Hi). apply in_seq in Hs.
    rewrite Forall_forall in I0. specialize (I0 i Hi). lia.
  - apply Forall_app. split; [eapply Forall_impl; [|exact I0]; cbn; intros; lia|].
    apply Forall_forall. intros i Hi. assert (Hin : In (f_index i) (map f_index (map info_of chs))) by (apply in_map; exact Hi).
    rewrite R in Hin. apply in_seq in Hin. unfold first' in *. lia.
Qed.

Lemma done_grows chs : Forall (fun ch => 1 <= ch_size ch) chs -> done_till infos0 + length chs <= done_till (infos0 ++ map info_of chs).
Proof.
  unfold done_till. rewrite map_app, sum_app. intros H. apply Nat.add_le_mono_l. induction H as [|ch l H _ IH]; cbn; [lia|]. lia.
Qed.

Lemma final_size : Forall (fun ch => 1 <= ch_size ch) final.
Proof.
  apply Forall_forall. intros ch Hin. pose proof Hin as Hin'. apply In_nth_error in Hin. destruct Hin as [k Hk]. destruct (F1 k ch Hk) as (_ & _ & _ & E & _). rewrite E.
  rewrite Forall_forall in F2. specialize (F2 ch Hin'). destruct (ch_items ch); [congruence|cbn; lia].
Qed.

Lemma mid_store_ok st chs l : store_ok st0 -> mid st chs -> final = chs ++ l -> store_ok st.
Proof.
  intros Hok M E. pose proof M as (A & B & C). unfold store_ok. destruct B as [B|[j B]].
  - rewrite B. unfold store_ok, load in *. destruct (s_saved st0) as [| |infos] eqn:Es; [exact I|exact I|]. injection load0 as ->.
    destruct Hok as (groups & rest & Ex & Hh & Hr & Hn). exists groups, rest. split; [exact Ex|]. split; [|split; assumption].
    assert (X : Forall2 (fun g i => holds c (s_files st0) g i /\ f_index i < first') groups infos0).
    { apply Forall2_right; [exact Hh|]. eapply Forall_impl; [|exact I0]. cbn beta. tauto. }
    eapply Forall2_weaken; [|exact X]. cbn beta. intros g i [Hg Hlt]. eapply holds_ext; [|exact Hg]. apply C. exact Hlt.
  - rewrite B. destruct (saved_prefix st chs l j M E) as (rest & Ex & Hh).
    assert (E' : final = firstn j chs ++ (skipn j chs ++ l)) by (rewrite app_assoc, firstn_skipn; exact E).
    destruct (all_distinct _ _ E') as [Hn Hr]. exists (groups0 ++ map ch_items (firstn j chs)), rest. split; [exact Ex|]. split; [exact Hh|].
    split; [|exact Hn]. eapply Forall_impl; [|exact Hr]. cbn beta. intros i [Hi1 Hi2]. split; [exact Hi1|].
    assert (Hsz : Forall (fun ch => 1 <= ch_size ch) (firstn j chs)).
    { pose proof final_size as Fs. rewrite E' in Fs. apply Forall_app in Fs. tauto. }
    pose proof (done_grows _ Hsz). unfold first' in Hi2. lia.
Qed.

(** A torn upload of the next event. *)
Lemma mid_torn st chs e es b : store_ok st0 -> mid st chs -> trace infos0 chs (e :: es) final -> store_ok (torn st e b).
Proof.
  intros Hok M T. destruct e as [k file|infos]; [|exact I]. pose proof T as T0.
  inversion T as [|? ch ? ? T' E1 E2 E3|]; subst. destruct (trace_extends _ _ _ T0) as [l El]. destruct (trace_extends _ _ _ T') as [l' El']. rewrite <- app_assoc in El'.
  pose proof (mid_put st chs ch l' El' M) as M'.
  assert (Hs : forall k, k <> ch_index ch -> s_files (torn st (Put (ch_index ch) (ch_file ch)) b) k = s_files st k).
  { intros k Hk. cbn. replace (k =? ch_index ch) with false by (symmetry; apply Nat.eqb_neq; exact Hk). reflexivity. }
  pose proof (mid_store_ok st chs _ Hok M El) as O. unfold store_ok in *. cbn [torn s_saved].
  destruct (s_saved st) as [| |infos] eqn:Es; [exact I|exact I|]. destruct O as (groups & rest & Ex & Hh & Hr & Hn).
  exists groups, rest. split; [exact Ex|]. split; [|split; assumption].
  assert (Hlt : Forall (fun i => f_index i < ch_index ch) infos).
  { pose proof (below_index chs ch l' El') as Hb. destruct M as (_ & B & _). rewrite Es in B. destruct B as [B|[j B]].
    - unfold load in load0. rewrite <- B in load0. injection load0 as ->. apply Forall_app in Hb. tauto.
    - injection B as ->. apply Forall_app in Hb. destruct Hb as [Hb1 Hb2]. apply Forall_app. split; [exact Hb1|].
      rewrite <- (firstn_skipn j chs), map_app in Hb2. apply Forall_app in Hb2. tauto. }
  assert (X : Forall2 (fun g i => holds c (s_files st) g i /\ f_index i < ch_index ch) groups infos).
  { apply Forall2_right; assumption. }
  eapply Forall2_weaken; [|exact X]. cbn beta. intros g i [Hg Hl]. eapply holds_ext; [|exact Hg]. apply Hs. lia.
Qed.
End OneRun.

(** One queue holds all events in order. *)
Lemma one_queue es : queue 1 0 es = map snd es.
Proof. unfold queue. f_equal. induction es as [|e es IH]; [reflexivity|]. cbn [filter]. rewrite Nat.mod_1_r, Nat.eqb_refl, IH. reflexivity. Qed.

Lemma store_facts st infos : store_ok st -> load st = Ok infos ->
  exists groups rest, xs = concat groups ++ rest /\ Forall2 (holds c (s_files st)) groups infos /\
    Forall (fun i => first <= f_index i < first + done_till infos) infos /\ NoDup (map f_index infos).
Proof.
  unfold store_ok, load. destruct (s_saved st) as [| |i]; intros H E; [|discriminate E|]; injection E as <-.
  - exists [], xs. repeat split; constructor.
  - exact H.
Qed.

Lemma run_facts st infos : store_ok st -> load st = Ok infos ->
  exists groups es chs, run c first (map Some xs) st = Ok (Outcome es (infos ++ map info_of chs) (has_format (skipn (done_till infos) (map Some xs)))) /\
    Forall2 (holds c (s_files st)) groups infos /\
    Forall (fun i => first <= f_index i < first + done_till infos) infos /\ NoDup (map f_index infos) /\
    trace infos [] (map snd es) chs /\ chunks_of c (first + done_till infos) chs /\
    Forall (fun ch => ch_items ch <> []) chs /\ concat (groups ++ map ch_items chs) = xs /\ done_till infos = length (concat groups).
Proof.
  intros Ho Hl. destruct (store_facts st infos Ho Hl) as (groups & rest & Ex & Hh & Hr & Hn).
  destruct (run_trace c first xs infos st Hl xs_ok) as (es & chs & E & T & Hof & Hc & Hf).
  exists groups, es, chs. split; [exact E|]. split; [exact Hh|]. split; [exact Hr|]. split; [exact Hn|]. split; [exact T|]. split; [exact Hof|]. split; [exact Hf|].
  pose proof (holds_done _ _ _ Hh) as Hd. split; [|exact Hd]. rewrite concat_app, Hc, Hd. rewrite Ex at 1.
  rewrite skipn_app, skipn_all, Nat.sub_diag. cbn. symmetry. exact Ex.
Qed.

Lemma history_ok st : history 1 c first (map Some xs) st -> store_ok st.
Proof.
  induction 1 as [files|st r st' _ IH Hr Hi]; [exact I|].
  destruct (load st) as [infos|e] eqn:El; [|unfold run in Hr; rewrite El in Hr; discriminate Hr].
  destruct (run_facts st infos IH El) as (groups & es & chs & E & Hh & Hi0 & Hn & T & Hof & Hf & Hx & _).
  rewrite E in Hr. injection Hr as <-. cbn [r_events] in Hi.
  assert (P : forall n, exists chs', mid st infos groups (apply_all st (firstn n (map snd es))) chs' /\ trace infos chs' (skipn n (map snd es)) chs).
  { intros n. apply (mid_prefix st infos groups chs Hi0 Hof Hf Hx n (map snd es) [] st T). apply mid_start. exact Hh. }
  inversion Hi as [n E'|n q e b Hq Hnth E']; subst.
  - unfold crash. cbn [seq fold_left]. rewrite one_queue. destruct (P (n 0)) as (chs' & M & T'). destruct (trace_extends _ _ _ _ T') as [l El'].
    exact (mid_store_ok st infos groups chs El Hh Hi0 Hn Hof Hf Hx _ chs' l IH M El').
  - assert (q = 0) by lia. subst q. rewrite one_queue in Hnth. unfold crash. cbn [seq fold_left]. rewrite one_queue.
    destruct (P (n 0)) as (chs' & M & T').
    assert (Esk : skipn (n 0) (map snd es) = e :: skipn (S (n 0)) (map snd es)).
    { clear - Hnth. revert Hnth. generalize (n 0) (map snd es). induction n0 as [|k IH]; intros [|x l] H; cbn in *; try discriminate; [congruence|]. apply IH. exact H. }
    rewrite Esk in T'. exact (mid_torn st infos groups chs El Hh Hi0 Hn Hof Hf Hx _ chs' e _ b IH M T').
Qed.

Theorem resume_ok st : history 1 c first (map Some xs) st -> s_saved st <> Torn ->
  exists r, run c first (map Some xs) st = Ok r /\ dataset_of c (s_files (completed st r)) (r_index r) xs /\
    (forall k, k < first -> s_files (completed st r) k = s_files st k) /\
    (forall infos i, s_saved st = Saved infos -> In i infos -> In i (r_index r) /\ s_files (completed st r) (f_index i) = s_files st (f_index i)) /\
    (forall infos, load st = Ok infos -> done_till infos < length xs -> r_format r = true).
Proof.
  intros Hh Hnt. pose proof (history_ok st Hh) as Ho.
  destruct (load st) as [infos|e] eqn:El; [|exfalso; unfold load in El; destruct (s_saved st); congruence].
  destruct (run_facts st infos Ho El) as (groups & es & chs & E & Hg & Hi0 & Hn & T & Hof & Hf & Hx & Hd).
  eexists. split; [exact E|]. unfold completed. cbn [r_events r_index r_format].
  destruct (mid_prefix st infos groups chs Hi0 Hof Hf Hx (length (map snd es)) (map snd es) [] st T (mid_start st infos groups Hg)) as (chs' & M & T').
  rewrite firstn_all in M. rewrite skipn_all in T'. inversion T' as [? E1 E2 E3| |]; subst chs'. rewrite E3 in M.
  destruct M as (A & _ & C). split; [|split; [|split]].
  - exists (groups ++ map ch_items chs). split; [exact Hx|]. split; [exact A|].
    eapply all_distinct; try eassumption. symmetry. apply app_nil_r.
  - intros k Hk. apply C. lia.
  - intros infos' i Es Hin. unfold load in El. rewrite Es in El. injection El as ->. split; [apply in_or_app; left; exact Hin|].
    apply C. rewrite Forall_forall in Hi0. specialize (Hi0 i Hin). lia.
  - intros infos' E' Hlt. injection E' as <-. rewrite skipn_map. destruct (skipn (done_till infos) xs) as [|x l] eqn:Es; [|reflexivity].
    pose proof (f_equal (@length item) Es) as L. rewrite skipn_length in L. cbn in L. lia.
Qed.
End Store.
