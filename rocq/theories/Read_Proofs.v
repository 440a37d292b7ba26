From Verif Require Import Base Assign_Model Assign_Spec Iter_Model Iter_Spec Iter_Proofs Prefetch_Model Prefetch_Spec Prefetch_Proofs Prefetch_Proofs2 Read_Model Read_Spec.
Local Ltac Zify.zify_post_hook ::= idtac.

(** * The events of an epoch *)

Definition closing (closes : bool) (c : nat) : list ev := if closes then [EClose c] else [].

(** What is left to do while chunk [c] is being read, [ps] being the chunks that follow, with their
    samples. *)
Fixpoint script (closes : bool) (c : nat) (ps : list (nat * list nat)) : list ev :=
  match ps with
  | [] => [EBack c; EStop; EClose c]
  | (c', is) :: ps' =>
      match is with
      | [] => script closes c ps'
      | i :: is' => ELoad c' i :: EBack c :: closing closes c ++ map (ELoad c') is' ++ script closes c' ps'
      end
  end.

Definition during (c : nat) : rdstate := {| rd_thread := true; rd_queued := true; rd_last := Some c |}.

(** Requests after the first one: no download list, last flag on the final one only. *)
Definition later (xs : list request) : Prop :=
  Forall (fun x => rq_download x = None) xs /\ map rq_last xs = last_flags (length xs).

Lemma later_cons x xs : later (x :: xs) -> rq_download x = None /\ rq_last x = (length xs =? 0) /\ later xs.
Proof.
  intros [F L]. inversion F; subst. cbn [map length last_flags] in L. split; [assumption|]. destruct xs as [|y xs].
  - cbn in L. injection L as L. split; [exact L|]. split; [constructor|reflexivity].
  - cbn [length repeat app] in L. injection L as L1 L2. split; [exact L1|]. split; [assumption|]. cbn [length last_flags]. exact L2.
Qed.

Definition flat (ps : list (nat * list nat)) : list sample := flat_map (fun p => map (fun i => (fst p, i)) (snd p)) ps.

Lemma read_same closes c i dl : read true closes (during c) (Req i c dl false) = Ok (during c, [ELoad c i]).
Proof. unfold read, during. cbn. rewrite Nat.eqb_refl. reflexivity. Qed.

Lemma read_next closes c c' i dl : c' <> c ->
  read true closes (during c) (Req i c' dl false) = Ok (during c', ELoad c' i :: EBack c :: closing closes c).
Proof.
  intros H. unfold read, during. cbn. apply Nat.neq_sym in H. apply Nat.eqb_neq in H. rewrite H. cbn. destruct closes; reflexivity.
Qed.

Lemma read_last closes c c' i dl : read true closes (during c) (Req i c' dl true) =
  Ok (rd_init, ELoad c' i :: (if c =? c' then [] else EBack c :: closing closes c) ++ [EBack c'; EStop; EClose c']).
Proof. unfold read, during. cbn. destruct (Nat.eqb_spec c c') as [->|H]; cbn; [reflexivity|]. destruct closes; reflexivity. Qed.

(** The rest of the samples of the current chunk, then the other chunks. *)
Lemma reads_script closes : forall xs c is ps, later xs -> map req_sample xs = map (fun i => (c, i)) is ++ flat ps ->
  NoDup (c :: map fst ps) -> Forall (fun p => snd p <> []) ps -> xs <> [] ->
  reads true closes (during c) xs = Ok (rd_init, map (ELoad c) is ++ script closes c ps).
Proof.
  induction xs as [|x xs IH]; intros c is ps HL HS HN HF Hx; [congruence|]. destruct (later_cons _ _ HL) as (D & L & HL').
  destruct x as [i ch dl la]. cbn in D, L. subst dl. cbn [map] in HS. unfold req_sample at 1 in HS. cbn [rq_chunk rq_index] in HS.
  destruct is as [|i0 is].
  - destruct ps as [|[c' is'] ps]; [discriminate|]. inversion HF as [|? ? Hi HF']; subst. cbn [snd] in Hi. destruct is' as [|i1 is']; [congruence|].
    unfold flat in HS. cbn [map app flat_map fst snd] in HS. fold (flat ps) in HS. injection HS as E1 E2 HS. subst.
    cbn [map fst] in HN. assert (Hne : c' <> c) by (intros ->; inversion HN; subst; cbn in *; tauto).
    assert (HN' : NoDup (c' :: map fst ps)) by (inversion HN; assumption).
    cbn [reads script map app].
    destruct xs as [|y xs].
    + cbn [length Nat.eqb]. rewrite read_last. apply Nat.neq_sym, Nat.eqb_neq in Hne. rewrite Hne. cbn [bind reads].
      cbn [map app flat_map] in HS. symmetry in HS. apply app_eq_nil in HS. destruct HS as [HS1 HS2]. apply map_eq_nil in HS1. subst.
      destruct ps as [|[c'' [|]] ps]; [|inversion HF'; cbn in *; congruence|discriminate]. cbn. rewrite !app_nil_r. reflexivity.
    + change (length (y :: xs) =? 0) with false. rewrite (read_next closes c c' i1 None Hne). cbn [bind].
      rewrite (IH c' is' ps HL' HS HN' HF' ltac:(discriminate)). cbn [bind app]. reflexivity.
  - cbn [map app] in HS. injection HS as E1 E2 HS. subst. cbn [reads map app]. destruct xs as [|y xs].
    + cbn [length Nat.eqb]. rewrite read_last, Nat.eqb_refl. cbn [bind reads app]. cbn [map] in HS. symmetry in HS.
      apply app_eq_nil in HS. destruct HS as [HS1 HS2]. apply map_eq_nil in HS1. subst.
      destruct ps as [|[c'' [|]] ps]; [|inversion HF; cbn in *; congruence|discriminate]. cbn. reflexivity.
    + change (length (y :: xs) =? 0) with false. rewrite read_same. cbn [bind].
      rewrite (IH c is ps HL' HS HN HF ltac:(discriminate)). reflexivity.
Qed.

(** An epoch of a remote dataset. *)
Definition epoch_script (closes : bool) (ps : list (nat * list nat)) : list ev :=
  match ps with
  | (c, is) :: ps' => EStart :: EReq (map fst ps) :: map (ELoad c) is ++ script closes c ps'
  | [] => []
  end.

Lemma reads_epoch closes xs ps : map req_sample xs = flat ps -> map rq_last xs = last_flags (length xs) ->
  map rq_download xs = first_download (map fst ps) (length xs) -> NoDup (map fst ps) -> Forall (fun p => snd p <> []) ps ->
  reads true closes rd_init xs = Ok (rd_init, epoch_script closes ps).
Proof.
  intros HS HL HD HN HF. destruct ps as [|[c is] ps].
  - destruct xs; [reflexivity|discriminate].
  - inversion HF as [|? ? Hi HF']; subst. cbn [snd] in Hi. destruct is as [|i is]; [congruence|].
    unfold flat in HS. cbn [flat_map fst snd map app] in HS. fold (flat ps) in HS.
    destruct xs as [|x xs]; [discriminate|]. destruct x as [xi xc xd xl]. cbn [map length last_flags first_download rq_download] in HS, HD, HL.
    unfold req_sample at 1 in HS. cbn [rq_chunk rq_index] in HS. injection HS as -> -> HS. injection HD as -> HD.
    assert (HF2 : Forall (fun x => rq_download x = None) xs).
    { apply Forall_forall. intros y Hy. apply (in_map rq_download) in Hy. rewrite HD in Hy. apply repeat_spec in Hy. exact Hy. }
    unfold epoch_script. cbn [reads map fst]. destruct xs as [|y xs].
    + cbn in HL. injection HL as ->. cbn [map] in HS. symmetry in HS. apply app_eq_nil in HS. destruct HS as [HS1 HS2]. apply map_eq_nil in HS1. subst.
      destruct ps as [|[c'' [|]] ps]; [|inversion HF'; cbn in *; congruence|discriminate].
      unfold read. cbn. rewrite Nat.eqb_refl. cbn. reflexivity.
    + cbn [length repeat app rq_last] in HL. injection HL as -> HL.
      assert (E : read true closes rd_init (Req i c (Some (c :: map fst ps)) false) = Ok (during c, [EStart; EReq (c :: map fst ps); ELoad c i])).
      { unfold read. cbn. rewrite Nat.eqb_refl. reflexivity. }
      rewrite E. cbn [bind]. assert (HL' : later (y :: xs)) by (split; assumption).
      rewrite (reads_script closes (y :: xs) c is ps HL' HS HN HF' ltac:(discriminate)). reflexivity.
Qed.

(** * What the script says *)

Lemma flat_map_nil {A B} (f : A -> list B) l : (forall x, In x l -> f x = []) -> flat_map f l = [].
Proof. induction l as [|a l IH]; intros H; [reflexivity|]. cbn. rewrite H by (left; reflexivity). apply IH. intros x Hx. apply H. right. exact Hx. Qed.

Lemma loaded_script closes : forall ps c, loaded (script closes c ps) = flat ps.
Proof.
  induction ps as [|[c' [|i is]] ps IH]; intros c; [reflexivity|apply IH|]. cbn [script]. unfold loaded in *. cbn [flat_map app flat fst snd map].
  f_equal. rewrite !flat_map_app, IH. destruct closes; cbn [closing flat_map app]; f_equal;
    (induction is as [|j is IHi]; [reflexivity|cbn; f_equal; exact IHi]).
Qed.
Lemma loaded_loads c is : loaded (map (ELoad c) is) = map (fun i => (c, i)) is.
Proof. unfold loaded. induction is as [|i is IH]; [reflexivity|cbn; f_equal; exact IH]. Qed.
Lemma loaded_epoch closes ps : loaded (epoch_script closes ps) = flat ps.
Proof.
  destruct ps as [|[c is] ps]; [reflexivity|]. unfold epoch_script. unfold loaded. cbn [flat_map app]. rewrite flat_map_app.
  fold (loaded (map (ELoad c) is)). fold (loaded (script closes c ps)). rewrite loaded_loads, loaded_script. reflexivity.
Qed.

Lemma back_script closes : forall ps c, Forall (fun p => snd p <> []) ps -> given_back (script closes c ps) = c :: map fst ps.
Proof.
  induction ps as [|[c' is] ps IH]; intros c F; [reflexivity|]. inversion F as [|? ? Hi F']; subst. cbn [snd] in Hi. destruct is as [|i is]; [congruence|].
  cbn [script map fst]. unfold given_back in *. cbn [flat_map app]. f_equal. rewrite !flat_map_app, (IH _ F').
  replace (flat_map _ (closing closes c)) with (@nil nat) by (destruct closes; reflexivity).
  rewrite flat_map_nil; [reflexivity|]. intros x Hx. apply in_map_iff in Hx. destruct Hx as (j & <- & _). reflexivity.
Qed.
Lemma back_epoch closes ps : Forall (fun p => snd p <> []) ps -> given_back (epoch_script closes ps) = map fst ps.
Proof.
  destruct ps as [|[c is] ps]; [reflexivity|]. intros F. inversion F; subst. unfold epoch_script, given_back. cbn [flat_map app]. rewrite flat_map_app.
  fold (given_back (script closes c ps)). rewrite back_script by assumption.
  rewrite flat_map_nil; [reflexivity|]. intros x Hx. apply in_map_iff in Hx. destruct Hx as (j & <- & _). reflexivity.
Qed.

Lemma asked_script closes : forall ps c, asked (script closes c ps) = [].
Proof.
  induction ps as [|[c' [|i is]] ps IH]; intros c; [reflexivity|apply IH|]. cbn [script]. unfold asked in *. cbn [flat_map app].
  rewrite !flat_map_app, IH, app_nil_r. replace (flat_map _ (closing closes c)) with (@nil nat) by (destruct closes; reflexivity).
  apply flat_map_nil. intros x Hx. apply in_map_iff in Hx. destruct Hx as (j & <- & _). reflexivity.
Qed.
Lemma asked_epoch closes ps : asked (epoch_script closes ps) = map fst ps.
Proof.
  destruct ps as [|[c is] ps]; [reflexivity|]. unfold epoch_script, asked. cbn [flat_map]. rewrite flat_map_app. fold (asked (script closes c ps)).
  rewrite asked_script, flat_map_nil; [rewrite !app_nil_r; reflexivity|]. intros x Hx. apply in_map_iff in Hx. destruct Hx as (j & <- & _). reflexivity.
Qed.

(** Checking the events from left to right: [L] the chunks loaded so far, [B] those given back. *)
Fixpoint ready (cs L B : list nat) (es : list ev) : Prop :=
  match es with
  | [] => True
  | e :: r =>
      match e with
      | ELoad c _ => ~ In c B /\ In c cs /\ (In c L \/ exists cs1 cs2, cs = cs1 ++ c :: cs2 /\ incl cs1 L /\ length cs1 <= S (length B)) /\ ready cs (c :: L) B r
      | EBack c => In c L /\ ~ In c B /\ ready cs L (B ++ [c]) r
      | EStop => Forall (fun e => match e with EClose _ => True | _ => False end) r
      | EReq _ => False
      | _ => ready cs L B r
      end
  end.

Lemma ready_loads cs c B is r : forall L, In c L -> ~ In c B -> In c cs -> (forall L', incl L L' -> ready cs L' B r) -> ready cs L B (map (ELoad c) is ++ r).
Proof.
  induction is as [|i is IH]; intros L H1 H2 H3 H4; [apply H4, incl_refl|]. cbn [map app ready]. split; [exact H2|]. split; [exact H3|]. split; [auto|].
  apply IH; [left; reflexivity|exact H2|exact H3|]. intros L' HL. apply H4. intros x Hx. apply HL. right. exact Hx.
Qed.

Lemma ready_script closes cs : forall ps c B L, NoDup cs -> cs = B ++ c :: map fst ps -> incl (B ++ [c]) L -> Forall (fun p => snd p <> []) ps ->
  ready cs L B (script closes c ps).
Proof.
  induction ps as [|[c' is] ps IH]; intros c B L HN E HL F.
  - cbn [script ready]. split; [apply HL, in_or_app; right; left; reflexivity|]. split; [|repeat constructor].
    rewrite E in HN. cbn [map] in HN. intros H. apply (NoDup_remove_2 B [] c HN). rewrite app_nil_r. exact H.
  - inversion F as [|? ? Hi F']; subst. cbn [snd] in Hi. destruct is as [|i is]; [congruence|]. set (cs := B ++ c :: map fst ((c', i :: is) :: ps)) in *.
    assert (HcB : ~ In c B). { intros H. apply (NoDup_remove_2 _ _ _ HN). apply in_or_app. left. exact H. }
    assert (E' : cs = (B ++ [c]) ++ c' :: map fst ps) by (unfold cs; rewrite <- app_assoc; reflexivity).
    assert (Hc' : ~ In c' (B ++ [c])). { intros H. rewrite E' in HN. apply (NoDup_remove_2 _ _ _ HN). apply in_or_app. left. exact H. }
    assert (Hin : In c' cs) by (rewrite E'; apply in_or_app; right; left; reflexivity).
    cbn [script ready]. split; [|split; [|split; [|split; [|split]]]].
    + intros H. apply Hc', in_or_app. left. exact H.
    + exact Hin.
    + right. exists (B ++ [c]), (map fst ps). split; [exact E'|]. split; [exact HL|]. rewrite app_length. cbn. lia.
    + right. apply HL, in_or_app. right. left. reflexivity.
    + exact HcB.
    + assert (G : ready cs (c' :: L) (B ++ [c]) (map (ELoad c') is ++ script closes c' ps)).
      { apply ready_loads; [left; reflexivity|exact Hc'|exact Hin|]. intros L' HL'. apply IH; auto.
        intros x Hx. apply HL'. apply in_app_or in Hx. destruct Hx as [Hx|[<-|[]]]; [right; apply HL, Hx|left; reflexivity]. }
      destruct closes; cbn [closing app ready]; exact G.
Qed.

(** [ready] gives [loads_held]. *)
Lemma ready_split cs : forall es L B before c i after, ready cs L B es -> es = before ++ ELoad c i :: after -> In c cs /\ ~ In c (B ++ given_back before) /\ asked before = [].
Proof.
  induction es as [|e es IH]; intros L B before c i after HR E; [destruct before; discriminate|].
  destruct before as [|b before]; cbn [app] in E; injection E as -> E.
  - cbn [ready] in HR. destruct HR as (H1 & H2 & _). cbn. rewrite app_nil_r. auto.
  - destruct b; cbn [ready] in HR; cbn [given_back asked flat_map app].
    + eapply IH; eassumption.
    + destruct HR.
    + destruct HR as (_ & _ & _ & HR). eapply IH; eassumption.
    + destruct HR as (_ & _ & HR). specialize (IH _ _ _ _ _ _ HR E). rewrite <- app_assoc in IH. exact IH.
    + eapply IH; eassumption.
    + exfalso. rewrite E in HR. apply Forall_app in HR. destruct HR as [_ HR]. inversion HR; subst; assumption.
Qed.

Lemma epoch_held closes ps : NoDup (map fst ps) -> Forall (fun p => snd p <> []) ps -> loads_held (epoch_script closes ps).
Proof.
  intros HN F before c i after E. destruct ps as [|[c0 is] ps]; [destruct before; discriminate|]. unfold epoch_script in E.
  set (cs := map fst ((c0, is) :: ps)) in *. inversion F as [|? ? Hi F']; subst.
  destruct before as [|b1 before]; [discriminate|]. cbn [app] in E. injection E as <- E.
  destruct before as [|b2 before]; [discriminate|]. cbn [app] in E. injection E as <- E.
  assert (HR : ready cs [c0] [] (map (ELoad c0) is ++ script closes c0 ps)).
  { apply ready_loads; [left; reflexivity|auto|left; reflexivity|]. intros L' HL'. apply ready_script; auto. }
  destruct (ready_split _ _ _ _ _ _ _ _ HR E) as (H1 & H2 & H3). cbn [given_back asked flat_map app].
  fold (given_back before). fold (asked before). cbn [app] in H2. rewrite H3, app_nil_r.
  rewrite (proj1 (count_occ_not_In Nat.eq_dec _ _) H2). apply count_occ_In. exact H1.
Qed.
