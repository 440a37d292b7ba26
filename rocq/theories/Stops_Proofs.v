(** The processes of a worker: proofs. *)
From Verif Require Import Base Stops_Model.
From Coq Require Import Lia.
Local Ltac Zify.zify_post_hook ::= idtac.

Definition trues (q : list bool) : Prop := Forall (fun b => b = true) q.
(** Alive and not told to end; alive and told to end, or ended; ended. *)
Definition open (h : helper) : Prop := exists q, h = Some q /\ trues q.
Definition closing (h : helper) : Prop := h = None \/ exists q, h = Some (q ++ [false]) /\ trues q.
Definition over (h : helper) : Prop := h = None.

Lemma open_told h : open h -> open (told true h).
Proof. intros (q & -> & T). exists (q ++ [true]). split; [reflexivity|]. apply Forall_app. repeat constructor. exact T. Qed.
Lemma open_closing h : open h -> closing (told false h).
Proof. intros (q & -> & T). right. exists q. split; [reflexivity|exact T]. Qed.
Lemma Forall_upd {A} (P : A -> Prop) f : forall l i, (forall x, P x -> P (f x)) -> Forall P l -> Forall P (upd i f l).
Proof. intros l. induction l as [|x l IH]; intros [|i] Hf F; cbn [upd]; inversion F; subst; constructor; auto. Qed.
Lemma Forall_upd_nth {A} (P : A -> Prop) y : forall l i, P y -> Forall P l -> Forall P (upd i (fun _ => y) l).
Proof. intros l. induction l as [|x l IH]; intros [|i] Hy F; cbn [upd]; inversion F; subst; constructor; auto. Qed.
Lemma hand_over_open : forall files ups, Forall open ups -> Forall open (hand_over files ups).
Proof.
  unfold hand_over. induction files as [|i files IH]; intros ups F; cbn [fold_left]; [exact F|].
  apply IH. apply Forall_upd; [apply open_told|exact F].
Qed.
Lemma hand_over_length : forall files ups, length (hand_over files ups) = length ups.
Proof.
  unfold hand_over. induction files as [|i files IH]; intros ups; cbn [fold_left]; [reflexivity|]. rewrite IH. apply upd_length.
Qed.
Lemma map_open l : Forall open l -> Forall open (map (told true) l).
Proof. intros F. apply Forall_map. eapply Forall_impl; [|exact F]. apply open_told. Qed.
Lemma map_closing l : Forall open l -> Forall closing (map (told false) l).
Proof. intros F. apply Forall_map. eapply Forall_impl; [|exact F]. apply open_closing. Qed.
Lemma open_nth l i q : Forall open l -> nth_error l i = Some (Some q) -> trues q.
Proof. intros F E. rewrite Forall_forall in F. destruct (F _ (nth_error_In _ _ E)) as (q' & E' & T). congruence. Qed.
Lemma open_next l i b q : Forall open l -> nth_error l i = Some (Some (b :: q)) -> b = true /\ Forall open (upd i (fun _ => Some q) l).
Proof.
  intros F E. pose proof (open_nth _ _ _ F E) as T. inversion T; subst. split; [reflexivity|].
  apply Forall_upd_nth; [|exact F]. exists q. auto.
Qed.
Lemma closing_next l i b q : Forall closing l -> nth_error l i = Some (Some (b :: q)) ->
  if b then Forall closing (upd i (fun _ => Some q) l) else Forall closing (upd i (fun _ => None) l).
Proof.
  intros F E. pose proof F as F0. rewrite Forall_forall in F0. destruct (F0 _ (nth_error_In _ _ E)) as [H|(q' & H & T)]; [discriminate|].
  destruct q' as [|c q']; cbn [app] in H.
  - injection H as -> ->. apply Forall_upd_nth; [left; reflexivity|exact F].
  - injection H as -> ->. inversion T; subst. apply Forall_upd_nth; [|exact F]. right. exists q'. auto.
Qed.
Lemma over_upd l i y : Forall over l -> nth_error l i = Some (Some y) -> False.
Proof. intros F E. rewrite Forall_forall in F. specialize (F _ (nth_error_In _ _ E)). discriminate. Qed.
Lemma all_ended l : forallb ended l = true <-> Forall over l.
Proof.
  rewrite forallb_forall, Forall_forall. split; intros H x Hx; specialize (H x Hx).
  - destruct x; [discriminate|reflexivity].
  - unfold over in H. subst x. reflexivity.
Qed.
Lemma closing_step l : Forall closing l -> ~ Forall over l -> exists i b q, nth_error l i = Some (Some (b :: q)).
Proof.
  induction 1 as [|h l [->|(q & -> & T)] F IH]; intros N.
  - contradiction N. constructor.
  - destruct IH as (i & b & q & E); [intros C; apply N; constructor; [reflexivity|exact C]|]. exists (S i), b, q. exact E.
  - destruct q as [|c q]; [exists 0, false, []|exists 0, c, (q ++ [false])]; reflexivity.
Qed.

(** ** Interrupted or failed workers *)
Section W.
Context (work : nat -> res (list nat)) (last : res (list nat)).

Definition stuck_phase (p : phase) : Prop := p = Terminating true \/ p = Failed \/ p = Killed.
(** In the loop, and after leaving it early, nobody told the uploaders to end. *)
Definition Inv0 (s : wst) : Prop := s_phase s = Loop \/ stuck_phase (s_phase s) -> Forall open (s_up s).

Lemma step_up0 s a s' : Inv0 s -> step work last a s = Some s' -> Inv0 s' /\ length (s_up s') = length (s_up s) /\
  (s_up s <> [] -> stuck_phase (s_phase s) -> stuck_phase (s_phase s')).
Proof.
  intros HI E. unfold Inv0, stuck_phase in *. destruct a as [|i|i|i| |]; cbn [step] in E.
  - unfold main_step in E. destruct (s_phase s) as [| | |early| | |] eqn:Ep; try discriminate.
    + specialize (HI (or_introl eq_refl)). destruct (s_ready s) as [|[x|] r]; try discriminate.
      * destruct (work x) as [files|]; injection E as <-; cbn [s_phase s_up]; rewrite ?hand_over_length.
        -- split; [intros _; apply hand_over_open; exact HI|]. split; [reflexivity|]. intros _ [H|[H|H]]; discriminate.
        -- split; [intros _; exact HI|]. split; [reflexivity|]. intros _ [H|[H|H]]; discriminate.
      * destruct (S (s_nones s) =? length (s_down s)); [destruct last as [files|]|]; injection E as <-; cbn [s_phase s_up];
          rewrite ?map_length, ?hand_over_length; (split; [intros H; try exact HI; destruct H as [H|[H|[H|H]]]; discriminate|]);
          (split; [reflexivity|]); intros _ [H|[H|H]]; discriminate.
    + destruct (forallb ended (s_up s)); [|discriminate]. injection E as <-. cbn [s_phase s_up].
      split; [intros [H|[H|[H|H]]]; discriminate|]. split; [reflexivity|]. intros _ [H|[H|H]]; discriminate.
    + destruct (forallb ended (s_rem s)); [|discriminate]. injection E as <-. cbn [s_phase s_up].
      split; [intros [H|[H|[H|H]]]; discriminate|]. split; [reflexivity|]. intros _ [H|[H|H]]; discriminate.
    + destruct (forallb ended (s_up s)) eqn:Eu; [|discriminate]. cbn [andb] in E. destruct (_ && _); [|discriminate].
      injection E as <-. cbn [s_phase s_up]. split; [intros [H|[H|[H|H]]]; discriminate|]. split; [reflexivity|].
      intros Hne [H|[H|H]]; try discriminate. injection H as ->. exfalso. apply all_ended in Eu.
      specialize (HI (or_intror (or_introl eq_refl))). destruct (s_up s) as [|h l]; [congruence|].
      inversion Eu; subst. inversion HI as [|? ? (q & Hq & _) _]; subst. unfold over in *. congruence.
  - destruct (nth_error (s_down s) i) as [[[|x l]|]|]; try discriminate; injection E as <-; cbn [s_phase s_up]; auto.
  - destruct (nth_error (s_up s) i) as [[[|[] q]|]|] eqn:En; try discriminate; injection E as <-; cbn [s_phase s_up]; rewrite upd_length.
    + split; [|auto]. intros H. apply (open_next _ _ _ _ (HI H) En).
    + split; [|auto]. intros H. destruct (open_next _ _ _ _ (HI H) En). discriminate.
  - destruct (nth_error (s_rem s) i) as [[[|[] q]|]|]; try discriminate; injection E as <-; cbn [s_phase s_up]; auto.
  - injection E as <-. cbn [s_phase s_up]. auto.
  - destruct (s_phase s) eqn:Ep; try discriminate; injection E as <-; cbn [s_phase s_up];
    (split; [intros _; apply HI; auto|auto]).
Qed.

Lemma run_up0 : forall l s, Inv0 s -> Inv0 (run work last l s) /\ length (s_up (run work last l s)) = length (s_up s) /\
  (s_up s <> [] -> stuck_phase (s_phase s) -> stuck_phase (s_phase (run work last l s))).
Proof.
  unfold run. induction l as [|a l IH]; intros s HI; cbn [fold_left]; [auto|].
  destruct (step work last a s) as [s1|] eqn:E; [|apply IH; exact HI].
  destruct (step_up0 s a s1 HI E) as (I1 & L1 & S1). destruct (IH s1 I1) as (I2 & L2 & S2).
  split; [exact I2|]. split; [congruence|]. intros Hne Hs. apply S2; [|apply S1; assumption].
  intros C. rewrite C in L1. destruct (s_up s); [congruence|discriminate].
Qed.
Lemma started_up0 inputs u r : Inv0 (started inputs u r).
Proof.
  intros _. cbn [started s_up]. apply Forall_forall. intros h Hh. apply repeat_spec in Hh. subst h. exists []. split; [reflexivity|constructor].
Qed.

(** ** No deadlock *)
Definition live (d : option (list nat)) : bool := match d with Some _ => true | None => false end.
Definition nolive (l : list (option (list nat))) : nat := length (filter live l).
Definition nnone (l : list (option nat)) : nat := length (filter (fun x => match x with None => true | _ => false end) l).

Definition Inv1 (s : wst) : Prop :=
  s_nones s + nnone (s_ready s) + nolive (s_down s) = length (s_down s) /\
  (s_stop s = true -> s_up s = [] /\ s_rem s = []) /\
  match s_phase s with
  | Loop => s_nones s < length (s_down s) /\ Forall open (s_up s) /\ Forall open (s_rem s)
  | Uploading => s_nones s = length (s_down s) /\ Forall closing (s_up s) /\ Forall open (s_rem s)
  | Removing => s_nones s = length (s_down s) /\ Forall over (s_up s) /\ Forall closing (s_rem s)
  | Terminating false => s_nones s = length (s_down s) /\ Forall over (s_up s) /\ Forall over (s_rem s)
  | Terminating true => s_up s = [] /\ s_rem s = []
  | Ended => nolive (s_down s) = 0 /\ Forall over (s_up s) /\ Forall over (s_rem s)
  | Failed | Killed => False
  end.

Lemma nnone_app l x : nnone (l ++ [x]) = nnone l + match x with None => 1 | _ => 0 end.
Proof. unfold nnone. rewrite filter_app, app_length. destruct x; reflexivity. Qed.
Lemma nolive_keep : forall l i x y, nth_error l i = Some (Some x) -> nolive (upd i (fun _ => Some y) l) = nolive l.
Proof.
  unfold nolive. induction l as [|d l IH]; intros [|i] x y E; try discriminate; cbn [nth_error upd filter] in *.
  - injection E as ->. reflexivity.
  - specialize (IH i x y E). destruct (live d); cbn [length]; lia.
Qed.
Lemma nolive_end : forall l i x, nth_error l i = Some (Some x) -> S (nolive (upd i (fun _ => None) l)) = nolive l.
Proof.
  unfold nolive. induction l as [|d l IH]; intros [|i] x E; try discriminate; cbn [nth_error upd filter] in *.
  - injection E as ->. reflexivity.
  - specialize (IH i x E). destruct (live d); cbn [length]; lia.
Qed.
Lemma live_exists : forall l, nolive l <> 0 -> exists i x, nth_error l i = Some (Some x).
Proof.
  unfold nolive. induction l as [|d l IH]; intros H; cbn [filter] in H; [contradiction H; reflexivity|].
  destruct d as [x|]; [exists 0, x; reflexivity|]. destruct (IH H) as (i & x & E). exists (S i), x. exact E.
Qed.
Lemma none_live l : forallb (fun d : option (list nat) => match d with None => true | _ => false end) l = true <-> nolive l = 0.
Proof.
  unfold nolive. induction l as [|d l IH]; [split; reflexivity|]. destruct d as [x|]; cbn [forallb filter live length andb]; [split; discriminate|exact IH].
Qed.

Context (Hwork : forall i, exists files, work i = Ok files) (Hlast : exists files, last = Ok files).

Lemma step_inv1 s a s' : a <> Kill -> a <> Interrupt \/ (s_up s = [] /\ s_rem s = []) -> Inv1 s -> step work last a s = Some s' -> Inv1 s'.
Proof.
  intros Hk Ha (HC & HS & HP) E. unfold Inv1. destruct a as [|i|i|i| |]; cbn [step] in E.
  - unfold main_step in E. destruct (s_phase s) as [| | |early| | |] eqn:Ep; try discriminate.
    + destruct HP as (N & U & R). destruct (s_ready s) as [|[x|] r] eqn:Er; try discriminate.
      * destruct (Hwork x) as (files & Ew). rewrite Ew in E. injection E as <-. cbn [s_nones s_ready s_down s_stop s_up s_rem s_phase].
        split; [exact HC|]. split; [discriminate|]. destruct (s_stop s) eqn:Es.
        -- destruct (HS eq_refl) as [-> ->]. split; [|reflexivity]. assert (L : length (hand_over files []) = 0) by apply (hand_over_length files []).
           destruct (hand_over files []); [reflexivity|discriminate].
        -- split; [exact N|]. split; [apply hand_over_open; exact U|apply map_open; exact R].
      * change (nnone (None :: r)) with (S (nnone r)) in HC.
        assert (HS' : s_stop s = true -> map (told false) (hand_over match last with Ok f => f | Err _ => [] end (s_up s)) = [] /\ s_rem s = []).
        { intros Es. destruct (HS Es) as [-> ->]. split; [|reflexivity].
          assert (L : length (hand_over match last with Ok f => f | Err _ => [] end []) = 0) by apply hand_over_length.
          destruct (hand_over _ []); [reflexivity|discriminate]. }
        destruct (Nat.eqb_spec (S (s_nones s)) (length (s_down s))) as [En|En].
        -- destruct Hlast as (files & El). rewrite El in E, HS'. injection E as <-. cbn [s_nones s_ready s_down s_stop s_up s_rem s_phase].
           split; [lia|]. split; [exact HS'|]. split; [exact En|]. split; [apply map_closing, hand_over_open; exact U|exact R].
        -- injection E as <-. cbn [s_nones s_ready s_down s_stop s_up s_rem s_phase]. split; [lia|]. split; [exact HS|]. split; [lia|auto].
    + destruct HP as (N & U & R). destruct (forallb ended (s_up s)) eqn:Eu; [|discriminate]. injection E as <-. cbn [s_nones s_ready s_down s_stop s_up s_rem s_phase].
      split; [exact HC|]. split; [intros Es; destruct (HS Es) as [-> ->]; auto|]. split; [exact N|].
      split; [apply all_ended; exact Eu|apply map_closing; exact R].
    + destruct HP as (N & U & R). destruct (forallb ended (s_rem s)) eqn:Eu; [|discriminate]. injection E as <-. cbn [s_nones s_ready s_down s_stop s_up s_rem s_phase].
      split; [exact HC|]. split; [exact HS|]. split; [exact N|]. split; [exact U|apply all_ended; exact Eu].
    + destruct (forallb ended (s_up s)) eqn:Eu; [|discriminate]. destruct (forallb _ (s_down s)) eqn:Ed; [|discriminate].
      destruct (forallb ended (s_rem s)) eqn:Em; [|discriminate]. injection E as <-. cbn [s_nones s_ready s_down s_stop s_up s_rem s_phase].
      split; [exact HC|]. split; [exact HS|]. split; [apply none_live; exact Ed|]. split; apply all_ended; assumption.
  - destruct (nth_error (s_down s) i) as [[[|x l]|]|] eqn:En; try discriminate; injection E as <-; cbn [s_nones s_ready s_down s_stop s_up s_rem s_phase];
      rewrite nnone_app, upd_length.
    + pose proof (nolive_end _ _ _ En) as L. split; [lia|]. split; [exact HS|].
      destruct (s_phase s) as [| | |[]| | |]; try exact HP; lia.
    + rewrite (nolive_keep _ _ _ l En). split; [lia|]. split; [exact HS|]. destruct (s_phase s) as [| | |[]| | |]; exact HP.
  - assert (HS' : forall y, s_stop s = true -> upd i y (s_up s) = [] /\ map (told true) (s_rem s) = [] /\ s_rem s = []).
    { intros y Es. destruct (HS Es) as [-> ->]. destruct i; auto. }
    destruct (nth_error (s_up s) i) as [[[|[] q]|]|] eqn:En; try discriminate; injection E as <-; cbn [s_nones s_ready s_down s_stop s_up s_rem s_phase];
      (split; [exact HC|]); (split; [intros Es; destruct (HS Es) as [Z1 Z2]; rewrite Z1 in En; destruct i; discriminate|]).
    + destruct (s_phase s) as [| | |[]| | |]; try exact HP.
      * destruct HP as (N & U & R). split; [exact N|]. split; [apply (open_next _ _ _ _ U En)|apply map_open; exact R].
      * destruct HP as (N & U & R). split; [exact N|]. split; [exact (closing_next _ _ _ _ U En)|apply map_open; exact R].
      * destruct (over_upd _ _ _ (proj1 (proj2 HP)) En).
      * destruct HP as [U _]. rewrite U in En. destruct i; discriminate.
      * destruct (over_upd _ _ _ (proj1 (proj2 HP)) En).
      * destruct (over_upd _ _ _ (proj1 (proj2 HP)) En).
    + destruct (s_phase s) as [| | |[]| | |]; try exact HP.
      * destruct HP as (N & U & R). destruct (open_next _ _ _ _ U En). discriminate.
      * destruct HP as (N & U & R). split; [exact N|]. split; [exact (closing_next _ _ _ _ U En)|exact R].
      * destruct (over_upd _ _ _ (proj1 (proj2 HP)) En).
      * destruct HP as [U _]. rewrite U in En. destruct i; discriminate.
      * destruct (over_upd _ _ _ (proj1 (proj2 HP)) En).
      * destruct (over_upd _ _ _ (proj1 (proj2 HP)) En).
  - assert (HS' : forall y, s_stop s = true -> s_up s = [] /\ upd i y (s_rem s) = []).
    { intros y Es. destruct (HS Es) as [-> ->]. destruct i; auto. }
    destruct (nth_error (s_rem s) i) as [[[|[] q]|]|] eqn:En; try discriminate; injection E as <-; cbn [s_nones s_ready s_down s_stop s_up s_rem s_phase];
      (split; [exact HC|]); (split; [apply HS'|]).
    + destruct (s_phase s) as [| | |[]| | |]; try exact HP.
      * destruct HP as (N & U & R). split; [exact N|]. split; [exact U|]. apply (open_next _ _ _ _ R En).
      * destruct HP as (N & U & R). split; [exact N|]. split; [exact U|]. apply (open_next _ _ _ _ R En).
      * destruct HP as (N & U & R). split; [exact N|]. split; [exact U|]. exact (closing_next _ _ _ _ R En).
      * destruct HP as [_ R]. rewrite R in En. destruct i; discriminate.
      * destruct (over_upd _ _ _ (proj2 (proj2 HP)) En).
      * destruct (over_upd _ _ _ (proj2 (proj2 HP)) En).
    + destruct (s_phase s) as [| | |[]| | |]; try exact HP.
      * destruct HP as (N & U & R). destruct (open_next _ _ _ _ R En). discriminate.
      * destruct HP as (N & U & R). destruct (open_next _ _ _ _ R En). discriminate.
      * destruct HP as (N & U & R). split; [exact N|]. split; [exact U|]. exact (closing_next _ _ _ _ R En).
      * destruct HP as [_ R]. rewrite R in En. destruct i; discriminate.
      * destruct (over_upd _ _ _ (proj2 (proj2 HP)) En).
      * destruct (over_upd _ _ _ (proj2 (proj2 HP)) En).
  - destruct Ha as [Ha|Ha]; [congruence|]. injection E as <-. cbn [s_nones s_ready s_down s_stop s_up s_rem s_phase].
    split; [exact HC|]. split; [intros _; exact Ha|exact HP].
  - congruence.
Qed.

Lemma started_inv1 inputs u r : inputs <> [] -> Inv1 (started inputs u r).
Proof.
  intros Hne. unfold Inv1, started. cbn [s_nones s_ready s_down s_stop s_up s_rem s_phase]. rewrite map_length.
  assert (N : nolive (map Some inputs) = length inputs).
  { clear. unfold nolive. induction inputs as [|x l IH]; [reflexivity|]. cbn [map filter live length]. rewrite IH. reflexivity. }
  split; [rewrite N; reflexivity|]. split; [discriminate|]. split; [destruct inputs; [congruence|cbn; lia]|].
  assert (O : open (Some [])) by (exists []; split; [reflexivity|constructor]).
  split; [apply Forall_forall; intros h Hh; apply repeat_spec in Hh; subst h; exact O|]. destruct r; repeat constructor; exact O.
Qed.

(** As long as a process is left, one can make a step. *)
Lemma no_deadlock s : Inv1 s -> s_phase s <> Ended -> exists a s', a <> Interrupt /\ a <> Kill /\ step work last a s = Some s'.
Proof.
  intros (HC & HS & HP) Hne.
  assert (HD : nolive (s_down s) <> 0 -> exists a s', a <> Interrupt /\ a <> Kill /\ step work last a s = Some s').
  { intros H. destruct (live_exists _ H) as (i & x & E). exists (Downloader i). cbn [step]. rewrite E.
    destruct x; eexists; (split; [discriminate|]); (split; [discriminate|]); reflexivity. }
  assert (HU : forall l, Forall closing l -> l = s_up s -> ~ Forall over l -> exists a s', a <> Interrupt /\ a <> Kill /\ step work last a s = Some s').
  { intros l F -> N. destruct (closing_step _ F N) as (i & b & q & E). exists (Uploader i). cbn [step]. rewrite E.
    destruct b; eexists; (split; [discriminate|]); (split; [discriminate|]); reflexivity. }
  assert (HR : forall l, Forall closing l -> l = s_rem s -> ~ Forall over l -> exists a s', a <> Interrupt /\ a <> Kill /\ step work last a s = Some s').
  { intros l F -> N. destruct (closing_step _ F N) as (i & b & q & E). exists (Remover i). cbn [step]. rewrite E.
    destruct b; eexists; (split; [discriminate|]); (split; [discriminate|]); reflexivity. }
  assert (HM : forall s', main_step work last s = Some s' -> exists a s', a <> Interrupt /\ a <> Kill /\ step work last a s = Some s').
  { intros s' E. exists Main, s'. split; [discriminate|]. split; [discriminate|exact E]. }
  unfold main_step in HM. destruct (s_phase s) as [| | |early| | |]; try contradiction; try congruence.
  - destruct HP as (N & _). destruct (s_ready s) as [|[x|] r].
    + apply HD. cbn in HC. lia.
    + destruct (Hwork x) as (files & Ew). rewrite Ew in HM. eapply HM. reflexivity.
    + destruct (_ =? _); [destruct Hlast as (files & ->)|]; eapply HM; reflexivity.
  - destruct HP as (N & U & R). destruct (forallb ended (s_up s)) eqn:Eu; [eapply HM; reflexivity|].
    apply (HU _ U eq_refl). intros C. apply all_ended in C. congruence.
  - destruct HP as (N & U & R). destruct (forallb ended (s_rem s)) eqn:Eu; [eapply HM; reflexivity|].
    apply (HR _ R eq_refl). intros C. apply all_ended in C. congruence.
  - assert (UR : Forall over (s_up s) /\ Forall over (s_rem s)).
    { destruct early; [destruct HP as [-> ->]; split; constructor|destruct HP as (_ & U & R); auto]. }
    destruct UR as [U R]. apply all_ended in U, R. rewrite U, R in HM. cbn [andb] in HM. rewrite andb_true_r in HM.
    destruct (forallb _ (s_down s)) eqn:Ed; [eapply HM; reflexivity|]. apply HD. intros C. apply none_live in C. congruence.
Qed.
End W.
