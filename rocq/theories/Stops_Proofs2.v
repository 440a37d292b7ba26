(** The processes of a worker: the number of their steps is bounded. *)
From Verif Require Import Base Stops_Model Stops_Spec Stops_Proofs.
From Coq Require Import Lia.
Local Ltac Zify.zify_post_hook ::= idtac.

Lemma sum_cons x l : sum (x :: l) = x + sum l.
Proof. reflexivity. Qed.

Section M.
Context (work : nat -> res (list nat)) (last : res (list nat)).
Definition files_of (r : res (list nat)) : nat := match r with Ok l => length l | Err _ => 0 end.

(** Costs; [R] is the number of removers, [U] that of uploaders. *)
Definition cost_item (R i : nat) : nat := 1 + files_of (work i) * S R + R.
Definition cost_ready (R : nat) (x : option nat) : nat := match x with Some i => cost_item R i | None => 1 end.
Definition cost_down (R : nat) (d : option (list nat)) : nat :=
  match d with Some l => sum (map (fun i => S (cost_item R i)) l) + 2 | None => 0 end.
Definition cost_msg (R : nat) (b : bool) : nat := if b then S R else 1.
Definition cost_up (R : nat) (h : helper) : nat := match h with Some q => sum (map (cost_msg R) q) | None => 0 end.
Definition cost_rem (h : helper) : nat := match h with Some q => length q | None => 0 end.
Definition cost_phase (R U : nat) (p : phase) : nat :=
  match p with
  | Loop => files_of last * S R + U + R + 5
  | Uploading => R + 4 | Removing => 3 | Terminating _ => 2 | Failed => 1 | Ended | Killed => 0
  end.
Definition cost (s : wst) : nat :=
  let R := length (s_rem s) in
  cost_phase R (length (s_up s)) (s_phase s) + sum (map (cost_ready R) (s_ready s)) + sum (map (cost_down R) (s_down s)) +
  sum (map (cost_up R) (s_up s)) + sum (map cost_rem (s_rem s)).

Lemma sum_upd {A} (f : A -> nat) y : forall l i x, nth_error l i = Some x -> sum (map f (upd i (fun _ => y) l)) + f x = sum (map f l) + f y.
Proof.
  induction l as [|z l IH]; intros [|i] x E; try discriminate; cbn [nth_error upd map] in *.
  - injection E as ->. rewrite !sum_cons. lia.
  - specialize (IH i x E). rewrite !sum_cons. lia.
Qed.
Lemma sum_snoc l x : sum (l ++ [x]) = sum l + x.
Proof. induction l as [|y l IH]; cbn [app]; rewrite ?sum_cons, ?IH; cbn; lia. Qed.
Lemma cost_up_told R b : forall h, cost_up R (told b h) <= cost_up R h + cost_msg R b.
Proof. intros [q|]; cbn [told cost_up]; [|lia]. rewrite map_app. cbn [map]. rewrite sum_snoc. lia. Qed.
Lemma cost_up_upd R : forall l i, sum (map (cost_up R) (upd i (told true) l)) <= sum (map (cost_up R) l) + S R.
Proof.
  induction l as [|h l IH]; intros [|i]; cbn [upd map]; rewrite ?sum_cons; [cbn; lia|cbn; lia| |].
  - pose proof (cost_up_told R true h). cbn [cost_msg] in *. lia.
  - specialize (IH i). lia.
Qed.
Lemma cost_hand_over R : forall files l, sum (map (cost_up R) (hand_over files l)) <= sum (map (cost_up R) l) + length files * S R.
Proof.
  unfold hand_over. induction files as [|i files IH]; intros l; cbn [fold_left length]; [lia|].
  specialize (IH (upd i (told true) l)). pose proof (cost_up_upd R l i). lia.
Qed.
Lemma cost_rem_told b : forall l, sum (map cost_rem (map (told b) l)) <= sum (map cost_rem l) + length l.
Proof.
  induction l as [|h l IH]; cbn [map length]; rewrite ?sum_cons; [cbn; lia|].
  assert (cost_rem (told b h) <= cost_rem h + 1) by (destruct h; cbn [told cost_rem]; rewrite ?app_length; cbn; lia). lia.
Qed.
Lemma cost_up_end R : forall l, sum (map (cost_up R) (map (told false) l)) <= sum (map (cost_up R) l) + length l.
Proof.
  induction l as [|h l IH]; cbn [map length]; rewrite ?sum_cons; [cbn; lia|].
  pose proof (cost_up_told R false h). cbn [cost_msg] in *. lia.
Qed.

Lemma step_cost a s s' : a <> Interrupt -> step work last a s = Some s' -> cost s' < cost s.
Proof.
  intros Ha E. destruct a as [|i|i|i| |]; cbn [step] in E; [| | | |congruence|].
  - unfold main_step in E. unfold cost. destruct (s_phase s) as [| | |early| | |]; try discriminate.
    + destruct (s_ready s) as [|[x|] r]; try discriminate.
      * destruct (work x) as [files|] eqn:Ew; injection E as <-; cbn [s_phase s_ready s_down s_up s_rem]; cbn [map]; rewrite sum_cons; cbn [cost_ready cost_phase].
        -- rewrite !map_length, hand_over_length. unfold cost_item. rewrite Ew. cbn [files_of].
           pose proof (cost_hand_over (length (s_rem s)) files (s_up s)) as H1. pose proof (cost_rem_told true (s_rem s)) as H2.
           destruct (s_stop s); cbn [cost_phase]; lia.
        -- unfold cost_item. lia.
      * destruct (_ =? _); [destruct last as [files|] eqn:El|]; injection E as <-; cbn [s_phase s_ready s_down s_up s_rem]; cbn [map]; rewrite sum_cons;
          cbn [cost_ready cost_phase]; rewrite ?map_length, ?hand_over_length, ?El; cbn [files_of].
        -- pose proof (cost_up_end (length (s_rem s)) (hand_over files (s_up s))) as H1. rewrite hand_over_length in H1.
           pose proof (cost_hand_over (length (s_rem s)) files (s_up s)) as H2. lia.
        -- lia.
        -- lia.
    + destruct (forallb ended (s_up s)); [|discriminate]. injection E as <-. cbn [s_phase s_ready s_down s_up s_rem cost_phase]. rewrite map_length.
      pose proof (cost_rem_told false (s_rem s)). lia.
    + destruct (forallb ended (s_rem s)); [|discriminate]. injection E as <-. cbn [s_phase s_ready s_down s_up s_rem cost_phase]. lia.
    + destruct (_ && _); [|discriminate]. injection E as <-. cbn [s_phase s_ready s_down s_up s_rem cost_phase]. lia.
  - unfold cost. destruct (nth_error (s_down s) i) as [[[|x l]|]|] eqn:En; try discriminate; injection E as <-;
      cbn [s_phase s_ready s_down s_up s_rem]; rewrite map_app; cbn [map]; rewrite sum_snoc.
    + pose proof (sum_upd (cost_down (length (s_rem s))) None _ _ _ En) as H. cbn [cost_down cost_ready map] in *. change (sum []) with 0 in H. lia.
    + pose proof (sum_upd (cost_down (length (s_rem s))) (Some l) _ _ _ En) as H. cbn [cost_down cost_ready map] in *. rewrite sum_cons in H. lia.
  - unfold cost. destruct (nth_error (s_up s) i) as [[[|[] q]|]|] eqn:En; try discriminate; injection E as <-;
      cbn [s_phase s_ready s_down s_up s_rem]; rewrite ?map_length, upd_length.
    + pose proof (sum_upd (cost_up (length (s_rem s))) (Some q) _ _ _ En) as H. pose proof (cost_rem_told true (s_rem s)).
      cbn [cost_up map cost_msg] in H. rewrite sum_cons in H. unfold helper in *. lia.
    + pose proof (sum_upd (cost_up (length (s_rem s))) None _ _ _ En) as H. cbn [cost_up map cost_msg] in H. rewrite sum_cons in H. unfold helper in *. lia.
  - unfold cost. destruct (nth_error (s_rem s) i) as [[[|[] q]|]|] eqn:En; try discriminate; injection E as <-;
      cbn [s_phase s_ready s_down s_up s_rem]; rewrite upd_length.
    + pose proof (sum_upd cost_rem (Some q) _ _ _ En) as H. cbn [cost_rem length] in H. unfold helper in *. lia.
    + pose proof (sum_upd cost_rem None _ _ _ En) as H. cbn [cost_rem length] in H. unfold helper in *. lia.
  - unfold cost. destruct (s_phase s); try discriminate; injection E as <-; cbn [s_phase s_ready s_down s_up s_rem cost_phase]; lia.
Qed.

Lemma steps_bound others n s s' : In Interrupt others -> steps others work last n s s' -> n + cost s' <= cost s.
Proof.
  intros Ho. induction 1 as [s|a n s s1 s2 Ha E _ IH]; [lia|].
  assert (Hi : a <> Interrupt) by (intros ->; exact (Ha Ho)). pose proof (step_cost a s s1 Hi E). lia.
Qed.
Lemma steps_inv1 n s s' : (forall i, exists files, work i = Ok files) -> (exists files, last = Ok files) -> steps [Interrupt; Kill] work last n s s' -> Inv1 s -> Inv1 s'.
Proof.
  intros Hw Hl. induction 1 as [s|a n s s1 s2 Ha E _ IH]; intros HI; [exact HI|]. apply IH. apply (step_inv1 work last Hw Hl s a s1); [intros ->; apply Ha; right; left; reflexivity|left; intros ->; apply Ha; left; reflexivity|exact HI|exact E].
Qed.
End M.
