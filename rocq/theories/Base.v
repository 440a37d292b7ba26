(** Shared vocabulary: exceptions as values, small list utilities.
    Nothing in this file models code of the repository except [exn]/[res],
    which represent raised Python exceptions. *)
From Coq Require Export ZArith List Arith Lia Bool Permutation.
From Coq Require Export ZifyBool ZifyNat ZifyN.
Export ListNotations.

Ltac Zify.zify_post_hook ::= Z.div_mod_to_equations.

(** Python exceptions that the modelled functions can raise.  [OutOfFuel] is not
    a Python exception: it marks that a bounded unrolling of a loop was too
    short, and every theorem excludes it. *)
Inductive exn :=
| ValueError | IndexError | KeyError | RuntimeError | AssertionError
| ZeroDivisionError | FileNotFoundError | StopIteration | TypeError
| GenericException | OutOfFuel.

Inductive res (A : Type) :=
| Ok (a : A)
| Err (e : exn).
Arguments Ok {A} a.
Arguments Err {A} e.

Definition bind {A B} (r : res A) (f : A -> res B) : res B :=
  match r with Ok a => f a | Err e => Err e end.

Fixpoint sum (l : list nat) : nat :=
  match l with [] => 0 | x :: l' => x + sum l' end.

Lemma sum_app l1 l2 : sum (l1 ++ l2) = sum l1 + sum l2.
Proof. induction l1 as [|x l1 IH]; simpl; lia. Qed.

Lemma sum_map_mul {A} (f : A -> nat) k l : sum (map (fun x => f x * k) l) = sum (map f l) * k.
Proof. induction l as [|x l IH]; simpl; nia. Qed.

Lemma sum_map_const {A} (l : list A) k : sum (map (fun _ => k) l) = length l * k.
Proof. induction l as [|x l IH]; simpl; nia. Qed.

Lemma sum_repeat n k : sum (repeat k n) = n * k.
Proof. induction n as [|n IH]; simpl; lia. Qed.

Lemma sum_Permutation l1 l2 : Permutation l1 l2 -> sum l1 = sum l2.
Proof. induction 1; simpl; lia. Qed.

Lemma length_concat {A} (ls : list (list A)) : length (concat ls) = sum (map (@length A) ls).
Proof. induction ls as [|l ls IH]; simpl; [reflexivity|]. rewrite app_length; lia. Qed.

Lemma flat_map_app {A B} (f : A -> list B) l1 l2 :
  flat_map f (l1 ++ l2) = flat_map f l1 ++ flat_map f l2.
Proof. induction l1 as [|x l1 IH]; simpl; [reflexivity|]. rewrite IH, app_assoc; reflexivity. Qed.

Lemma length_flat_map {A B} (f : A -> list B) l :
  length (flat_map f l) = sum (map (fun x => length (f x)) l).
Proof. induction l as [|x l IH]; simpl; [reflexivity|]. rewrite app_length; lia. Qed.

Lemma combine_app {A B} (a1 a2 : list A) (b1 b2 : list B) :
  length a1 = length b1 -> combine (a1 ++ a2) (b1 ++ b2) = combine a1 b1 ++ combine a2 b2.
Proof.
  revert b1; induction a1 as [|x a1 IH]; intros [|y b1] H; simpl in *; try discriminate; [reflexivity|].
  f_equal; apply IH; lia.
Qed.

(** Replace the element at position [i]; the list is unchanged if [i] is out of range. *)
Fixpoint upd {A} (i : nat) (f : A -> A) (l : list A) : list A :=
  match l, i with
  | [], _ => []
  | x :: l', 0 => f x :: l'
  | x :: l', S i' => x :: upd i' f l'
  end.

Lemma upd_length {A} i (f : A -> A) l : length (upd i f l) = length l.
Proof. revert i; induction l as [|x l IH]; intros [|i]; simpl; auto. Qed.

Lemma nth_error_upd_eq {A} i (f : A -> A) l :
  nth_error (upd i f l) i = option_map f (nth_error l i).
Proof. revert i; induction l as [|x l IH]; intros [|i]; simpl; auto. Qed.

Lemma nth_error_upd_neq {A} i j (f : A -> A) l :
  i <> j -> nth_error (upd i f l) j = nth_error l j.
Proof.
  revert i j; induction l as [|x l IH]; intros [|i] [|j] H; simpl; auto; try lia.
Qed.

Lemma sum_upd i k l : i < length l -> sum (upd i (fun x => x + k) l) = sum l + k.
Proof. revert i; induction l as [|x l IH]; intros [|i] H; simpl in *; try lia. rewrite IH; lia. Qed.

(** Cut a list into consecutive pieces of size [k] (the last may be shorter). *)
Fixpoint pieces_fuel {A} (fuel k : nat) (l : list A) : list (list A) :=
  match fuel with
  | 0 => []
  | S f => match l with [] => [] | _ => firstn k l :: pieces_fuel f k (skipn k l) end
  end.
Definition pieces {A} (k : nat) (l : list A) : list (list A) := pieces_fuel (length l) k l.

Lemma pieces_fuel_enough {A} k (l : list A) f1 f2 :
  1 <= k -> length l <= f1 -> length l <= f2 -> pieces_fuel f1 k l = pieces_fuel f2 k l.
Proof.
  intros Hk; revert l f2; induction f1 as [|f1 IH]; intros l f2 H1 H2.
  - destruct l; simpl in *; [|lia]. destruct f2; reflexivity.
  - destruct f2 as [|f2]; [destruct l; simpl in *; [reflexivity|lia]|].
    destruct l as [|x l]; [reflexivity|].
    change (firstn k (x :: l) :: pieces_fuel f1 k (skipn k (x :: l)) =
            firstn k (x :: l) :: pieces_fuel f2 k (skipn k (x :: l))).
    f_equal; apply IH; rewrite skipn_length; cbn [length] in *; lia.
Qed.

Lemma pieces_nil {A} k : pieces k (@nil A) = [].
Proof. reflexivity. Qed.

Lemma pieces_cons {A} k (l : list A) :
  1 <= k -> l <> [] -> pieces k l = firstn k l :: pieces k (skipn k l).
Proof.
  intros Hk Hl; unfold pieces. destruct l as [|x l]; [congruence|].
  cbn [length pieces_fuel]. f_equal.
  apply pieces_fuel_enough; auto; rewrite skipn_length; cbn [length]; lia.
Qed.

Lemma list_len_ind {A} (P : list A -> Prop) :
  (forall l, (forall l', length l' < length l -> P l') -> P l) -> forall l, P l.
Proof.
  intros H l. remember (length l) as n eqn:Hn. revert l Hn.
  induction n as [n IH] using lt_wf_ind; intros l Hn; apply H; intros l' Hl'.
  apply (IH (length l')); subst; auto.
Qed.

Lemma concat_pieces {A} k (l : list A) : 1 <= k -> concat (pieces k l) = l.
Proof.
  intros Hk; induction l as [l IH] using list_len_ind.
  destruct l as [|x l]; [reflexivity|].
  rewrite pieces_cons by (auto; congruence). cbn [concat].
  rewrite IH by (rewrite skipn_length; cbn [length]; lia).
  apply firstn_skipn.
Qed.

Lemma pieces_length {A} k (l : list A) : 1 <= k -> length (pieces k l) = (length l + k - 1) / k.
Proof.
  intros Hk; induction l as [l IH] using list_len_ind.
  destruct l as [|x l]; [cbn [length pieces]; symmetry; apply Nat.div_small; simpl; lia|].
  rewrite pieces_cons by (auto; congruence). cbn [length].
  rewrite IH by (rewrite skipn_length; cbn [length]; lia).
  rewrite skipn_length. cbn [length].
  destruct (le_lt_dec (S (length l)) k) as [H|H].
  - rewrite (Nat.div_small (S (length l) - k + k - 1) k) by lia.
    symmetry in |- *. rewrite <- (Nat.div_unique (S (length l) + k - 1) k 1 (length l)); lia.
  - replace (S (length l) + k - 1) with ((S (length l) - k + k - 1) + 1 * k) by lia.
    rewrite Nat.div_add by lia. lia.
Qed.

Lemma Permutation_concat {A} (l1 l2 : list (list A)) :
  Permutation l1 l2 -> Permutation (concat l1) (concat l2).
Proof.
  induction 1 as [|x l1 l2 _ IH|x y l|l1 l2 l3 _ IH1 _ IH2]; simpl; auto.
  - apply Permutation_app_head; exact IH.
  - rewrite !app_assoc; apply Permutation_app_tail, Permutation_app_comm.
  - etransitivity; eauto.
Qed.

Lemma concat_map_flat_map {A B} (f : A -> list B) l : concat (map f l) = flat_map f l.
Proof. symmetry; apply flat_map_concat_map. Qed.

Lemma flat_map_flat_map {A B C} (f : A -> list B) (g : B -> list C) l :
  flat_map g (flat_map f l) = flat_map (fun x => flat_map g (f x)) l.
Proof. induction l as [|x l IH]; simpl; [reflexivity|]. rewrite flat_map_app, IH; reflexivity. Qed.

Lemma flat_map_ext_in {A B} (f g : A -> list B) l :
  (forall x, In x l -> f x = g x) -> flat_map f l = flat_map g l.
Proof.
  induction l as [|x l IH]; intros H; simpl; [reflexivity|].
  rewrite H by (left; reflexivity). f_equal; apply IH; intros y Hy; apply H; right; exact Hy.
Qed.

Lemma Permutation_flat_map_ext {A B} (f g : A -> list B) l :
  (forall x, In x l -> Permutation (f x) (g x)) -> Permutation (flat_map f l) (flat_map g l).
Proof.
  induction l as [|x l IH]; intros H; simpl; [constructor|].
  apply Permutation_app; [apply H; left; reflexivity|apply IH; intros y Hy; apply H; right; exact Hy].
Qed.

Lemma nth_error_ext {A} (l1 l2 : list A) : (forall i, nth_error l1 i = nth_error l2 i) -> l1 = l2.
Proof.
  revert l2; induction l1 as [|x l1 IH]; intros [|y l2] H.
  - reflexivity.
  - specialize (H 0); discriminate.
  - specialize (H 0); discriminate.
  - f_equal; [specialize (H 0); injection H; auto|]. apply IH. intros i. exact (H (S i)).
Qed.

Lemma skipn_nth_cons {A} (l : list A) k x : nth_error l k = Some x -> skipn k l = x :: skipn (S k) l.
Proof.
  revert l; induction k as [|k IH]; intros [|y l] H; try discriminate.
  - injection H as ->. reflexivity.
  - cbn [skipn]. rewrite (IH l H). reflexivity.
Qed.

Lemma nth_error_seq k n i : i < n -> nth_error (seq k n) i = Some (k + i).
Proof. intros H. rewrite (nth_error_nth' _ 0) by (rewrite seq_length; exact H). rewrite seq_nth by exact H. reflexivity. Qed.

Lemma list_choice {B} (P : nat -> B -> Prop) n :
  (forall i, i < n -> exists y, P i y) ->
  exists ys, length ys = n /\ forall i y, nth_error ys i = Some y -> P i y.
Proof.
  induction n as [|n IH]; intros H.
  - exists []. split; [reflexivity|]. intros [|i] y E; discriminate.
  - destruct IH as (ys & Hl & Hys); [intros i Hi; apply H; lia|].
    destruct (H n ltac:(lia)) as [y Hy]. exists (ys ++ [y]). split; [rewrite app_length; cbn; lia|].
    intros i z E. destruct (Nat.lt_ge_cases i n) as [Hi|Hi].
    + rewrite nth_error_app1 in E by lia. apply Hys; exact E.
    + rewrite nth_error_app2 in E by lia. rewrite Hl in E.
      destruct (i - n) as [|k] eqn:Ek; [|destruct k; discriminate]. injection E as <-.
      replace i with n by lia. exact Hy.
Qed.
