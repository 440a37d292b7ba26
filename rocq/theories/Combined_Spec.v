(** Vocabulary for combined datasets. *)
From Verif Require Import Base.

(** [takes streams out rest]: [out] is obtained by repeatedly taking the next sample of
    some stream; [rest] is what the streams still hold. *)
Inductive takes {A} : list (list A) -> list A -> list (list A) -> Prop :=
| takes_nil s : takes s [] s
| takes_cons k x l s out rest :
    nth_error s k = Some (x :: l) -> takes (upd k (fun _ => l) s) out rest -> takes s (x :: out) rest.

Lemma concat_upd_take {A} : forall (s : list (list A)) k x l, nth_error s k = Some (x :: l) ->
  Permutation (x :: concat (upd k (fun _ => l) s)) (concat s).
Proof.
  induction s as [|y s IH]; intros [|k] x l E; try discriminate; cbn in *.
  - injection E as ->. reflexivity.
  - specialize (IH k x l E). rewrite <- IH. apply Permutation_middle.
Qed.
(** In particular nothing is lost or repeated. *)
Lemma takes_permutation {A} (s : list (list A)) out rest : takes s out rest -> Permutation (out ++ concat rest) (concat s).
Proof.
  induction 1 as [s|k x l s out rest E _ IH]; [reflexivity|]. cbn [app]. rewrite IH. apply concat_upd_take. exact E.
Qed.

(** [only_stops stop n s]: [n] calls one after another in [s] end with StopIteration, every one of
    them; [stop s s'] means that a call in [s] does and leaves [s']. *)
Fixpoint only_stops {S} (stop : S -> S -> Prop) (n : nat) (s : S) : Prop :=
  match n with 0 => True | Datatypes.S n' => exists s', stop s s' /\ only_stops stop n' s' end.
