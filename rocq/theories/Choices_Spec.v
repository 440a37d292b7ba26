(** Vocabulary for the shares of the datasets that are left. *)
From Verif Require Import Base.
From Coq Require Import QArith.
Local Open Scope nat_scope.

(** The lengths of the datasets that are left. *)
Fixpoint remaining (left : list bool) (lens : list nat) : list nat :=
  match left, lens with
  | true :: left', n :: lens' => n :: remaining left' lens'
  | false :: left', _ :: lens' => remaining left' lens'
  | _, _ => []
  end.
Definition Qn (n : nat) : Q := inject_Z (Z.of_nat n).
