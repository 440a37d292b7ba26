(** What the properties about names and sizes speak of. *)
From Coq Require Import String.
From Verif Require Import Base Names_Model.
From Coq Require Import NArith.
Local Open Scope list_scope.
Local Open Scope nat_scope.

Definition is_digit (c : N) : Prop := (48 <= c <= 57)%N.

(** No dash in the name of the compression algorithm. *)
Definition dashless (comp : option str) : Prop := match comp with Some c => ~ In dash c | None => True end.

(** The blanks of ASCII. *)
Definition is_blank (c : N) : Prop := (9 <= c <= 13 \/ 28 <= c <= 32)%N.

(** The number that digits stand for. *)
Definition value (s : str) : N := fold_left (fun v c => 10 * v + (c - 48))%N s 0%N.

(** [s] is a decimal literal for m / 10^k: digits, possibly a point and [k] digits. *)
Definition decimal (s : str) (m : N) (k : nat) : Prop :=
  exists i f, Forall is_digit i /\ Forall is_digit f /\ i ++ f <> [] /\
    value (i ++ f) = m /\ length f = k /\ (s = i ++ dot :: f \/ f = [] /\ s = i).

(** The four units. *)
Inductive size_unit : str -> N -> Prop :=
| kB a b : In a [75; 107]%N -> In b [66; 98]%N -> size_unit [a; b] (10 ^ 3)%N
| MB a b : In a [77; 109]%N -> In b [66; 98]%N -> size_unit [a; b] (10 ^ 6)%N
| GB a b : In a [71; 103]%N -> In b [66; 98]%N -> size_unit [a; b] (10 ^ 9)%N
| TB a b : In a [84; 116]%N -> In b [66; 98]%N -> size_unit [a; b] (10 ^ 12)%N.
