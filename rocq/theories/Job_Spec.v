(** What a shell makes of a command, as far as needed: words separated by blanks, commands separated by [&&]. *)
From Coq Require Import String NArith.
From Verif Require Import Base Names_Model Job_Model.
Local Open Scope list_scope.
Local Open Scope nat_scope.

(** The words of a text: its longest parts without blanks and tabs. *)
Definition blank (c : N) : bool := (c =? 32)%N || (c =? 9)%N.
Fixpoint fields (word text : str) : list str :=
  match text with
  | [] => match word with [] => [] | _ => [word] end
  | c :: text => if blank c then match word with [] => fields [] text | _ => word :: fields [] text end
                 else fields (word ++ [c]) text
  end.
(** Characters that mean themselves in a word: letters, digits and [_ - . / = : , + @ %]. *)
Definition harmless (c : N) : bool :=
  ((48 <=? c)%N && (c <=? 57)%N) || ((65 <=? c)%N && (c <=? 90)%N) || ((97 <=? c)%N && (c <=? 122)%N) ||
  existsb (N.eqb c) (codes "_-./=:,+@%").
Definition and_then (w : str) : bool := if list_eq_dec N.eq_dec w (codes "&&") then true else false.
(** The commands run one after the other (each only if the one before succeeds); [None]: nothing is said about texts with
    quotes, variables, patterns and other characters with a meaning. *)
Fixpoint commands (words : list str) : list (list str) :=
  match words with
  | [] => [[]]
  | w :: words => match commands words with
                  | c :: cs => if and_then w then [] :: c :: cs else (w :: c) :: cs
                  | [] => []
                  end
  end.
Definition shell (text : str) : option (list (list str)) :=
  let words := fields [] text in
  if forallb (fun w => and_then w || forallb harmless w) words then Some (commands words) else None.

(** A word that reaches the program as it is. *)
Definition simple (w : str) : Prop := w <> [] /\ forallb harmless w = true.
(** An environment variable passed on, if it is set. *)
Definition passed_on (name value : str) : list str := match value with [] => [] | v => [name ++ codes "=" ++ v] end.

