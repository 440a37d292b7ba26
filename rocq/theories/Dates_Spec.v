(** Names of directories with dates: a text with patterns such as {%Y-%m-%d} in braces. *)
From Coq Require Import String NArith.
From Verif Require Import Base Names_Model.
Local Open Scope list_scope.

Inductive piece := Lit (s : str) | Date (fmt : str).

(** The name as the user gives it; the name that they expect ([t fmt]: the date in a format); the name in which only the
    patterns with a given format have been replaced. *)
Definition spelled (ps : list piece) : str :=
  flat_map (fun p => match p with Lit s => s | Date fmt => codes "{" ++ fmt ++ codes "}" end) ps.
Definition filled (t : str -> str) (ps : list piece) : str :=
  flat_map (fun p => match p with Lit s => s | Date fmt => t fmt end) ps.
Definition filled_only (t : str -> str) (f : str) (ps : list piece) : str :=
  flat_map (fun p => match p with
                     | Lit s => s
                     | Date fmt => if list_eq_dec N.eq_dec fmt f then t fmt else codes "{" ++ fmt ++ codes "}"
                     end) ps.

Definition no_braces (s : str) : Prop := ~ In 123%N s /\ ~ In 125%N s.
Definition good_piece (p : piece) : Prop :=
  match p with Lit s => s <> [] /\ no_braces s | Date fmt => no_braces fmt /\ exists f, fmt = codes "%" ++ f end.
Definition formats (ps : list piece) : list str := flat_map (fun p => match p with Lit _ => [] | Date fmt => [fmt] end) ps.
