(** Vocabulary for the properties about calls of the user's function. *)
From Coq Require Import String.
From Verif Require Import Base Calls_Model.
Local Open Scope list_scope.
Local Open Scope nat_scope.

(** A function for [map]: it takes the input and the directory as its first two parameters; each further one may be left
    out, or is called [device] or [is_last]; [**kwargs] comes last (the syntax of Python). *)
Definition special (n : string) : Prop := n = "device"%string \/ n = "is_last"%string.
Definition optional (p : param) : Prop :=
  match q_kind p with
  | VarPositional | VarKeyword => ~ special (q_name p)
  | Positional | KeywordOnly => special (q_name p) \/ q_default p <> None
  end.
Definition for_map (ps : list param) : Prop :=
  exists a b rest, ps = a :: b :: rest /\ q_kind a = Positional /\ q_kind b = Positional /\
    ~ special (q_name a) /\ ~ special (q_name b) /\ Forall optional rest /\ NoDup (map q_name ps) /\
    (forall l p l', rest = l ++ p :: l' -> q_kind p = VarKeyword -> l' = []).

(** What a further parameter is given. *)
Inductive gets (device last : val) : param -> string * got -> Prop :=
| gets_device p : q_name p = "device"%string -> gets device last p ("device"%string, One device)
| gets_last p : q_name p = "is_last"%string -> gets device last p ("is_last"%string, One last)
| gets_default p d : ~ special (q_name p) -> q_kind p = Positional \/ q_kind p = KeywordOnly -> q_default p = Some d -> gets device last p (q_name p, One d)
| gets_none p : ~ special (q_name p) -> q_kind p = VarPositional -> gets device last p (q_name p, Many [])
| gets_no_names p : ~ special (q_name p) -> q_kind p = VarKeyword -> gets device last p (q_name p, Named []).

(** The environment in which the function runs when [map] calls it as it should. *)
Definition right_call (ps : list param) (item dir device last : val) (e : env) : Prop :=
  exists a b rest e', ps = a :: b :: rest /\ e = (q_name a, One item) :: (q_name b, One dir) :: e' /\
    Forall2 (gets device last) rest e'.

(** [plain f]: [inspect.signature] shows the parameters of the function itself (no [functools.wraps]), and a call gives
    a generator if and only if the body contains [yield]. *)
Definition plain {S} (f : func S) : Prop := f_shown f = f_params f.
Definition honest {S} (f : func S) : Prop :=
  forall e r, f_body f e = Ok r -> (f_yields f = true <-> exists vs, r = Generator vs).
(** Nothing but partials is around the function [f]. *)
Fixpoint around {S} (c : callable S) (f : func S) : Prop :=
  match c with Function g => g = f | Partial c' _ _ => around c' f | _ => False end.
(** What [fn] gives for an input: its value if it is not None, or all that it yields, but for None. *)
Inductive somes {S} : list (option S) -> list S -> Prop :=
| somes_nil : somes [] []
| somes_none l r : somes l r -> somes (None :: l) r
| somes_some x l r : somes l r -> somes (Some x :: l) (x :: r).
Inductive gives {S} : outcome S -> list S -> Prop :=
| gives_value o r : somes [o] r -> gives (Value o) r
| gives_all vs r : somes vs r -> gives (Generator vs) r.

(** How many of the workers of a node run on device [d]. *)
Definition users (device : nat -> option nat) (workers d : nat) : nat :=
  List.length (filter (fun w => match device w with Some k => k =? d | None => false end) (seq 0 workers)).

(** What partials of partials have bound: the positional arguments, those of the inner ones first, and the value of a keyword,
    for which the outer ones count first; and the function inside. *)
Section Bound.
Context {S : Type}.
Fixpoint bound_args (c : callable S) : list val := match c with Partial c' args _ => bound_args c' ++ args | _ => [] end.
Fixpoint bound_kw (c : callable S) (n : string) : option val :=
  match c with
  | Partial c' _ kws => match find (fun kv => String.eqb (fst kv) n) kws with Some kv => Some (snd kv) | None => bound_kw c' n end
  | _ => None
  end.
Fixpoint inside (c : callable S) (f : func S) : Prop :=
  match c with Partial c' _ _ => inside c' f | Function g | Method g | Object g => f = g end.
End Bound.
