(** What the properties about the results of [optimize] say. *)
From Verif Require Import Base Codec_Model Tree_Model Tree_Spec Sample_Spec.
From Coq Require Import NArith.

(** The samples of the values that the function returns or yields: all but [None]. *)
Inductive given : list (option (tree leaf)) -> list (tree leaf) -> Prop :=
| given_nil : given [] []
| given_some t outs ts : given outs ts -> given (Some t :: outs) (t :: ts)
| given_none outs ts : given outs ts -> given (None :: outs) ts.

(** The samples that the function gives for the inputs, input by input. *)
Inductive outputs {A} (fn : A -> res (list (option (tree leaf)))) : list A -> list (tree leaf) -> Prop :=
| outputs_nil : outputs fn [] []
| outputs_cons a inputs outs ts ts' :
    fn a = Ok outs -> given outs ts -> outputs fn inputs ts' -> outputs fn (a :: inputs) (ts ++ ts').

(** Two values that are stored in the same way: of the same Python type, strings both names of files or not, arrays
    and tensors both of one dimension and of one dtype, or both of another number of dimensions (but arrays
    without dimensions are pickled, like [None] and objects of other classes). *)
Definition pickled (isfile : list N -> bool) (l : leaf) : Prop :=
  match l with LNone | LOther _ | LArr _ [] _ => True | LStr s => isfile s = true | _ => False end.
Definition alike (isfile : list N -> bool) (a b : leaf) : Prop :=
  (pickled isfile a /\ pickled isfile b /\ match a, b with LStr _, LStr _ => True | LStr _, _ => False | _, LStr _ => False | _, _ => True end) \/
  match a, b with
  | LStr s, LStr s' => isfile s = false /\ isfile s' = false
  | LBool _, LBool _ | LInt _, LInt _ | LFloat _, LFloat _ | LBytes _, LBytes _
  | LPil _ _ _ _, LPil _ _ _ _ | LJpegs _, LJpegs _ => True
  | LArr d [_] _, LArr d' [_] _ => d = d'
  | LArr _ (_ :: _ :: _) _, LArr _ (_ :: _ :: _) _ => True
  | LTensor d [_] _, LTensor d' [_] _ => d = d'
  | LTensor _ sh _, LTensor _ sh' _ => length sh <> 1 /\ length sh' <> 1
  | _, _ => False
  end.

(** Samples of one form: each can be stored, and any two have the same structure and values stored in the same way. *)
Definition uniform (isfile : list N -> bool) (registered_w registered_r : nat -> bool) (ts : list (tree leaf)) : Prop :=
  Forall (fun t => tree_valid t /\ tree_plain registered_w registered_r t /\ leaves t <> [] /\ good_values t) ts /\
  forall t u, In t ts -> In u ts -> same_structure t u /\ Forall2 (alike isfile) (leaves t) (leaves u).

(** The function gives at least one sample for every input. *)
Definition all_give {A} (fn : A -> res (list (option (tree leaf)))) (inputs : list A) : Prop :=
  forall a, In a inputs -> exists outs t, fn a = Ok outs /\ In (Some t) outs.
