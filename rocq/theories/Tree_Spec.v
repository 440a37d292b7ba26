(** What the properties about sample structures say. *)
From Verif Require Import Base Tree_Model.
From Coq Require Import NArith ZArith.

(** Applying a function to every leaf, keeping the structure. *)
Fixpoint tmap {A B} (f : A -> B) (t : tree A) : tree B :=
  match t with Leaf l => Leaf (f l) | Node k ts => Node k (map (tmap f) ts) end.

(** The leaves from left to right. *)
Fixpoint leaves {L} (t : tree L) : list L :=
  match t with Leaf l => [l] | Node _ ts => flat_map leaves ts end.

(** Structures that Python can build: hashable keys, deques within their bound. *)
Definition node_valid (k : kind key) (n : nat) : Prop :=
  match k with
  | NDict keys | NOrdered keys | NDefault _ keys => forallb hashable keys = true
  | NDeque (Some m) => n <= m
  | _ => True
  end.
Fixpoint tree_valid {L} (t : tree L) : Prop :=
  match t with
  | Leaf _ => True
  | Node k ts => node_valid k (length ts) /\ fold_right (fun t P => tree_valid t /\ P) True ts
  end.

(** Structures whose spec survives JSON: keys are strings, numbers, booleans or
    None, namedtuple classes are registered on both sides, default factories can
    be imported. *)
Definition plain_key (k : key) : Prop :=
  match k with KStr _ | KInt _ | KBool _ | KNone | KFloat _ => True | _ => False end.
Definition node_plain (reg_w reg_r : nat -> bool) (k : kind key) : Prop :=
  match k with
  | NDict keys | NOrdered keys => Forall plain_key keys
  | NDefault f keys => Forall plain_key keys /\ exists i, f = FacModule i
  | NNamed c => reg_w c = true /\ reg_r c = true
  | _ => True
  end.
Fixpoint tree_plain (reg_w reg_r : nat -> bool) {L} (t : tree L) : Prop :=
  match t with
  | Leaf _ => True
  | Node k ts => node_plain reg_w reg_r k /\ fold_right (fun t P => tree_plain reg_w reg_r t /\ P) True ts
  end.

(** Structures that cannot be stored wrongly: no tuples as keys, no lambda as
    default factory, and classes registered on the writing side are registered on
    the reading side. *)
Definition flat_key (k : key) : Prop := match k with KTuple _ | KList _ => False | _ => True end.
Definition node_flat (reg_w reg_r : nat -> bool) (k : kind key) : Prop :=
  match k with
  | NDict keys | NOrdered keys => Forall flat_key keys
  | NDefault f keys => Forall flat_key keys /\ forall i, f <> FacLocal i
  | NNamed c => reg_w c = true -> reg_r c = true
  | _ => True
  end.
Fixpoint tree_flat (reg_w reg_r : nat -> bool) {L} (t : tree L) : Prop :=
  match t with
  | Leaf _ => True
  | Node k ts => node_flat reg_w reg_r k /\ fold_right (fun t P => tree_flat reg_w reg_r t /\ P) True ts
  end.

(** Two samples have the same structure: same containers, keys in the same order,
    leaves in the same places. *)
Definition same_structure {A B} (t : tree A) (u : tree B) : Prop :=
  tmap (fun _ => tt) t = tmap (fun _ => tt) u.
