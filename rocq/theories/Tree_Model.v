(** Model of nested samples: flattening into a list of leaves and a spec,
    rebuilding, and the JSON form of the spec in the index file.
    Source: src/litdata/utilities/_pytree.py 442-700 and 706-900, 1350-1450.

    Not modelled: node types registered by the user, subclasses of the containers
    (they are leaves). *)
From Verif Require Import Base.
From Coq Require Import NArith ZArith.

(** Python loops that stop at the first exception. *)
Definition mapM {A B} (f : A -> res B) : list A -> res (list B) :=
  fix go l := match l with
  | [] => Ok []
  | x :: l' => bind (f x) (fun y => bind (go l') (fun ys => Ok (y :: ys)))
  end.

(** Dictionary keys.  A [KList] is not a key that a Python dict can have (lists
    are unhashable), but one that the JSON decoder produces. *)
Inductive key :=
| KStr (s : list N) | KInt (z : Z) | KBool (b : bool) | KNone | KFloat (bits : N)
| KBytes (b : list N) | KTuple (ks : list key) | KList (ks : list key).

Fixpoint hashable (k : key) : bool :=
  match k with KTuple ks => forallb hashable ks | KList _ => false | _ => true end.

(** [default_factory]: None, a function that can be imported by module and name,
    or one that cannot (a lambda, a local function). *)
Inductive factory := FacNone | FacModule (id : nat) | FacLocal (id : nat).

(** Node type and context of a container: _pytree.py 442-600.  [K] is the type of keys. *)
Inductive kind (K : Type) :=
| NTuple | NList | NDict (keys : list K) | NOrdered (keys : list K)
| NDefault (f : factory) (keys : list K) | NDeque (maxlen : option nat) | NNamed (cls : nat).
Arguments NTuple {K}. Arguments NList {K}. Arguments NDict {K}. Arguments NOrdered {K}.
Arguments NDefault {K}. Arguments NDeque {K}. Arguments NNamed {K}.

(** A sample: leaves (whatever is not a container) and containers; the children of
    a mapping are its values in insertion order. *)
Inductive tree (L : Type) := Leaf (l : L) | Node (k : kind key) (ts : list (tree L)).
Arguments Leaf {L}. Arguments Node {L}.

(** _pytree.py 706-735, 845-862: [TreeSpec] and [LeafSpec]. *)
Inductive spec (K : Type) := SLeaf | SNode (k : kind K) (ss : list (spec K)).
Arguments SLeaf {K}. Arguments SNode {K}.

(** _pytree.py 724-727, 852-857: [num_leaves] and [num_nodes]. *)
Fixpoint num_leaves {K} (s : spec K) : nat :=
  match s with SLeaf => 1 | SNode _ ss => sum (map num_leaves ss) end.
Fixpoint num_nodes {K} (s : spec K) : nat :=
  match s with SLeaf => 1 | SNode _ ss => 1 + sum (map num_nodes ss) end.

(** _pytree.py 743-744. *)
Definition is_leaf {K} (s : spec K) : bool := (num_nodes s =? 1) && (num_leaves s =? 1).

(** _pytree.py 866-898: [_tree_flatten_helper] and [tree_flatten]. *)
Fixpoint flatten_onto {L} (t : tree L) (acc : list L) : list L * spec key :=
  match t with
  | Leaf l => (acc ++ [l], SLeaf)
  | Node k ts =>
      let r := (fix go ts acc :=
        match ts with
        | [] => (acc, [])
        | t :: ts' => let p := flatten_onto t acc in
                      let q := go ts' (fst p) in (fst q, snd p :: snd q)
        end) ts acc in
      (fst r, SNode k (snd r))
  end.
Definition tree_flatten {L} (t : tree L) : list L * spec key := flatten_onto t [].

(** The [unflatten_fn] of the containers (_pytree.py 459-615): a mapping is built
    from its keys, a deque keeps the last [maxlen] values.  Keys of one mapping
    are distinct. *)
Definition lastn {A} (n : nat) (l : list A) : list A := skipn (length l - n) l.
Definition rebuild {L} (k : kind key) (ts : list (tree L)) : res (tree L) :=
  match k with
  | NDict keys | NOrdered keys | NDefault _ keys =>
      if forallb hashable keys then Ok (Node k ts) else Err TypeError
  | NDeque (Some m) => Ok (Node k (lastn m ts))
  | _ => Ok (Node k ts)
  end.

Definition slice {A} (a b : nat) (l : list A) : list A := firstn (b - a) (skipn a l).

(** _pytree.py 819-843: [TreeSpec.unflatten]. *)
Fixpoint unflatten {L} (s : spec key) (leaves : list L) : res (tree L) :=
  if negb (length leaves =? num_leaves s) then Err ValueError
  else match s with
  | SLeaf => match leaves with l :: _ => Ok (Leaf l) | [] => Err IndexError end
  | SNode k ss =>
      bind ((fix go ss start :=
        match ss with
        | [] => Ok []
        | s :: ss' =>
            let stop := start + num_leaves s in
            bind (unflatten s (slice start stop leaves)) (fun t =>
            bind (go ss' stop) (fun ts => Ok (t :: ts)))
        end) ss 0) (rebuild k)
  end.

(** JSON values that keys turn into. *)
Inductive json := JStr (s : list N) | JInt (z : Z) | JBool (b : bool) | JNull | JFloat (bits : N) | JList (js : list json).

(** [json.dumps]: tuples and lists become arrays, bytes raise TypeError. *)
Fixpoint key_to_json (k : key) : res json :=
  match k with
  | KStr s => Ok (JStr s) | KInt z => Ok (JInt z) | KBool b => Ok (JBool b) | KNone => Ok JNull
  | KFloat x => Ok (JFloat x) | KBytes _ => Err TypeError
  | KTuple ks | KList ks => bind (mapM key_to_json ks) (fun js => Ok (JList js))
  end.
(** [json.loads]. *)
Fixpoint json_to_key (j : json) : key :=
  match j with
  | JStr s => KStr s | JInt z => KInt z | JBool b => KBool b | JNull => KNone | JFloat x => KFloat x
  | JList js => KList (map json_to_key js)
  end.

Section Json.
(** [_register_namedtuple] has been called for the class in the writing and in the
    reading process. *)
Context (registered_w registered_r : nat -> bool).

(** The context of a node: _pytree.py 496-530 (namedtuple), 557-590 (defaultdict),
    1376-1389 (the others).  NotImplementedError is a RuntimeError. *)
Definition kind_to_json (k : kind key) : res (kind json) :=
  match k with
  | NTuple => Ok NTuple
  | NList => Ok NList
  | NDict keys => bind (mapM key_to_json keys) (fun js => Ok (NDict js))
  | NOrdered keys => bind (mapM key_to_json keys) (fun js => Ok (NOrdered js))
  | NDefault f keys =>
      match f with
      | FacNone => Err GenericException
      | _ => bind (mapM key_to_json keys) (fun js => Ok (NDefault f js))
      end
  | NDeque m => Ok (NDeque m)
  | NNamed c => if registered_w c then Ok (NNamed c) else Err RuntimeError
  end.
Definition kind_of_json (k : kind json) : res (kind key) :=
  match k with
  | NTuple => Ok NTuple
  | NList => Ok NList
  | NDict js => Ok (NDict (map json_to_key js))
  | NOrdered js => Ok (NOrdered (map json_to_key js))
  | NDefault f js =>
      match f with FacModule _ => Ok (NDefault f (map json_to_key js)) | _ => Err GenericException end
  | NDeque m => Ok (NDeque m)
  | NNamed c => if registered_r c then Ok (NNamed c) else Err RuntimeError
  end.

(** _pytree.py 1361-1393: [_treespec_to_json]. *)
Fixpoint spec_to_json (s : spec key) : res (spec json) :=
  if is_leaf s then Ok SLeaf
  else match s with
  | SLeaf => Ok SLeaf
  | SNode k ss => bind (kind_to_json k) (fun k' => bind (mapM spec_to_json ss) (fun ss' => Ok (SNode k' ss')))
  end.

(** _pytree.py 1396-1422: [_json_to_treespec]. *)
Fixpoint spec_of_json (j : spec json) : res (spec key) :=
  match j with
  | SLeaf => Ok SLeaf
  | SNode k ss => bind (kind_of_json k) (fun k' => bind (mapM spec_of_json ss) (fun ss' => Ok (SNode k' ss')))
  end.
End Json.
