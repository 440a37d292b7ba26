(** Vocabulary for the item loaders. *)
From Verif Require Import Base Format_Model Loader_Model.

(** Row groups of one size, except that the last one may be shorter. *)
Definition uniform {row} (groups : list (list row)) : Prop :=
  exists n full last, groups = full ++ [last] /\ Forall (fun g => length g = n) full /\ 1 <= length last <= n.

(** The [j]-th run of [block] tokens in the samples of a chunk. *)
Definition token_block (items : list bytes) (itemsize block j : nat) : bytes :=
  firstn (itemsize * block) (skipn (itemsize * block * j) (concat items)).

(** Number of tokens of a chunk whose samples have [ns] tokens. *)
Definition tokens (ns : list nat) : nat := fold_right plus 0 ns.
(** The samples of a chunk have [ns] tokens. *)
Definition have_tokens (itemsize : nat) (items : list bytes) (ns : list nat) : Prop := map (@length N) items = map (fun n => itemsize * n) ns.

(** Files appear complete, and samples asked for exist. *)
Definition op_ok (file : nat -> bytes) (num_blocks : nat -> nat) (o : top) : Prop :=
  match o with
  | TArrive c data => data = file c
  | TLoad c index begin => begin <= index /\ index - begin < num_blocks c
  | _ => True
  end.
(** The outcome of an operation: a sample asked for is the right block, or the loader is still waiting. *)
Definition out_ok (want : nat -> nat -> bytes) (o : top) (out : tout) : Prop :=
  match o with
  | TLoad c index begin => out = TWaits \/ out = TBlock (want c (index - begin))
  | _ => out = TDone
  end.

(** [k] times a sample of chunk [c]. *)
Fixpoint loads (c begin k : nat) : list top := match k with 0 => [] | S k' => TLoad c begin begin :: loads c begin k' end.
