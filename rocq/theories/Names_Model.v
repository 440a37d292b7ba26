(** Model of file names: chunk names, their inverse, the numbers of the first new
    chunks in append mode, checkpoint names.
    Source: src/litdata/streaming/writer.py 298-301,
    src/litdata/processing/utilities.py 244-274, src/litdata/processing/functions.py 471-486. *)
From Coq Require Import String Ascii Decimal.
From Verif Require Import Base.
From Coq Require Import NArith.
Local Open Scope list_scope.
Local Open Scope nat_scope.

(** Python strings as lists of code points; literals. *)
Definition str := list N.
Fixpoint codes (s : string) : str :=
  match s with EmptyString => [] | String a s' => N_of_ascii a :: codes s' end.

(** [str(n)] for a natural number. *)
Fixpoint digits (u : Decimal.uint) : str :=
  match u with
  | Decimal.Nil => []
  | Decimal.D0 u => 48%N :: digits u | Decimal.D1 u => 49%N :: digits u
  | Decimal.D2 u => 50%N :: digits u | Decimal.D3 u => 51%N :: digits u
  | Decimal.D4 u => 52%N :: digits u | Decimal.D5 u => 53%N :: digits u
  | Decimal.D6 u => 54%N :: digits u | Decimal.D7 u => 55%N :: digits u
  | Decimal.D8 u => 56%N :: digits u | Decimal.D9 u => 57%N :: digits u
  end.
Definition dec (n : nat) : str := digits (Nat.to_uint n).

(** [int(s)].  Simplification: signs, white space and underscores, which [int]
    accepts, are refused like any other character. *)
Definition digit (c : N) : option (Decimal.uint -> Decimal.uint) :=
  nth_error [Decimal.D0; Decimal.D1; Decimal.D2; Decimal.D3; Decimal.D4;
             Decimal.D5; Decimal.D6; Decimal.D7; Decimal.D8; Decimal.D9]
            (if (c <? 48)%N then 10 else N.to_nat (c - 48)).
Fixpoint undigits (s : str) : option Decimal.uint :=
  match s with
  | [] => Some Decimal.Nil
  | c :: s' => match digit c, undigits s' with Some d, Some u => Some (d u) | _, _ => None end
  end.
Definition int_of (s : str) : res nat :=
  match s with
  | [] => Err ValueError
  | _ => match undigits s with Some u => Ok (Nat.of_uint u) | None => Err ValueError end
  end.

(** [s.split(c)]: never empty. *)
Fixpoint split (c : N) (s : str) : list str :=
  match s with
  | [] => [[]]
  | x :: s' =>
      if (x =? c)%N then [] :: split c s'
      else match split c s' with p :: ps => (x :: p) :: ps | [] => [[x]] end
  end.

(** [s[a:-b]]. *)
Definition cut (a b : nat) (s : str) : str := firstn (length s - a - b) (skipn a s).

Definition dash : N := 45%N.
Definition dot : N := 46%N.

(** writer.py 298-301: [get_chunk_filename]. *)
Definition chunk_name (compression : option str) (rank index : nat) : str :=
  let comp := match compression with None | Some [] => [] | Some c => dot :: c end in
  codes "chunk-" ++ dec rank ++ [dash] ++ dec index ++ comp ++ codes ".bin".

(** utilities.py 244-259: [extract_rank_and_index_from_filename]. *)
Definition parse_name (name : str) : res (nat * nat) :=
  match split dash (cut 6 4 name) with
  | [r; i] =>
      bind (int_of r) (fun rank =>
      bind (match split dot i with p :: _ => int_of p | [] => Err IndexError end) (fun index =>
      Ok (rank, index)))
  | _ => Err AssertionError
  end.

(** functions.py 474-486: the state dict of [optimize(mode="append")]: for each local
    worker the number of its first new chunk. *)
Fixpoint next_indexes (num_workers : nat) (names : list str) (state : list nat) : res (list nat) :=
  match names with
  | [] => Ok state
  | name :: names' =>
      bind (parse_name name) (fun p =>
      let (rank, index) := p in
      let state := if (rank <? num_workers) && (nth rank state 0 <=? index)
                   then upd rank (fun _ => index + 1) state else state in
      next_indexes num_workers names' state)
  end.
Definition append_state (num_workers : nat) (existing : list str) : res (list nat) :=
  next_indexes num_workers existing (repeat 0 num_workers).

(** data_processor.py 600-612: the rank in the names of worker [w] of node [node];
    data_processor.py 1296: it starts with [state_dict[w]].  The [j]-th chunk it
    writes. *)
Definition new_name (compression : option str) (state : list nat) (num_workers node w j : nat) : str :=
  chunk_name compression (node * num_workers + w) (nth w state 0 + j).

(** str.__contains__. *)
Fixpoint starts (p s : str) : bool :=
  match p, s with
  | [], _ => true
  | a :: p', b :: s' => (a =? b)%N && starts p' s'
  | _, _ => false
  end.
Fixpoint contains (p s : str) : bool :=
  starts p s || match s with [] => false | _ :: s' => contains p s' end.

(** utilities.py 262-274: [remove_uuid_from_filename]. *)
Definition remove_uuid (path : str) : str :=
  if contains (codes ".checkpoints") path then firstn (length path - 38) path ++ codes ".json" else path.

(** writer.py 555: the local name of a checkpoint; [uuid] is a string of 32 hexadecimal digits.
    data_processor.py 1454: the name under which it is looked for. *)
Definition checkpoint_name (rank : nat) (uuid : str) : str :=
  codes "checkpoint-" ++ dec rank ++ [dash] ++ uuid ++ codes ".json".
Definition checkpoint_read (worker : nat) : str := codes "checkpoint-" ++ dec worker ++ codes ".json".
