(** Model of the end of [optimize] on several nodes, with the order in which the steps of the nodes happen.
    Source: src/litdata/processing/data_processor.py 98-105, 904-909 and 939-981. *)
From Coq Require Import String NArith.
From Verif Require Import Base Names_Model Merge_Model.
Local Open Scope list_scope.
Local Open Scope nat_scope.

Section Nodes.
Context {chunk config : Type} (same : config -> config -> bool).
Notation file := (str * index chunk config)%type.

(** The index files in the output directory, which all nodes see. *)
Definition store := str -> option (index chunk config).
Definition put_file (st : store) (f : file) : store := fun x => if same_name x (fst f) then Some (snd f) else st x.
(** A file of a node's own cache directory. *)
Definition find_file (name : str) (cache : list file) : option file := find (fun f => same_name (fst f) name) cache.

(** Where a node is: before the merge of its own files (907); before its index is stored (951-958); the last node before
    it fetches the index of node [k] (968-976; after the others: before the second merge, 978-980); at the end.
    [cache] are the index files in the cache directory of the node. *)
Inductive place := Begin | Store (cache : list file) | Fetch (k : nat) (cache : list file) | Done | Failed (e : exn).

(** [cloud]: the output directory is a bucket, otherwise a directory that exists; [dirs]: the index files of the workers
    of each node (at least two nodes); [existing]: the index that [mode="append"] found.  One step of node [n].
    Simplification: each step is atomic; a look that finds nothing is a step without effect. *)
Definition step (cloud : bool) (dirs : list (list file)) (existing : option (index chunk config)) (s : store * (nat -> place)) (n : nat)
  : store * (nat -> place) :=
  let '(st, at_) := s in
  let last := length dirs - 1 in
  let go p := fun m => if m =? n then p else at_ m in
  match nth_error dirs n with
  | None => s
  | Some files =>
      match at_ n with
      | Begin => match merge_no_wait same files (Some n) existing with
                 | Ok cache => (st, go (Store cache))
                 | Err e => (st, go (Failed e))
                 end
      | Store cache => match find_file (node_index n) cache with
                       | None => (st, go (Failed FileNotFoundError))
                       | Some f => (put_file st f, go (if n =? last then Fetch 0 cache else Done))
                       end
      | Fetch k cache =>
          if k <? last then
            match st (node_index k) with
            | Some i => (st, go (Fetch (S k) (cache ++ [(node_index k, i)])))
            | None => if cloud then s else (st, go (Failed FileNotFoundError))
            end
          else match merge_no_wait same cache None None with
               | Err e => (st, go (Failed e))
               | Ok cache' => match find_file index_json cache' with
                              | None => (st, go (Failed FileNotFoundError))
                              | Some f => (put_file st f, go Done)
                              end
               end
      | Done | Failed _ => s
      end
  end.
(** A run: [schedule] says which node does the next step. *)
Definition run (cloud : bool) (dirs : list (list file)) (existing : option (index chunk config)) (st : store) (schedule : list nat)
  : store * (nat -> place) :=
  fold_left (step cloud dirs existing) schedule (st, fun _ => Begin).
End Nodes.
Arguments store : clear implicits.
Arguments place : clear implicits.
