(** The chunks on the disk of a node that its workers share during an epoch: who fetches, gives back and deletes them.
    Source: src/litdata/streaming/config.py 103-156, src/litdata/streaming/reader.py 132-158, 170-188, 217-244, 416-455,
    src/litdata/streaming/dataset.py 296-326. *)
From Verif Require Import Base Assign_Model Skip_Model.

(** The chunk files, their counters (no file: 0), and the chunks downloaded so far, in order.  Simplification: each of the steps
    below is one step (the races inside them are in Locks_Model.v), and counters are never lost. *)
Record node := Node { n_file : nat -> bool; n_count : nat -> nat; n_downloads : list nat }.
Definition n_init : node := Node (fun _ => false) (fun _ => 0) [].
Definition put {A} (f : nat -> A) (c : nat) (v : A) : nat -> A := fun x => if x =? c then v else f x.

(** config.py 103, 111-114: [can_delete]. *)
Definition can_delete (told : option (list nat)) (c : nat) : bool :=
  match told with None => true | Some l => negb (existsb (Nat.eqb c) l) end.

(** dataset.py 296-326: what a worker is told when it begins an epoch; [resumed]: whether a state was loaded (298-300). *)
Definition told (resumed : bool) (env : denv) (nw wrank B : nat) (a : list (list nat) * list (list interval)) : res (option (list nat)) :=
  if resumed then Ok None
  else bind (worker_skip env nw wrank B a) (fun l => Ok (match l with [] => None | _ => Some l end)).

(** What the prefetching thread and the reader of a worker do with a chunk. *)
Inductive act := Get (c : nat) | Give (c : nat) | Remove (c : nat).

(** config.py 124-146: [download_chunk_from_index]. *)
Definition get (c : nat) (s : node) : node :=
  Node (put (n_file s) c true) (put (n_count s) c (S (n_count s c)))
       (if n_file s c then n_downloads s else n_downloads s ++ [c]).
(** reader.py 103-130: [_decrement_local_lock]. *)
Definition give (c : nat) (s : node) : node := Node (n_file s) (put (n_count s) c (n_count s c - 1)) (n_downloads s).
(** reader.py 132-158: [_apply_delete].  What [can_delete] says is only printed (146, 151). *)
Definition apply_delete (told : option (list nat)) (c : nat) (s : node) : node :=
  let printed := can_delete told c in
  if 0 <? n_count s c then s else Node (put (n_file s) c false) (n_count s) (n_downloads s).

Definition step (told : option (list nat)) (a : act) (s : node) : node :=
  match a with Get c => get c s | Give c => give c s | Remove c => apply_delete told c s end.
Fixpoint run (tell : nat -> option (list nat)) (events : list (nat * act)) (s : node) : node :=
  match events with [] => s | (w, a) :: events' => run tell events' (step (tell w) a s) end.

(** reader.py 217-244 and 416-455: what a worker does in an epoch with the chunks [cs] if the disk is full all the time
    (170-196): [p] chunks are fetched ahead ([max_pre_download]), and each chunk is given back and removed after its last sample,
    before the next one is fetched. *)
Fixpoint consume (ahead cs : list nat) : list act :=
  match cs with
  | [] => []
  | c :: cs' => Give c :: Remove c :: match ahead with [] => consume [] cs' | x :: ahead' => Get x :: consume ahead' cs' end
  end.
Definition program (p : nat) (cs : list nat) : list act := map Get (firstn p cs) ++ consume (skipn p cs) cs.
