(** Model of a worker of optimize/map with its downloaders and remover, and of the loop
    of the parent process.
    Source: src/litdata/processing/data_processor.py 123-205 (downloaders, remover),
    418-431 (FakeQueue), 540-598 ([_loop]), 646-720 (setup), 1195-1243 (the parent).

    Not modelled: the stop queue (filled by SIGINT only), waiting for free disk space. *)
From Verif Require Import Base.

(** ** Worker with downloaders
    A file is represented by a number, which stands for its copy in the cache directory. *)
Inductive status := Running | Ended | Failed.
Record wk := Wk {
  k_todo : nat -> list (option nat);             (* to_download_queues *)
  k_busy : nat -> option (nat * list nat);       (* what each downloader is copying *)
  k_dead : nat;                                  (* downloaders that died of an exception *)
  k_ready : list (option nat);                   (* ready_to_process_queue *)
  k_finished : nat;                              (* num_downloader_finished *)
  k_done : list nat;                             (* inputs passed to the user's function, in order *)
  k_remove : list (list nat);                    (* remove_queue *)
  k_cache : nat -> bool;                         (* files in the cache directory *)
  k_status : status
}.

Definition set {A} (f : nat -> A) (k : nat) (v : A) : nat -> A := fun n => if n =? k then v else f n.

(** data_processor.py 711-715: the queues of the [m] downloaders of a worker with [n] inputs. *)
Fixpoint fill (m : nat) (indexes : list nat) (todo : nat -> list (option nat)) : nat -> list (option nat) :=
  match indexes with
  | [] => todo
  | i :: indexes' => fill m indexes' (set todo (i mod m) (todo (i mod m) ++ [Some i]))
  end.
Definition queues (m n : nat) : nat -> list (option nat) :=
  let filled := fill m (seq 0 n) (fun _ => []) in
  fun d => if d <? m then filled d ++ [None] else filled d.

(** The state after [_setup]; the cache directory has been emptied (1330-1345). *)
Definition setup (m n : nat) : wk := Wk (queues m n) (fun _ => None) 0 [] 0 [] [] (fun _ => false) Running.

Section Steps.
(** [paths i]: the files of input [i]; [broken]: copying this file raises; [bad]: the
    user's function raises on this input; [remove]: delete_cached_files. *)
Context (m : nat) (paths : nat -> list nat) (broken bad : nat -> bool) (remove : bool).

(** The user's function opens the files of its input. *)
Definition succeeds (s : wk) (i : nat) : bool := forallb (k_cache s) (paths i) && negb (bad i).

(** One step of one process.  Simplifications: an entry arrives in the queue of the
    worker when it is put; entries of one downloader keep their order, those of
    different downloaders interleave arbitrarily. *)
Inductive step (s : wk) : wk -> Prop :=
(* 131-148 *)
| take_cached d i q : d < m -> k_todo s d = Some i :: q -> k_busy s d = None -> forallb (k_cache s) (paths i) = true ->
    step s (Wk (set (k_todo s) d q) (k_busy s) (k_dead s) (k_ready s ++ [Some i]) (k_finished s) (k_done s) (k_remove s) (k_cache s) (k_status s))
| take d i q : d < m -> k_todo s d = Some i :: q -> k_busy s d = None -> forallb (k_cache s) (paths i) = false ->
    step s (Wk (set (k_todo s) d q) (set (k_busy s) d (Some (i, paths i))) (k_dead s) (k_ready s) (k_finished s) (k_done s) (k_remove s) (k_cache s) (k_status s))
(* 150-175 *)
| copy d i p ps : d < m -> k_busy s d = Some (i, p :: ps) -> broken p = false ->
    step s (Wk (k_todo s) (set (k_busy s) d (Some (i, ps))) (k_dead s) (k_ready s) (k_finished s) (k_done s) (k_remove s) (set (k_cache s) p true) (k_status s))
| copy_raises d i p ps : d < m -> k_busy s d = Some (i, p :: ps) -> broken p = true ->
    step s (Wk (set (k_todo s) d []) (set (k_busy s) d None) (S (k_dead s)) (k_ready s) (k_finished s) (k_done s) (k_remove s) (k_cache s) (k_status s))
(* 178 *)
| put d i : d < m -> k_busy s d = Some (i, []) ->
    step s (Wk (k_todo s) (set (k_busy s) d None) (k_dead s) (k_ready s ++ [Some i]) (k_finished s) (k_done s) (k_remove s) (k_cache s) (k_status s))
(* 135-138 *)
| leave d q : d < m -> k_todo s d = None :: q -> k_busy s d = None ->
    step s (Wk (set (k_todo s) d []) (k_busy s) (k_dead s) (k_ready s ++ [None]) (k_finished s) (k_done s) (k_remove s) (k_cache s) (k_status s))
(* 577-592 *)
| work i r : k_status s = Running -> k_ready s = Some i :: r -> succeeds s i = true ->
    step s (Wk (k_todo s) (k_busy s) (k_dead s) r (k_finished s) (k_done s ++ [i]) (if remove then k_remove s ++ [paths i] else k_remove s) (k_cache s) Running)
| work_raises i r : k_status s = Running -> k_ready s = Some i :: r -> succeeds s i = false ->
    step s (Wk (k_todo s) (k_busy s) (k_dead s) r (k_finished s) (k_done s ++ [i]) (k_remove s) (k_cache s) Failed)
(* 550-576 *)
| count r : k_status s = Running -> k_ready s = None :: r ->
    step s (Wk (k_todo s) (k_busy s) (k_dead s) r (S (k_finished s)) (k_done s) (k_remove s) (k_cache s)
      (if S (k_finished s) =? m then Ended else Running))
(* 184-205 *)
| unlink p ps r : k_remove s = (p :: ps) :: r ->
    step s (Wk (k_todo s) (k_busy s) (k_dead s) (k_ready s) (k_finished s) (k_done s) (ps :: r) (set (k_cache s) p false) (k_status s))
| unlinked r : k_remove s = [] :: r ->
    step s (Wk (k_todo s) (k_busy s) (k_dead s) (k_ready s) (k_finished s) (k_done s) r (k_cache s) (k_status s)).

(** Executions: any number of steps of the processes in any order. *)
Inductive steps (s : wk) : nat -> wk -> Prop :=
| steps_0 : steps s 0 s
| steps_S k s' s'' : steps s k s' -> step s' s'' -> steps s (S k) s''.
End Steps.

(** ** Worker without downloaders
    data_processor.py 418-431, 540-598, 646-654: the queue is a list; empty it gives None for ever. *)
Fixpoint fake_loop (fuel m : nat) (items : list nat) (finished : nat) (processed : list nat) : res (list nat) :=
  match fuel with
  | O => Err OutOfFuel
  | S f =>
      match items with
      | i :: items' => fake_loop f m items' finished (processed ++ [i])
      | [] => if S finished =? m then Ok processed else fake_loop f m [] (S finished) processed
      end
  end.

(** ** The parent
    data_processor.py 1195-1243: what it reads from the queues, in the order it reads
    it.  [Waiting]: it needs more messages.  Simplification: of an iteration that finds
    both queues empty nothing remains. *)
Inductive message := Progress (worker counter : nat) | Error.
Inductive verdict := Returned | Raised | Waiting.
Fixpoint parent (workers num_items : nat) (tracker : nat -> nat) (ms : list message) : verdict :=
  match ms with
  | [] => Waiting
  | Error :: _ => Raised
  | Progress w c :: ms' =>
      let tracker' := set tracker w c in
      if sum (map tracker' (seq 0 workers)) =? num_items then Returned
      else parent workers num_items tracker' ms'
  end.

(** data_processor.py 574, 586-588: what a worker with [n] inputs may send.  A count is
    sent from time to time, but not for the last two inputs; the last message is the
    count at the end (if it ends). *)
Inductive sends (n : nat) : nat -> list nat -> Prop :=
| sends_nothing c : sends n c []
| sends_progress c c' l : c < c' -> c' < n - 2 -> sends n c' l -> sends n c (c' :: l)
| sends_end c : sends n c [n].

(** The counts of worker [w] among the messages. *)
Definition counts (w : nat) (ms : list message) : list nat :=
  flat_map (fun e => match e with Progress w' c => if w' =? w then [c] else [] | Error => [] end) ms.
