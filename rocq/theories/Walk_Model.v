(** Model of [litdata.walk].
    Source: src/litdata/processing/functions.py 526-574; [concurrent.futures.as_completed].

    Simplifications: the directories do not change during the walk, so that a listing has the same result whenever
    a thread makes it.  In which order the threads finish is left open: [as_completed] may return the
    listings that it was given in any order.  The message outside of a studio is left out. *)
From Coq Require Import NArith.
From Verif Require Import Base Names_Model Paths_Model.
Local Open Scope list_scope.
Local Open Scope nat_scope.

(** [os.listdir] and [os.path.isfile]. *)
Record files := Files { listdir : str -> res (list str); isfile : str -> bool }.

(** What is yielded: a folder, the folders in it and the files in it. *)
Definition visit := (str * list str * list str)%type.

(** [self.folders], [self.futures] (by their folders), what [as_completed] has not returned yet, and what has
    been yielded. *)
Record wstate := WState { w_folders : list str; w_futures : list str; w_batch : list str; w_seen : list visit }.

Section Walk.
Context (fs : files) (max_workers : nat).

(** functions.py 538-540: [walk(folder)]. *)
Definition created (folder : str) : wstate := WState [folder] [] [] [].

(** functions.py 548-551: all folders are submitted. *)
Definition started (s : wstate) : wstate := WState [] (w_futures s ++ w_folders s) [] (w_seen s).

(** functions.py 569-572: [while len(self.folders) and len(self.futures) <= self.max_workers * 2]. *)
Fixpoint refill (folders futures : list str) : list str * list str :=
  match folders with
  | [] => ([], futures)
  | f :: folders' => if length futures <=? max_workers * 2 then refill folders' (futures ++ [f]) else (folders, futures)
  end.

(** functions.py 558: [[f for f in self.futures if f != future]]: the futures are different objects, so that one is left out
    even if two of them list the same folder. *)
Fixpoint remove_one (f : str) (l : list str) : list str :=
  match l with [] => [] | x :: l' => if list_eq_dec N.eq_dec x f then l' else x :: remove_one f l' end.

(** functions.py 555-567: the result of a listing is divided into files and folders, up to [yield]. *)
Definition arrive (s : wstate) (f : str) : res wstate :=
  bind (listdir fs f) (fun names =>
  let folders := filter (fun n => negb (isfile fs (join f n))) names in
  let filenames := filter (fun n => isfile fs (join f n)) names in
  Ok (WState (w_folders s ++ map (join f) folders) (remove_one f (w_futures s)) (remove_one f (w_batch s))
        (w_seen s ++ [(f, folders, filenames)]))).

(** After [yield]: 569-572. *)
Definition resume (s : wstate) : wstate :=
  let '(folders, futures) := refill (w_folders s) (w_futures s) in WState folders futures (w_batch s) (w_seen s).

(** functions.py 553-554: the next listing is asked for; which one is open.  [Raised]: its exception is raised. *)
Inductive outcome := Running (s : wstate) | Raised (e : exn).
Inductive next : wstate -> outcome -> Prop :=
| Next_batch s o : w_batch s = [] -> w_futures s <> [] ->
    next (WState (w_folders s) (w_futures s) (w_futures s) (w_seen s)) o -> next s o
| Next_some s f s' : In f (w_batch s) -> arrive s f = Ok s' -> next s (Running s')
| Next_raise s f e : In f (w_batch s) -> arrive s f = Err e -> next s (Raised e).

(** A caller that asks for [n] results.  At the end ([w_batch] and [w_futures] empty) nothing more is yielded. *)
Inductive run : wstate -> nat -> outcome -> Prop :=
| Run_none s : run s 0 (Running s)
| Run_some s s1 n o : next s (Running s1) -> run (resume s1) n o -> run s (S n) o
| Run_last s s1 : next s (Running s1) -> run s 1 (Running s1)
| Run_raise s e : next s (Raised e) -> run s 1 (Raised e).

(** Several [for] loops over the same object, each one left by the caller after some results (or at the end). *)
Inductive loops : wstate -> list nat -> outcome -> Prop :=
| Loops_none s : loops s [] (Running s)
| Loops_some s n ns s1 o : run (started s) n (Running s1) -> loops (WState (w_folders s1) (w_futures s1) [] (w_seen s1)) ns o -> loops s (n :: ns) o
| Loops_raise s n ns e : run (started s) n (Raised e) -> loops s (n :: ns) (Raised e).

Definition finished (s : wstate) : Prop := w_folders s = [] /\ w_futures s = [].

End Walk.
