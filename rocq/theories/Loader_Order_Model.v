(** Model of the order in which a StreamingDataLoader collects batches.
    Source: src/litdata/streaming/dataloader.py 458-495, 632-667, 679-758, and
    the behaviour of torch's _MultiProcessingDataLoaderIter that it inherits:
    tasks are sent to the workers in cyclic order, results are returned in the
    order of the tasks, and tasks sent to an exhausted worker return nothing. *)
From Verif Require Import Base.

(** Serve a list of tasks (worker numbers); [qs] are the batches each worker
    still has. *)
Fixpoint serve {A} (tasks : list nat) (qs : list (list A)) : list (nat * A) * list (list A) :=
  match tasks with
  | [] => ([], qs)
  | w :: ts =>
      match nth_error qs w with
      | Some (b :: _) =>
          let (out, qs') := serve ts (upd w (@tl A) qs) in ((w, b) :: out, qs')
      | _ => serve ts qs
      end
  end.

(** The worker of the [j]-th task, dataloader.py 480-495.  [latest] is
    [_latest_worker_idx] when the iterator is created; [restore] is the loader's
    flag.  [_indexes] = range(latest, nw) if latest > 0 else [] (lines 461-465). *)
Definition task_worker (nw latest : nat) (restore : bool) (j : nat) : nat :=
  let indexes := if 0 <? latest then seq latest (nw - latest) else [] in
  if restore && (j <? length indexes) then nth j indexes 0
  else (j - (if restore then length indexes else 0)) mod nw.

Definition tasks (nw latest : nat) (restore : bool) (n : nat) : list nat :=
  map (task_worker nw latest restore) (seq 0 n).

(** The loader's bookkeeping, dataloader.py 598-606.  [l_cycle] is the number of
    elements already drawn from the [itertools.cycle] over the workers. *)
Record lstate := LS {
  l_epoch : nat; l_samples : nat; l_cycle : nat; l_latest : nat; l_restore : bool }.

Definition l_init : lstate := LS 0 0 0 0 false.

(** dataloader.py 632-641: start of [__iter__]. *)
Definition l_iter (s : lstate) : lstate :=
  if l_restore s then s else LS (l_epoch s + 1) 0 0 0 false.

(** dataloader.py 647-650: one batch is handed to the user; [nw] workers
    (1 when num_workers = 0). *)
Definition l_batch (nw B : nat) (s : lstate) : lstate :=
  LS (l_epoch s) (l_samples s + B) (l_cycle s + 1) (l_cycle s mod nw) (l_restore s).

(** dataloader.py 664: the epoch is over. *)
Definition l_end (s : lstate) : lstate :=
  LS (l_epoch s) (l_samples s) (l_cycle s) (l_latest s) false.

(** dataloader.py 679-690: [state_dict] of a loader over a StreamingDataset (the
    dataset part is [sdict] in Iter_Model.v). *)
Record lsaved := LSaved { s_epoch : nat; s_samples : nat; s_latest : nat }.
Definition l_save (s : lstate) : lsaved := LSaved (l_epoch s) (l_samples s) (l_latest s).

(** dataloader.py 705-756: [load_state_dict]; [len] is [len(self.dataset)].  [s]
    is the loader before: its cycle is continued, not restarted (line 721 calls
    [iter] on a cycle object, which returns the same object). *)
Definition l_load (len : nat) (v : lsaved) (s : lstate) : lstate :=
  LS (s_epoch v) (s_samples v) (l_cycle s + (s_latest v + 1)) (s_latest v + 1)
     (if (0 <? s_samples v) && (s_samples v <? len) then true else l_restore s).

Fixpoint l_batches (nw B n : nat) (s : lstate) : lstate :=
  match n with 0 => s | S n' => l_batches nw B n' (l_batch nw B s) end.
