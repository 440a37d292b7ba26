(** Model of repeated use of one StreamingDataLoader over a StreamingDataset:
    loops over it that run to the end or are left early, and states saved and
    loaded in between.
    Source: src/litdata/streaming/dataloader.py 598-667, 679-756,
    src/litdata/streaming/dataset.py 202-211, 269-336, 414-510, and torch's
    DataLoader: with [persistent_workers] the worker processes and their copies
    of the dataset are kept for the next loop, otherwise every loop starts new
    processes with a copy of the dataset of the main process; with
    [num_workers=0] the dataset of the main process is iterated itself.

    Simplifications: a worker that raises makes the whole loop raise (in the
    code the loop raises when it reaches that worker's batch); the checks of
    [_validate_state_dict] are modelled in Validate_Model.v. *)
From Verif Require Import Base Assign_Model Iter_Model Loader_Order_Model Config_Model.

Inductive mode := InProcess | FreshWorkers | PersistentWorkers.

(** The arguments of the dataset and the dataloader.  [k_nw] is the number of
    workers (1 with [InProcess]); [k_prefetch] is torch's [prefetch_factor]. *)
Record pcfg := Cfg {
  k_rng : rng_t; k_shuffle : bool; k_env : denv; k_seed : nat; k_drop : bool;
  k_nw : nat; k_B : nat; k_ivs : list interval; k_mode : mode; k_prefetch : nat }.

(** The loader's bookkeeping; [current_epoch] and [_state_dict] of the dataset
    in the main process; the same of the copies kept by persistent workers. *)
Record pstate := PS {
  p_loader : lstate; p_epoch : nat; p_saved : option sdict;
  p_live : option (list (nat * option sdict)) }.

(** dataloader.py 606-620, dataset.py 181-186. *)
Definition p_init : pstate := PS l_init 1 None None.

(** dataset.py 248-255, 285-296: the shuffler and the distribution of an epoch. *)
Definition shuf_of (k : pcfg) : shuf_t := shuffle_call (k_rng k) (k_shuffle k) (k_seed k).
Definition assign_of (k : pcfg) (epoch : nat) :=
  shuffle_assign (k_rng k) (k_shuffle k) (k_env k) (k_seed k) (k_drop k) (k_nw k) (k_B k) epoch (k_ivs k).

(** dataset.py 269-336: [__iter__] of a copy of the dataset in worker [w]. *)
Definition w_iter (k : pcfg) (w : nat) (d : nat * option sdict) : res dstate :=
  match snd d with
  | None => bind (assign_of k (fst d)) (fun a => iter_fresh (k_env k) (k_nw k) w (fst d) a)
  | Some st => bind (assign_of k (sd_epoch st)) (fun a => resume (shuf_of k) (k_env k) (k_nw k) w st a)
  end.

(** Calls of [__next__] until StopIteration; [fuel] bounds their number. *)
Fixpoint drain (shuf : shuf_t) (fuel : nat) (s : dstate) : res (list (nat * nat) * dstate) :=
  match fuel with
  | 0 => Err OutOfFuel
  | S f =>
      match next shuf s with
      | (Stop, s') => Ok ([], s')
      | (Raise e, _) => Err e
      | (Yield r, s1) =>
          bind (drain shuf f s1) (fun rest => Ok ((rq_chunk r, rq_index r) :: fst rest, snd rest))
      end
  end.

(** What a worker yields in one loop (chunk and position of every sample), and
    its dataset's [current_epoch] afterwards (dataset.py 420 and 430). *)
Definition w_run (k : pcfg) (w : nat) (d : nat * option sdict) : res (list (nat * nat) * nat) :=
  bind (w_iter k w d) (fun s =>
  bind (drain (shuf_of k) (S (d_stop s)) s) (fun r => Ok (fst r, d_epoch (snd r)))).

(** A loop over the dataloader: to the end, or left after the results of the
    first [n] tasks. *)
Inductive visit := Whole | Part (n : nat).

(** dataloader.py 632-642: the start of [__iter__]; dataset.py 202-211
    ([set_epoch]) and 508-510 ([reset_state_dict]). *)
Definition p_begin (st : pstate) : pstate :=
  let l := l_iter (p_loader st) in
  let saved := if l_restore (p_loader st) then p_saved st else None in
  PS l (match saved with None => l_epoch l | Some _ => p_epoch st end) saved (p_live st).

(** The copies of the dataset that the workers iterate. *)
Definition copies (k : pcfg) (st : pstate) : list (nat * option sdict) :=
  match k_mode k, p_live st with
  | PersistentWorkers, Some ws => ws
  | _, _ => repeat (p_epoch st, p_saved st) (k_nw k)
  end.

(** dataloader.py 459-465 and 480-495: the workers asked.  [_indexes] is
    computed when the iterator is created, which persistent workers do once. *)
Definition order (k : pcfg) (st : pstate) (n : nat) : list nat :=
  match k_mode k, p_live st with
  | PersistentWorkers, Some _ => tasks (k_nw k) 0 false n
  | _, _ => tasks (k_nw k) (l_latest (p_loader st)) (l_restore (p_loader st)) n
  end.

(** The state of a worker's copy after the loop.  The dataset raised
    StopIteration if it was asked for more samples than it had. *)
Definition after_worker (d : nat * option sdict) (run : list (nat * nat) * nat) (ended : bool) :
  nat * option sdict :=
  if ended then (snd run, None)
  else (match snd d with Some st => sd_epoch st | None => fst d end, snd d).

(** One loop: the batches delivered (with the worker of each) and the state
    afterwards.  All tasks sent to a worker are carried out, also those whose
    results are never received: [prefetch_factor] tasks per worker are sent at
    the start and one more for every result received.  (Once a worker has
    reported its end torch sends the tasks to the others only; the number of
    tasks is exact as long as none has.)  A complete loop asks until every
    worker has reported its end. *)
Definition p_visit (k : pcfg) (v : visit) (st : pstate) : res (list (nat * list (nat * nat)) * pstate) :=
  let st1 := p_begin st in
  let ws := copies k st1 in
  bind (map_res (fun wd => w_run k (fst wd) (snd wd)) (combine (seq 0 (k_nw k)) ws)) (fun runs =>
  let qs := map (fun r => pieces (k_B k) (fst r)) runs in
  let n := match v with Whole => k_nw k * (2 + length (concat qs)) | Part n => n end in
  let out := fst (serve (order k st1 n) qs) in
  let sent := order k st1 (n + match k_mode k with InProcess => 0 | _ => k_prefetch k * k_nw k end) in
  let ended w r := match v with
                   | Whole => true
                   | Part _ => length (fst r) <? length (filter (fun x => x =? w) sent) * k_B k
                   end in
  let after := map (fun wdr => after_worker (snd (fst wdr)) (snd wdr) (ended (fst (fst wdr)) (snd wdr)))
                   (combine (combine (seq 0 (k_nw k)) ws) runs) in
  let l := l_batches (k_nw k) (k_B k) (length out) (p_loader st1) in
  let l := match v with Whole => l_end l | Part _ => l end in
  Ok (out, match k_mode k with
           | InProcess => match after with
                          | d :: _ => PS l (fst d) (snd d) None
                          | [] => PS l (p_epoch st1) (p_saved st1) None
                          end
           | FreshWorkers => PS l (p_epoch st1) (p_saved st1) None
           | PersistentWorkers => PS l (p_epoch st1) (p_saved st1) (Some after)
           end)).

(** A history of loops. *)
Fixpoint p_visits (k : pcfg) (vs : list visit) (st : pstate) :
  res (list (list (nat * list (nat * nat))) * pstate) :=
  match vs with
  | [] => Ok ([], st)
  | v :: vs' =>
      bind (p_visit k v st) (fun r =>
      bind (p_visits k vs' (snd r)) (fun rs => Ok (fst r :: fst rs, snd rs)))
  end.

(** What [state_dict] returns for the dataset: a new dict, or the dict that was
    loaded before, which the dataset keeps and updates. *)
Inductive handle := Copy (s : sdict) | Held.

(** dataloader.py 679-690, dataset.py 475-500: [state_dict].  With a loaded
    state the dict that is returned is the loaded one, changed in place. *)
Definition p_save (k : pcfg) (st : pstate) : (lsaved * handle) * pstate :=
  let l := p_loader st in
  match p_saved st with
  | None => ((l_save l, Copy (SD (l_samples l) (k_nw k) (k_B k) (p_epoch st))), st)
  | Some s =>
      ((l_save l, Held),
       PS l (p_epoch st) (Some (SD (l_samples l) (sd_workers s) (sd_batch s) (sd_epoch s))) (p_live st))
  end.

(** The dataset part of a state that was returned before, read now.  (While the
    loaded state is in use; once it is dropped the dict keeps its last value,
    which is not modelled.) *)
Definition h_read (h : handle) (st : pstate) : option sdict :=
  match h with Copy s => Some s | Held => p_saved st end.

(** dataloader.py 705-756 and dataset.py 502-506: [load_state_dict]; [len] is
    [len(dataset)]. *)
Definition p_load (len : nat) (v : lsaved) (d : sdict) (st : pstate) : pstate :=
  PS (l_load len v (p_loader st)) (p_epoch st) (Some d) (p_live st).
