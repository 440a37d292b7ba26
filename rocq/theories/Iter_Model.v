(** Model of iterating and resuming a StreamingDataset in one dataloader worker.
    Source: src/litdata/streaming/dataset.py.

    Simplifications: reading a sample ([__getitem__] -> cache) is represented by
    the request handed to the reader (the [ChunkedIndex]); logging, timing and
    the skip-deletion table (modelled in Skip_Model.v) are left out. *)
From Verif Require Import Base Assign_Model.

(** streaming/sampler.py 23-48: [ChunkedIndex]. *)
Record request := Req {
  rq_index : nat; rq_chunk : nat; rq_download : option (list nat); rq_last : bool }.

(** The fields of StreamingDataset used while iterating (dataset.py 166-194).
    [d_restored] says whether [_state_dict] is set. *)
Record dstate := DS {
  d_chunks : list nat; d_ivs : list interval; d_upcoming : list nat;
  d_next : nat; d_num_chunks : option nat; d_global : nat; d_stop : nat;
  d_triggered : bool; d_epoch : nat; d_restored : bool; d_in_chunk : nat }.

Inductive nout := Yield (r : request) | Stop | Raise (e : exn).

(** The shuffler's [__call__]: array, num_chunks, epoch, chunk_index. *)
Definition shuf_t := list nat -> nat -> nat -> nat -> list nat.

Definition stop_epoch (s : dstate) : dstate :=
  DS (d_chunks s) (d_ivs s) (d_upcoming s) (d_next s) (d_num_chunks s) (d_global s) (d_stop s)
     (d_triggered s) (d_epoch s + 1) false (d_in_chunk s).

(** dataset.py 426-451: refill [upcoming_indexes] when it is empty.
    [Ok None] is StopIteration, [Ok (Some s')] continues with [s']. *)
Definition refill (shuf : shuf_t) (s : dstate) : res (option dstate) :=
  if match d_num_chunks s with Some n => n <=? d_next s | None => false end
  then Ok None
  else match nth_error (d_ivs s) (d_next s) with
       | None => Err IndexError
       | Some iv =>
           match d_num_chunks s with
           | None => Err AssertionError
           | Some n =>
               let cur := seq (iv_rs iv) (iv_re iv - iv_rs iv) in
               Ok (Some (DS (d_chunks s) (d_ivs s) (shuf cur n (d_epoch s) (d_next s)) (d_next s + 1)
                            (d_num_chunks s) (d_global s) (d_stop s) (d_triggered s) (d_epoch s)
                            (d_restored s) 0))
           end
       end.

(** dataset.py 453-473: pop the next index and build the request. *)
Definition pop_next (s : dstate) : nout * dstate :=
  match d_upcoming s with
  | [] => (Raise IndexError, s)                       (* pop from empty list *)
  | i :: up =>
      match nth_error (d_chunks s) (d_next s - 1) with
      | None => (Raise IndexError, s)
      | Some c =>
          (Yield (Req i c
                      (if d_triggered s then None else Some (skipn (d_next s - 1) (d_chunks s)))
                      (match d_num_chunks s with
                       | Some n => (d_next s =? n) && (length up =? 0)
                       | None => false end)),
           DS (d_chunks s) (d_ivs s) up (d_next s) (d_num_chunks s) (d_global s + 1) (d_stop s)
              true (d_epoch s) (d_restored s) (d_in_chunk s + 1))
      end
  end.

(** dataset.py 414-473: [StreamingDataset.__next__]. *)
Definition next (shuf : shuf_t) (s : dstate) : nout * dstate :=
  if d_stop s <=? d_global s then (Stop, stop_epoch s)
  else match d_upcoming s with
       | [] => match refill shuf s with
               | Err e => (Raise e, s)
               | Ok None => (Stop, stop_epoch s)
               | Ok (Some s') => pop_next s'
               end
       | _ => pop_next s
       end.

(** A complete iteration: calls of [next] until StopIteration. *)
Inductive Run (shuf : shuf_t) : dstate -> list request -> dstate -> Prop :=
| Run_stop s s' : next shuf s = (Stop, s') -> Run shuf s [] s'
| Run_yield s r s1 rs s' :
    next shuf s = (Yield r, s1) -> Run shuf s1 rs s' -> Run shuf s (r :: rs) s'.

(** dataset.py 291-296 and 328-335: [__iter__] without a loaded state. *)
Definition iter_fresh (env : denv) (nw wrank : nat) (epoch : nat)
           (a : list (list nat) * list (list interval)) : res dstate :=
  let worker_rank := global_rank env * nw + wrank in
  match nth_error (fst a) worker_rank, nth_error (snd a) worker_rank with
  | Some cs, Some ivs =>
      Ok (DS cs ivs [] 0 (Some (length cs)) 0 (sum (map iv_size ivs)) false epoch false 0)
  | _, _ => Err IndexError
  end.

(** dataset.py 668-676: the [while True] loop of [_replay_sampling]; [fuel] bounds
    the number of iterations. *)
Fixpoint replay_loop (fuel : nat) (n B nw w : nat) (idx : list nat) : res (list nat) :=
  match fuel with
  | 0 => Err OutOfFuel
  | S f =>
      if B <=? n then replay_loop f (n - B) B nw ((w + 1) mod nw) (upd w (fun x => x + B) idx)
      else Ok (upd w (fun x => x + n) idx)
  end.

(** dataset.py 656-676: [_replay_sampling].  The dict keyed [0..num_workers-1] is a list. *)
Definition replay_sampling (n B nw : nat) : res (list nat) :=
  if nw * B =? 0 then Err ZeroDivisionError
  else
    let d := n / (nw * B) in
    let n' := n - nw * d * B in
    replay_loop (S n') n' B nw 0 (repeat (d * B) nw).

(** dataset.py 687-695: the inner loop of [_replay_chunks_sampling] for one worker:
    (chunk index, offset inside that chunk). *)
Fixpoint replay_walk (ivs : list interval) (i : nat) : nat * nat :=
  match ivs with
  | [] => (0, i)
  | iv :: ivs' =>
      if iv_size iv <=? i
      then let (c, o) := replay_walk ivs' (i - iv_size iv) in (S c, o)
      else (0, i)
  end.

(** dataset.py 679-697: [_replay_chunks_sampling] for all workers of the rank. *)
Definition replay_chunks (workers_ivs : list (list interval)) (indexes : list nat) : list (nat * nat) :=
  map (fun wi => replay_walk (fst wi) (snd wi)) (combine workers_ivs indexes).

(** The entries of a state dict that [_resume] uses (dataset.py 483-498). *)
Record sdict := SD { sd_samples : nat; sd_workers : nat; sd_batch : nat; sd_epoch : nat }.

(** dataset.py 282-300 and 339-387: [__iter__] with a loaded state, [_resume]. *)
Definition resume (shuf : shuf_t) (env : denv) (nw wrank : nat) (st : sdict)
           (a : list (list nat) * list (list interval)) : res dstate :=
  let worker_rank := global_rank env * nw + wrank in
  match nth_error (fst a) worker_rank, nth_error (snd a) worker_rank with
  | Some cs, Some ivs =>
      let stop := sum (map iv_size ivs) in
      let worker_start := global_rank env * sd_workers st in
      bind (replay_sampling (sd_samples st) (sd_batch st) (sd_workers st)) (fun indexes =>
        let rank_ivs := firstn (sd_workers st) (skipn worker_start (snd a)) in
        if length rank_ivs <? sd_workers st then Err IndexError   (* dataset.py 359 *)
        else
          match nth_error (replay_chunks rank_ivs indexes) wrank with
          | None => Err KeyError                                  (* dataset.py 368 *)
          | Some (ci, off) =>
              let num_chunks := length ivs in
              match nth_error ivs ci with
              | None => Err IndexError                            (* dataset.py 373 *)
              | Some iv =>
                  let cur := seq (iv_rs iv) (iv_re iv - iv_rs iv) in
                  let cur := shuf cur num_chunks (sd_epoch st) ci in
                  Ok (DS cs ivs (skipn off cur) (ci + 1) (Some num_chunks) off stop false
                         (sd_epoch st) true 0)
              end
          end)
  | _, _ => Err IndexError
  end.
