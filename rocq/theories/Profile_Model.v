(** Model of profiling with a StreamingDataLoader: the worker loop that records batches into [result.json].
    Source: src/litdata/streaming/dataloader.py 347-455, 468-476, 600-614.

    The fetcher of a worker is an argument: its state, and what a call with the next index returns or raises.
    The package viztracer is modelled by what this code asks of it: [start] and [stop] set [enable], and
    [save] writes what was recorded while it was enabled; of that, the numbers of the calls of the fetcher are kept.
    Simplifications: workers that are killed before the end of their loop (torch terminates those that do not end
    within a few seconds) and files that cannot be written are not modelled; other users of the file neither. *)
From Verif Require Import Base.
Local Open Scope Z_scope.

(** [profile_batches]: an int or [True]; [False] and 0 switch it off. *)
Inductive setting := Batches (n : Z) | All.
(** [isinstance(True, int)] holds in Python and [True] is 1. *)
Definition as_int (p : setting) : Z := match p with Batches n => n | All => 1 end.

Record tracing := Tracing { t_enabled : bool; t_calls : list nat }.

Section Worker.
Context {F I B : Type} (fetch : F -> I -> res B * F).

(** State of the process of a worker: the fetcher, the number of calls made so far (only to name them), whether
    [fetcher.fetch] is the wrapper, the variables [counter] and [tracer] of the wrapper, and the file. *)
Record worker := Worker {
  w_fetcher : F; w_calls : nat; w_wrapped : bool; w_counter : Z; w_tracer : option tracing;
  w_file : option (list nat)
}.

(** viztracer: a call made while the tracer is enabled is recorded. *)
Definition record (t : option tracing) (call : nat) : option tracing :=
  match t with
  | Some (Tracing true l) => Some (Tracing true (l ++ [call]))
  | t => t
  end.

(** dataloader.py 347-379: one call of [fetcher.fetch], the wrapper or the function itself. *)
Definition call (profile skip : Z) (w : worker) (i : I) : res B * worker :=
  let begin := w_wrapped w && (0 <? skip) && (skip =? w_counter w) && match w_tracer w with None => true | _ => false end in
  let tracer := if begin then Some (Tracing true []) else w_tracer w in
  let file := if begin then None else w_file w in
  let tracer := record tracer (w_calls w) in
  let '(r, f) := fetch (w_fetcher w) i in
  let n := Datatypes.S (w_calls w) in
  match r with
  | Err e => (Err e, Worker f n (w_wrapped w) (w_counter w) tracer file)
  | Ok b =>
      if w_wrapped w then
        match tracer with
        | Some (Tracing true l) =>
            if w_counter w =? profile + skip
            then (Ok b, Worker f n false (w_counter w + 1) (Some (Tracing false l)) (Some l))
            else (Ok b, Worker f n true (w_counter w + 1) tracer file)
        | _ => (Ok b, Worker f n true (w_counter w + 1) tracer file)
        end
      else (Ok b, Worker f n false (w_counter w) tracer file)
  end.

(** torch's [_worker_loop]: the indices of the queue one after the other; what the fetcher raises is passed on like
    a batch, and the loop goes on. *)
Fixpoint calls (profile skip : Z) (w : worker) (l : list I) : list (res B) * worker :=
  match l with
  | [] => ([], w)
  | i :: l => let '(r, w) := call profile skip w i in let '(rs, w) := calls profile skip w l in (r :: rs, w)
  end.

(** dataloader.py 382-455: [_ProfileWorkerLoop.__call__].  The tracer started before the loop is the one of the
    wrapper; one that the wrapper starts itself is not seen after the loop. *)
Definition profile_loop (p : setting) (skip : Z) (worker_id : nat) (f : F) (file : option (list nat)) (l : list I)
  : list (res B) * option (list nat) :=
  let first := (worker_id =? 0)%nat in
  let begin := first && (skip =? 0) in
  let '(rs, w) := calls (as_int p) skip
    (Worker f 0 first 0 (if begin then Some (Tracing true []) else None) (if begin then None else file)) l in
  (rs, match p, w_tracer w with
       | All, Some (Tracing _ l) => if begin then Some l else w_file w
       | _, _ => w_file w
       end).

(** torch's loop without profiling. *)
Fixpoint plain_calls (f : F) (l : list I) : list (res B) :=
  match l with [] => [] | i :: l => let '(r, f) := fetch f i in r :: plain_calls f l end.

(** dataloader.py 468-476: which loop the workers of a process run.  [None]: [profile_batches] is [False] or 0. *)
Definition worker_loop (p : option setting) (skip : Z) (rank worker_id : nat) (f : F) (file : option (list nat)) (l : list I)
  : list (res B) * option (list nat) :=
  match p with
  | Some p => if (rank =? 0)%nat then profile_loop p skip worker_id f file l else (plain_calls f l, file)
  | None => (plain_calls f l, file)
  end.
End Worker.
Arguments Worker {F}.

(** dataloader.py 600-604: what the constructor refuses.  ModuleNotFoundError is GenericException here. *)
Definition profile_setting (value : Z + bool) : option setting :=
  match value with
  | inl n => if n =? 0 then None else Some (Batches n)
  | inr true => Some All
  | inr false => None
  end.
Definition profile_init (viztracer : bool) (value : Z + bool) (num_workers : nat) : res (option setting) :=
  match profile_setting value with
  | None => Ok None
  | Some p => if viztracer then if (num_workers =? 0)%nat then Err ValueError else Ok (Some p) else Err GenericException
  end.
