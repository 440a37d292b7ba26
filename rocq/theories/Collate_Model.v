(** The batches of a [CacheDataLoader]: collating the items and skipping.
    Source: src/litdata/streaming/dataloader.py 112-134 ([CacheCollateFn]), 137-152 and 246-253 ([_next_data]), 338-344.

    Simplifications: the batches of the sampler come in order, with and without workers (PyTorch); an exception of a worker is raised again in the
    main process; a coroutine is its result; the writing to the cache is in Fill_Model.v. *)
From Verif Require Import Base Tree_Model.

Section Collate.
(** Values of samples; what the collate function returns ([None] is Python's). *)
Context {V C : Type}.
(** What [dataset[i]] gives: [None], a value, or a coroutine ([__getitem__] is asynchronous) that returns or raises when awaited. *)
Inductive item := INone | IValue (v : V) | ICoro (r : res (option V)).
(** What the collate function may find in its list. *)
Inductive arg := AValue (v : V) | ACoro.
Context (collate : list arg -> res (option C)).

Definition is_none_item (i : item) : bool := match i with INone => true | _ => false end.
Definition is_coro (i : item) : bool := match i with ICoro _ => true | _ => false end.
(** [asyncio.gather]: the results in order; the first exception is raised (the items are awaited in order here). *)
Definition await (i : item) : res item :=
  match i with
  | ICoro (Ok (Some v)) => Ok (IValue v)
  | ICoro (Ok None) => Ok INone
  | ICoro (Err e) => Err e
  | _ => Err TypeError
  end.
Definition to_args (items : list item) : list arg :=
  flat_map (fun i => match i with INone => [] | IValue v => [AValue v] | ICoro _ => [ACoro] end) items.

(** dataloader.py 124-134. *)
Definition call_collate (items : list item) : res (option C) :=
  if forallb is_none_item items then Ok None
  else bind (if forallb is_coro items then mapM await items else Ok items) (fun items => collate (to_args items)).

(** dataloader.py 140-152, 246-253; [batches]: what is left of the pass.  PyTorch's own [_next_data] raises StopIteration at the end. *)
Fixpoint next_data (batches : list (list item)) : res (C * list (list item)) :=
  match batches with
  | [] => Err StopIteration
  | b :: batches' => bind (call_collate b) (fun data => match data with None => next_data batches' | Some c => Ok (c, batches') end)
  end.

(** A [for] loop over the loader: the batches that the user gets, and how it ends. *)
Fixpoint iterate (fuel : nat) (batches : list (list item)) : list C * res unit :=
  match fuel with
  | 0 => ([], Err OutOfFuel)
  | S fuel' =>
      match next_data batches with
      | Ok (c, batches') => let r := iterate fuel' batches' in (c :: fst r, snd r)
      | Err StopIteration => ([], Ok tt)
      | Err e => ([], Err e)
      end
  end.
Definition loop_over (batches : list (list item)) : list C * res unit := iterate (S (length batches)) batches.
End Collate.
Arguments item : clear implicits.
Arguments arg : clear implicits.
