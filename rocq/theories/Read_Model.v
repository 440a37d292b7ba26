(** Reading samples one after the other: streaming/reader.py 347-448, [BinaryReader.read].
    The effects on the background thread and on the item loader are returned as a list of events.
    Not modelled: the loading of the config, the time the final [join] waits. *)
From Verif Require Import Base Iter_Model Prefetch_Model.

(** What one call does: start the thread (reader.py 365-376), ask it for chunks (377, 384), load a
    sample (389-398), decrement the counter of a chunk and ask for its deletion (407-411, 424-425),
    close a chunk in the item loader (416, 436), tell the thread to stop (426). *)
Inductive ev := EStart | EReq (cs : list nat) | ELoad (c i : nat) | EBack (c : nat) | EClose (c : nat) | EStop.

(** reader.py 285-303: [_prepare_thread] is set, [_chunks_queued_for_download], [_last_chunk_index]. *)
Record rdstate := { rd_thread : bool; rd_queued : bool; rd_last : option nat }.
Definition rd_init : rdstate := {| rd_thread := false; rd_queued := false; rd_last := None |}.

Definition same_chunk (c : nat) (o : option nat) : bool := match o with Some x => x =? c | None => false end.

(** [remote]: the chunks are remote or compressed (line 363).  [closes]: the item loader is a
    TokensLoader or a ParquetLoader (line 415). *)
Definition read (remote closes : bool) (st : rdstate) (x : request) : res (rdstate * list ev) :=
  let c := rq_chunk x in
  let '(st1, ev1) :=
    if remote then
      let '(st0, ev0) :=
        if rd_thread st then (st, [])
        else match rq_download x with
             | Some ((_ :: _) as cs) => ({| rd_thread := true; rd_queued := true; rd_last := rd_last st |}, [EStart; EReq cs])
             | _ => ({| rd_thread := true; rd_queued := rd_queued st; rd_last := rd_last st |}, [EStart])
             end in
      let ev1 := if negb (rd_queued st0) && negb (same_chunk c (rd_last st0)) then [EReq [c]] else [] in
      ({| rd_thread := true; rd_queued := rd_queued st0;
          rd_last := match rd_last st0 with None => Some c | l => l end |}, ev0 ++ ev1)
    else (st, []) in
  let ev2 := [ELoad c (rq_index x)] in
  bind (if remote && negb (same_chunk c (rd_last st1))
        then match rd_last st1 with Some l => Ok [EBack l] | None => Err AssertionError end
        else Ok []) (fun ev3 =>
  let '(st2, ev4) :=
    if same_chunk c (rd_last st1) then (st1, [])
    else ({| rd_thread := rd_thread st1; rd_queued := rd_queued st1; rd_last := Some c |},
          match rd_last st1 with Some l => if closes then [EClose l] else [] | None => [] end) in
  if rq_last x && rd_thread st2
  then Ok (rd_init, ev1 ++ ev2 ++ ev3 ++ ev4 ++ [EBack c; EStop] ++ match rd_last st2 with Some l => [EClose l] | None => [] end)
  else Ok (st2, ev1 ++ ev2 ++ ev3 ++ ev4)).

(** Successive calls. *)
Fixpoint reads (remote closes : bool) (st : rdstate) (xs : list request) : res (rdstate * list ev) :=
  match xs with
  | [] => Ok (st, [])
  | x :: xs' => bind (read remote closes st x) (fun '(st1, e1) =>
                bind (reads remote closes st1 xs') (fun '(st2, e2) => Ok (st2, e1 ++ e2)))
  end.

(** A request made by [dataset[i]] (dataset.py 405-412 and cache.py): no chunk list, never last. *)
Definition access (c i : nat) : request := Req i c None false.

(** The reader together with its thread.  The reader performs its events in order; loading a sample
    waits until the chunk file is there (item_loader.py 167-186; that the file is complete is left to
    Crash_Model.v; the loader waits for the first sample of a chunk only, then keeps the file
    open).  A step of the reader that has to wait changes nothing. *)
Inductive who := Reader | Worker.
Definition xstep (cfg : pcfg) (es : list ev * pstate) (w : who) : list ev * pstate :=
  let '(evs, s) := es in
  match w with
  | Worker => (evs, tstep cfg s)
  | Reader =>
      match evs with
      | [] => (evs, s)
      | ELoad c _ :: r => if memb c (p_present s) then (r, s) else (evs, s)
      | EReq cs :: r => (r, pstep cfg s (Request cs))
      | EBack c :: r => (r, pstep cfg s (GiveBack c))
      | EStop :: r => (r, pstep cfg s Finish)
      | _ :: r => (r, s)
      end
  end.
Definition xrun (cfg : pcfg) (es : list ev * pstate) (sched : list who) : list ev * pstate := fold_left (xstep cfg) sched es.
