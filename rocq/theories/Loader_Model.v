(** The item loaders' state between samples: streaming/item_loader.py.  What a loader reads from a
    complete file is in Format_Model.v. *)
From Verif Require Import Base Format_Model.

Definition upd {A} (f : nat -> A) (k : nat) (v : A) : nat -> A := fun j => if j =? k then v else f j.

(** * PyTreeLoader: the open file (item_loader.py 121-125, 181-215, 299-303, 366-370).  A chunk is
    identified with its path; waiting for the file is below. *)
Record ptl := Ptl { pt_path : option nat; pt_open : option nat }.
Definition ptl_init : ptl := Ptl None None.
(** The state after the call and the file that was read. *)
Definition pt_load (st : ptl) (chunk : nat) : res (ptl * nat) :=
  let st' := match pt_path st with
             | Some p => if p =? chunk then st else Ptl (Some chunk) (Some chunk)
             | None => Ptl (Some chunk) (Some chunk)
             end in
  match pt_open st' with None => Err AssertionError | Some f => Ok (st', f) end.
Definition pt_close (st : ptl) : ptl := Ptl (pt_path st) None.
Definition pt_pickle (st : ptl) : ptl := Ptl None None.

Fixpoint pt_loads (st : ptl) (chunks : list nat) : res (ptl * list nat) :=
  match chunks with
  | [] => Ok (st, [])
  | c :: cs => bind (pt_load st c) (fun r => bind (pt_loads (fst r) cs) (fun r2 => Ok (fst r2, snd r :: snd r2)))
  end.
(** reader.py 431-443: a remote epoch ends with [close]; the loader lives on if the user passed it to the
    dataset (reader.py 306: [item_loader or PyTreeLoader()]). *)
Fixpoint pt_epochs (st : ptl) (epochs : list (list nat)) : res (ptl * list (list nat)) :=
  match epochs with
  | [] => Ok (st, [])
  | e :: es => bind (pt_loads st e) (fun r =>
               bind (pt_epochs (pt_close (fst r)) es) (fun r2 => Ok (fst r2, snd r :: snd r2)))
  end.

(** * Waiting for the file (item_loader.py 181-197; 479-493; 669-677).  One element of [obs] is one turn of
    the loop: the time since the start and whether the file is there with its size. *)
Inductive waited := Ready | Raised (e : exn) | Waiting.
Fixpoint wait_turns (force_time max_wait : nat) (requested : bool) (obs : list (nat * bool)) : waited * nat :=
  match obs with
  | [] => (Waiting, 0)
  | (t, there) :: obs' =>
      let force := negb requested && (force_time <? t) in
      let n := if force then 1 else 0 in
      if max_wait <? t then (Raised FileNotFoundError, n)
      else if there then (Ready, n)
      else let r := wait_turns force_time max_wait (requested || force) obs' in (fst r, n + snd r)
  end.
(** The result and the number of forced downloads. *)
Definition wait (force_time max_wait : nat) (there : bool) (obs : list (nat * bool)) : waited * nat :=
  if there then (Ready, 0) else wait_turns force_time max_wait false obs.
(** ParquetLoader has no clock (671-673). *)
Fixpoint wait_parquet (there : bool) (obs : list bool) : waited :=
  if there then Ready else match obs with [] => Waiting | t :: obs' => wait_parquet t obs' end.

(** * ParquetLoader in low-memory mode (item_loader.py 685-739), one chunk.  A cached row group comes with its read
    count. *)
Section P.
Context {row : Type}.
Definition pstate := nat -> option (list row * nat).
Definition p_init : pstate := fun _ => None.
(** A file without row groups, a row group that does not exist and a row outside of its group raise. *)
Definition p_read (groups : list (list row)) (st : pstate) (i : nat) : res (pstate * row) :=
  match groups with
  | [] => Err GenericException
  | g0 :: _ =>
      let n := length g0 in
      if n =? 0 then Err ZeroDivisionError
      else
        let gi := i / n in let wi := i mod n in
        bind (match st gi with
              | Some (df, c) => Ok (df, S c)
              | None => match nth_error groups gi with None => Err GenericException | Some df => Ok (df, 1) end
              end) (fun dc =>
        let st' := upd st gi (if n <=? snd dc then None else Some dc) in
        match nth_error (fst dc) wi with None => Err GenericException | Some r => Ok (st', r) end)
  end.
Fixpoint p_reads (groups : list (list row)) (st : pstate) (is_ : list nat) : res (pstate * list row) :=
  match is_ with
  | [] => Ok (st, [])
  | i :: is' => bind (p_read groups st i) (fun r => bind (p_reads groups (fst r) is') (fun r2 => Ok (fst r2, snd r :: snd r2)))
  end.
End P.

(** * TokensLoader: memory maps and their counters (item_loader.py 373-388, 434-492, 521-560), with the files of
    the cache directory.  [t_reg]: [_chunk_filepaths]. *)
Record tstate := Tst { t_file : nat -> option bytes; t_map : nat -> option bytes; t_count : nat -> Z; t_reg : nat -> bool }.
Definition t_init (files : nat -> option bytes) : tstate := Tst files (fun _ => None) (fun _ => 0%Z) (fun _ => false).

(** 434-448: [_load_chunk]; mapping nothing raises ValueError. [chunk_size c]: "chunk_size" of chunk [c]. *)
Definition t_load_chunk (chunk_size : nat -> nat) (st : tstate) (c : nat) : res tstate :=
  let st' := Tst (t_file st) (t_map st) (upd (t_count st) c (t_count st c + 1)%Z) (t_reg st) in
  match t_map st c with
  | Some _ => Ok st'
  | None => match t_file st c with
            | None => Err FileNotFoundError
            | Some f => let b := tokens_buffer f (chunk_size c) in
                        match b with [] => Err ValueError | _ => Ok (Tst (t_file st') (upd (t_map st') c (Some b)) (t_count st') (t_reg st')) end
            end
  end.

(** What happens to the loader: by the prefetching thread, the reader and the outside world. *)
Inductive top :=
  | TPre (c : nat)                     (** 450-456 *)
  | TLoad (c index begin : nat)        (** 458-518; [begin]: first sample of the chunk; the stricter first size check (480) only adds a turn *)
  | TDelete (c : nat)                  (** 521-540 *)
  | TClose (c : nat)                   (** 549-558 *)
  | TArrive (c : nat) (data : bytes)   (** the file appears (downloader) *)
  | TGone (c : nat).                   (** another process removes it *)
(** The outcome of a call. *)
Inductive tout := TDone | TBlock (b : bytes) | TWaits.

Section T.
Context (itemsize block : nat) (chunk_size chunk_bytes : nat -> nat).
Definition t_step (st : tstate) (o : top) : res (tstate * tout) :=
  match o with
  | TPre c =>
      let st' := Tst (t_file st) (t_map st) (t_count st) (upd (t_reg st) c true) in
      match t_file st c with
      | Some (_ :: _) => bind (t_load_chunk chunk_size st' c) (fun s => Ok (s, TDone))
      | _ => Ok (st', TDone)
      end
  | TLoad c index begin =>
      let reg := t_reg st c && match t_file st c with Some _ => true | None => false end in
      let there := match t_file st c with Some f => chunk_bytes c <=? length f | None => false end in
      let st' := Tst (t_file st) (t_map st) (t_count st) (upd (t_reg st) c (reg || there)) in
      if reg || there
      then bind (t_load_chunk chunk_size st' c) (fun s =>
           match t_map s c with
           | None => Err KeyError
           | Some b => let offset := itemsize * (index - begin) * block in
                       if length b <? offset + itemsize * block then Err ValueError
                       else Ok (s, TBlock (firstn (itemsize * block) (skipn offset b)))
           end)
      else Ok (st', TWaits)
  | TDelete c =>
      match t_file st c with
      | None => Ok (st, TDone)
      | Some _ => Ok (Tst (upd (t_file st) c None) (upd (t_map st) c None)
                          (match t_map st c with Some _ => upd (t_count st) c 0%Z | None => t_count st end) (t_reg st), TDone)
      end
  | TClose c =>
      let n := (t_count st c - 1)%Z in
      Ok (Tst (t_file st) (if (n =? 0)%Z then upd (t_map st) c None else t_map st) (upd (t_count st) c n) (t_reg st), TDone)
  | TArrive c data => Ok (Tst (upd (t_file st) c (Some data)) (t_map st) (t_count st) (t_reg st), TDone)
  | TGone c => Ok (Tst (upd (t_file st) c None) (t_map st) (t_count st) (t_reg st), TDone)
  end.
Fixpoint t_steps (st : tstate) (os : list top) : res (tstate * list tout) :=
  match os with
  | [] => Ok (st, [])
  | o :: os' => bind (t_step st o) (fun r => bind (t_steps (fst r) os') (fun r2 => Ok (fst r2, snd r :: snd r2)))
  end.
End T.
