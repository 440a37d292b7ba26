(** Model of optimize with checkpoints: one worker, its uploads, interruptions and
    restarts.
    Source: src/litdata/processing/data_processor.py 226-293 (uploads), 540-598 and
    635-645 and 751-788 (the worker), 605-634 (restart), 1141-1165 and 1400-1490 (loading
    checkpoints); src/litdata/streaming/writer.py 415-443, 542-562.

    Simplifications: a file of the output directory is represented by the number in
    its name (the rank is the worker's); the configuration in the index is reduced to
    whether the data format is known; json round-trips the chunk infos; the number of workers and
    their inputs are those of the first run (lines 1430-1437 raise otherwise). *)
From Verif Require Import Base Dict Format_Model Writer_Model.

(** writer.py 288-293: the entry of a chunk in the index and in checkpoints. *)
Record info := Info { f_index : nat; f_bytes : nat; f_size : nat; f_dim : option nat }.
Definition info_of (ch : chunk) : info := Info (ch_index ch) (ch_bytes ch) (ch_size ch) (ch_dim ch).
(** Of a chunk of an earlier run the writer knows the entry only. *)
Definition known (i : info) : chunk := Chunk (f_index i) [] (f_bytes i) (f_size i) (f_dim i) [].

(** What the worker hands to its uploaders: a chunk file or a checkpoint. *)
Inductive event := Put (k : nat) (file : bytes) | Save (infos : list info).

(** The output directory: the worker's chunk files and its checkpoint, which may be
    unreadable. *)
Inductive saved := Nothing | Torn | Saved (infos : list info).
Record store := Store { s_files : nat -> option bytes; s_saved : saved }.

(** writer.py 553. *)
Definition done_till (infos : list info) : nat := sum (map f_size infos).

(** data_processor.py 1400-1490: [_load_checkpoint_config]. *)
Definition load (st : store) : res (list info) :=
  match s_saved st with
  | Nothing => Ok []
  | Torn => Err GenericException
  | Saved infos => Ok infos
  end.

(** data_processor.py 605-634: [_create_cache]; [first] is the number of the first new chunk. *)
Definition start (first : nat) (infos : list info) : wstate :=
  WState [] None None 0 0 (map known infos) (first + done_till infos) false.

(** The files written between two states of the writer. *)
Definition new_puts (s s' : wstate) : list event :=
  map (fun ch => Put (ch_index ch) (ch_file ch)) (skipn (length (w_chunks s)) (w_chunks s')).
(** writer.py 542-562: [save_checkpoint]; [last_checkpoint_chunk_info] is never assigned. *)
Definition save (s : wstate) : list event :=
  match w_chunks s with [] => [] | _ => [Save (map info_of (w_chunks s))] end.

(** data_processor.py 751-775: the worker's loop over the results of the user's function;
    [None] is ignored.  Events are tagged with [_counter]. *)
Fixpoint work (c : wcfg) (s : wstate) (index counter : nat) (outs : list (option item))
  : res (wstate * list (nat * event)) :=
  match outs with
  | [] => Ok (s, [])
  | None :: outs' => work c s index (S counter) outs'
  | Some x :: outs' =>
      bind (add_item c s index x) (fun s' =>
      bind (work c s' (S index) (S counter) outs') (fun w =>
      Ok (fst w, map (pair counter) (new_puts s s' ++ save s') ++ snd w)))
  end.

(** data_processor.py 777-788: [_handle_data_chunk_recipe_end]. *)
Definition finish_worker (c : wcfg) (s : wstate) (counter : nat) : res (wstate * list (nat * event)) :=
  bind (done c false s) (fun s' =>
  let puts := new_puts s s' in
  Ok (s', combine (seq 0 (length puts)) puts ++ map (pair counter) (save s'))).

(** The data format is inferred from the first sample of the run (writer.py 155-176). *)
Definition has_format (outs : list (option item)) : bool :=
  existsb (fun o => match o with Some _ => true | None => false end) outs.

(** A whole run: the events, the chunks of the worker's index, whether its data format is known. *)
Record outcome := Outcome { r_events : list (nat * event); r_index : list info; r_format : bool }.
Definition run (c : wcfg) (first : nat) (outs : list (option item)) (st : store) : res outcome :=
  bind (load st) (fun infos =>
  let todo := skipn (done_till infos) outs in
  bind (work c (start first infos) 0 0 todo) (fun w =>
  bind (finish_worker c (fst w) (length todo)) (fun e =>
  Ok (Outcome (snd w ++ snd e) (map info_of (w_chunks (fst e))) (has_format todo))))).

(** data_processor.py 226-293: an upload. *)
Definition apply_event (st : store) (e : event) : store :=
  match e with
  | Put k file => Store (fun n => if n =? k then Some file else s_files st n) (s_saved st)
  | Save infos => Store (s_files st) (Saved infos)
  end.
Definition apply_all (st : store) (es : list event) : store := fold_left apply_event es st.

(** data_processor.py 645, 783: the queue of the [q]-th of [m] uploaders. *)
Definition queue (m q : nat) (es : list (nat * event)) : list event :=
  map snd (filter (fun e => fst e mod m =? q) es).

(** An interruption: uploader [q] has done the first [n q] events of its queue.
    Simplification: uploads of different uploaders are ordered by uploader. *)
Definition crash (m : nat) (n : nat -> nat) (st : store) (es : list (nat * event)) : store :=
  fold_left (fun st q => apply_all st (firstn (n q) (queue m q es))) (seq 0 m) st.
(** An interruption in the middle of an upload leaves a file with other contents [b]. *)
Definition torn (st : store) (e : event) (b : bytes) : store :=
  match e with
  | Put k _ => Store (fun n => if n =? k then Some b else s_files st n) (s_saved st)
  | Save _ => Store (s_files st) Torn
  end.
Inductive interrupted (m : nat) (st : store) (es : list (nat * event)) : store -> Prop :=
| between n : interrupted m st es (crash m n st es)
| within_upload n q e b : q < m -> nth_error (queue m q es) (n q) = Some e -> interrupted m st es (torn (crash m n st es) e b).

(** The directory after any number of interrupted runs. *)
Inductive history (m : nat) (c : wcfg) (first : nat) (outs : list (option item)) : store -> Prop :=
| fresh files : history m c first outs (Store files Nothing)
| crashed st r st' : history m c first outs st -> run c first outs st = Ok r ->
    interrupted m st (r_events r) st' -> history m c first outs st'.

(** The directory after a completed run. *)
Definition completed (st : store) (r : outcome) : store := apply_all st (map snd (r_events r)).
