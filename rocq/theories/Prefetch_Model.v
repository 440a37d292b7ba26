(** The background thread that downloads and deletes chunks: streaming/reader.py 48-247.
    One reader and its thread, interleaved at the granularity of queue operations.
    A [Queue.get] with a timeout returns an element if there is one; when the queue is empty it
    returns [None].  Not modelled: [pre_load_chunk] (a no-op for the default loader), the force-stop
    event, downloads that fail, other processes using the same cache directory (Locks_Model.v). *)
From Verif Require Import Base.

(** reader.py 51-78: [max_cache_size] (0: no limit), [max_pre_download], whether chunks are deleted
    as soon as they are processed, and the sizes of the chunk files. *)
Record pcfg := { c_max : nat; c_pre : nat; c_when_processed : bool; c_size : nat -> nat }.

(** Where the thread is in the body of its loop (reader.py 219-247); [Last]: it took the end token
    (line 230); [Exited]. *)
Inductive loc := Top | AfterForce | AfterDownload | Last | Exited.

(** The end token is [None] in the download queue.  [p_locks] are the counter files of the chunks,
    [p_present] the chunk files.  The fields from [p_req] on record what happened: what was requested,
    downloaded through the queue, downloaded by force, given back by the reader, and what the thread
    tried to delete. *)
Record pstate := {
  p_dl : list (option nat); p_del : list nat; p_force : list nat; p_tbd : list nat; p_ctr : Z; p_loc : loc;
  p_present : list nat; p_locks : nat -> nat;
  p_req : list (option nat); p_done : list nat; p_forced : list nat; p_back : list nat; p_tried : list nat }.

Definition p_init : pstate :=
  {| p_dl := []; p_del := []; p_force := []; p_tbd := []; p_ctr := 0; p_loc := Top; p_present := []; p_locks := fun _ => 0;
     p_req := []; p_done := []; p_forced := []; p_back := []; p_tried := [] |}.

Definition set_nat (f : nat -> nat) (c v : nat) : nat -> nat := fun x => if x =? c then v else f x.
Definition memb (c : nat) (l : list nat) : bool := existsb (Nat.eqb c) l.
Definition add_file (c : nat) (l : list nat) : list nat := if memb c l then l else l ++ [c].
Definition del_file (c : nat) (l : list nat) : list nat := filter (fun x => negb (x =? c)) l.

(** reader.py 475-520: the size of the chunk files in the folder (temporary files are not modelled). *)
Definition folder_size (cfg : pcfg) (present : list nat) : nat := sum (map (c_size cfg) present).

(** reader.py 190-196: [_can_delete_chunk]. *)
Definition can_delete_chunk (cfg : pcfg) (ctr : Z) (present : list nat) : bool :=
  if c_when_processed cfg then (Z.of_nat (c_pre cfg) - 1 <=? ctr)%Z else c_max cfg <=? folder_size cfg present.

(** reader.py 183-185 with [_apply_delete] 131-158: delete the oldest chunks while allowed; a chunk
    whose counter is not 0 is skipped.  Returns the chunks still to be deleted, the files, the chunks tried. *)
Fixpoint delete_loop (cfg : pcfg) (ctr : Z) (locks : nat -> nat) (tbd present tried : list nat) : list nat * list nat * list nat :=
  match tbd with
  | [] => ([], present, tried)
  | c :: tbd' =>
      if can_delete_chunk cfg ctr present
      then delete_loop cfg ctr locks tbd' (if locks c =? 0 then del_file c present else present) (tried ++ [c])
      else (tbd, present, tried)
  end.

(** reader.py 167-188: [_maybe_delete_chunks], going on at [l]. *)
Definition maybe_delete (cfg : pcfg) (s : pstate) (l : loc) : pstate :=
  match p_del s with
  | [] => {| p_dl := p_dl s; p_del := []; p_force := p_force s; p_tbd := p_tbd s; p_ctr := p_ctr s; p_loc := l;
             p_present := p_present s; p_locks := p_locks s; p_req := p_req s; p_done := p_done s; p_forced := p_forced s;
             p_back := p_back s; p_tried := p_tried s |}
  | c :: rest =>
      let '(tbd, present, tried) := delete_loop cfg (p_ctr s) (p_locks s) (p_tbd s ++ [c]) (p_present s) (p_tried s) in
      {| p_dl := p_dl s; p_del := rest; p_force := p_force s; p_tbd := tbd; p_ctr := p_ctr s - 1; p_loc := l;
         p_present := present; p_locks := p_locks s; p_req := p_req s; p_done := p_done s; p_forced := p_forced s;
         p_back := p_back s; p_tried := tried |}
  end.

Definition goto (s : pstate) (l : loc) : pstate :=
  {| p_dl := p_dl s; p_del := p_del s; p_force := p_force s; p_tbd := p_tbd s; p_ctr := p_ctr s; p_loc := l;
     p_present := p_present s; p_locks := p_locks s; p_req := p_req s; p_done := p_done s; p_forced := p_forced s;
     p_back := p_back s; p_tried := p_tried s |}.

(** One step of the thread: reader.py 219-247. *)
Definition tstep (cfg : pcfg) (s : pstate) : pstate :=
  match p_loc s with
  | Top =>  (* _force_download, 202-217: the counter file is not incremented (skip_lock) *)
      match p_force s with
      | [] => goto s AfterForce
      | c :: rest =>
          {| p_dl := p_dl s; p_del := p_del s; p_force := rest; p_tbd := p_tbd s; p_ctr := p_ctr s + 1; p_loc := AfterForce;
             p_present := add_file c (p_present s); p_locks := p_locks s; p_req := p_req s; p_done := p_done s;
             p_forced := p_forced s ++ [c]; p_back := p_back s; p_tried := p_tried s |}
      end
  | AfterForce =>  (* 227-244 *)
      if (p_ctr s <? Z.of_nat (c_pre cfg))%Z then
        match p_dl s with
        | [] => goto s AfterDownload
        | None :: rest =>
            {| p_dl := rest; p_del := p_del s; p_force := p_force s; p_tbd := p_tbd s; p_ctr := p_ctr s; p_loc := Last;
               p_present := p_present s; p_locks := p_locks s; p_req := p_req s; p_done := p_done s; p_forced := p_forced s;
               p_back := p_back s; p_tried := p_tried s |}
        | Some c :: rest =>  (* config.py 124-147 *)
            {| p_dl := rest; p_del := p_del s; p_force := p_force s; p_tbd := p_tbd s; p_ctr := p_ctr s + 1; p_loc := AfterDownload;
               p_present := add_file c (p_present s); p_locks := set_nat (p_locks s) c (S (p_locks s c)); p_req := p_req s;
               p_done := p_done s ++ [c]; p_forced := p_forced s; p_back := p_back s; p_tried := p_tried s |}
        end
      else goto s AfterDownload
  | AfterDownload => if c_max cfg =? 0 then goto s Top else maybe_delete cfg s Top  (* 246-247 *)
  | Last => if c_max cfg =? 0 then goto s Exited else maybe_delete cfg s Exited  (* 231-234 *)
  | Exited => s
  end.

(** What the reader does to the thread: ask for chunks (reader.py 80-83), give back a chunk
    (decrement its counter and ask for its deletion, 407-408, 419-420), end (160-162, 421), ask for a
    forced download (item_loader.py 70-72). *)
Inductive pact := Request (cs : list nat) | GiveBack (c : nat) | Finish | Force (c : nat) | Thread.

Definition rstep (s : pstate) (dl : list (option nat)) (del force : list nat) (locks : nat -> nat) : pstate :=
  {| p_dl := p_dl s ++ dl; p_del := p_del s ++ del; p_force := p_force s ++ force; p_tbd := p_tbd s; p_ctr := p_ctr s; p_loc := p_loc s;
     p_present := p_present s; p_locks := locks; p_req := p_req s ++ dl; p_done := p_done s; p_forced := p_forced s;
     p_back := p_back s ++ del; p_tried := p_tried s |}.

Definition pstep (cfg : pcfg) (s : pstate) (a : pact) : pstate :=
  match a with
  | Request cs => rstep s (map Some cs) [] [] (p_locks s)
  | GiveBack c => rstep s [] [c] [] (set_nat (p_locks s) c (pred (p_locks s c)))
  | Finish => rstep s [None] [] [] (p_locks s)
  | Force c => rstep s [] [] [c] (p_locks s)
  | Thread => tstep cfg s
  end.

Definition prun (cfg : pcfg) (s : pstate) (acts : list pact) : pstate := fold_left (pstep cfg) acts s.
Definition threads (cfg : pcfg) (s : pstate) (n : nat) : pstate := prun cfg s (repeat Thread n).
