(** Several processes requesting the same chunk into one cache directory: streaming/config.py 124-168
    with streaming/downloader.py 213-227 (Azure), 230-245 (local) and 273-289 (HF).  File contents are reduced to
    absent / being written / complete; a step is one call into the file system or the lock.  The lock
    file is taken without waiting (timeout 0, the Timeout is suppressed: downloader.py 235, 216).
    The counter file of the chunk is the subject of Locks_Model.v. *)
From Verif Require Import Base.

Inductive fstate := Absent | Writing | Complete.
Definition present (f : fstate) : bool := match f with Absent => false | _ => true end.

(** Where a process is inside [download_chunk_from_index]. *)
Inductive at_ :=
  | Start          (** config.py 130 *)
  | Locking        (** downloader.py 235 *)
  | Checking       (** 238, lock held *)
  | Copying        (** 242: the copy has started *)
  | Renaming       (** 243 *)
  | Decompressing  (** config.py 150-155 *)
  | Opening        (** 158-159 *)
  | Removing       (** 162-163 *)
  | Creating       (** 167 *)
  | Filling        (** 168 *)
  | Done
  | Failed (e : exn).

Record cfg := Cfg { g_atomic : bool;      (** the store copies to a temporary name and renames (local, HF; not Azure) *)
                    g_recheck : bool;     (** it looks again once it has the lock (local, Azure; not HF) *)
                    g_remote : bool;      (** a downloader is set (config.py 73-78) *)
                    g_compressed : bool }.
Record world := World { v_file : fstate; v_target : fstate; v_lock : option nat; v_at : nat -> at_ }.

Definition goto (w : world) (i : nat) (a : at_) : world :=
  World (v_file w) (v_target w) (v_lock w) (fun j => if j =? i then a else v_at w j).
Definition with_file (w : world) (f : fstate) : world := World f (v_target w) (v_lock w) (v_at w).
Definition with_target (w : world) (f : fstate) : world := World (v_file w) f (v_lock w) (v_at w).
Definition with_lock (w : world) (l : option nat) : world := World (v_file w) (v_target w) l (v_at w).

(** One step of process [i]. *)
Definition step (g : cfg) (w : world) (i : nat) : world :=
  match v_at w i with
  | Start => if present (v_file w) then goto w i Decompressing
             else if g_remote g then goto w i Locking else goto w i Done
  | Locking => match v_lock w with
               | Some _ => goto w i Decompressing
               | None => goto (with_lock w (Some i)) i Checking
               end
  | Checking => if g_recheck g && present (v_file w) then goto (with_lock w None) i Decompressing
                else goto (if g_atomic g then w else with_file w Writing) i Copying
  | Copying => if g_atomic g then goto w i Renaming
               else goto (with_lock (with_file w Complete) None) i Decompressing
  | Renaming => goto (with_lock (with_file w Complete) None) i Decompressing
  | Decompressing => if negb (g_compressed g) then goto w i Done
                     else if present (v_target w) then goto w i Done
                     else goto w i Opening
  | Opening => if present (v_file w) then goto w i Removing else goto w i (Failed FileNotFoundError)
  | Removing => if negb (g_remote g) then goto w i Creating
                else if present (v_file w) then goto (with_file w Absent) i Creating
                else goto w i (Failed FileNotFoundError)
  | Creating => goto (with_target w Writing) i Filling
  | Filling => goto (with_target w Complete) i Done
  | Done => w
  | Failed _ => w
  end.
Definition steps (g : cfg) (w : world) (sched : list nat) : world := fold_left (step g) sched w.

(** An empty cache (remote dataset) or the directory of the dataset itself. *)
Definition start (g : cfg) : world := World (if g_remote g then Absent else Complete) Absent None (fun _ => Start).
