(** Reference counts on downloaded chunks, shared by processes: streaming/downloader.py 51-64 and
    streaming/reader.py 93-158.  One chunk path is modelled; several workers act on it in any
    interleaving of small file-system steps.  The lock file of the counter is a mutex; that
    lock files are themselves deleted is not modelled. *)
From Verif Require Import Base.

(** Where a worker is: between operations, inside [_increment_local_lock] with the count read
    ([IncR], line 57) or the file truncated and [v] to be written ([IncW], lines 61-62), inside
    [_decrement_local_lock] likewise ([DecR], [DecW]), inside [_apply_delete] after it read a count of 0
    ([Del], reader.py 139). *)
Inductive pc := Idle | IncR (v : nat) | IncW (v : nat) | DecR (v : nat) | DecW (v : nat) | Del.

(** [l_cnt]: no counter file, an empty one ([Some None]), one holding a number.
    [l_regs] is not stored by the code: the workers registered at present, with
    multiplicity. *)
Record lstate := { l_file : bool; l_cnt : option (option nat); l_lock : option nat;
                   l_pcs : nat -> pc; l_regs : list nat }.

Definition l_init (present : bool) : lstate :=
  {| l_file := present; l_cnt := None; l_lock := None; l_pcs := fun _ => Idle; l_regs := [] |}.

Definition set_pc (f : nat -> pc) (w : nat) (p : pc) : nat -> pc := fun v => if v =? w then p else f v.
Fixpoint remove1 (w : nat) (l : list nat) : list nat :=
  match l with [] => [] | x :: l' => if x =? w then l' else x :: remove1 w l' end.

(** reader.py 93-101: [_remaining_locks], an unreadable count is taken for 1. *)
Definition remaining (c : option (option nat)) : nat :=
  match c with None => 0 | Some None => 1 | Some (Some n) => n end.
(** downloader.py 56-60: the count read when incrementing, 0 if unreadable. *)
Definition read_inc (c : option (option nat)) : nat := match c with Some (Some n) => n | _ => 0 end.

Inductive lact :=
| IncStart      (** acquire the lock and read the count, downloader.py 54-58 *)
| IncTimeout    (** the lock could not be acquired in time: the increment is skipped, line 54 *)
| DecStart      (** acquire the lock and read the count, reader.py 108-117 *)
| DecTimeout
| Next          (** the next step of the operation the worker is in *)
| Check         (** [_apply_delete] reads the count, reader.py 137-142 *)
| Fetch.        (** the chunk file is downloaded (config.py 140-146; nothing if it exists) *)

Definition with_ (s : lstate) (file : bool) (cnt : option (option nat)) (lock : option nat) (w : nat) (p : pc) (regs : list nat) : lstate :=
  {| l_file := file; l_cnt := cnt; l_lock := lock; l_pcs := set_pc (l_pcs s) w p; l_regs := regs |}.

(** One step of worker [w]; [None] if the step is not possible now. *)
Definition lstep (s : lstate) (w : nat) (a : lact) : option lstate :=
  match a, l_pcs s w, l_lock s with
  | IncStart, Idle, None => Some (with_ s (l_file s) (l_cnt s) (Some w) w (IncR (read_inc (l_cnt s))) (l_regs s))
  | IncTimeout, Idle, Some _ => Some s
  | DecStart, Idle, None =>
      match l_cnt s with
      | None => Some (with_ s (l_file s) None None w Idle (remove1 w (l_regs s)))
      | Some c => Some (with_ s (l_file s) (Some c) (Some w) w (DecR (match c with Some n => n | None => 1 end)) (remove1 w (l_regs s)))
      end
  | DecTimeout, Idle, Some _ => Some (with_ s (l_file s) (l_cnt s) (l_lock s) w Idle (remove1 w (l_regs s)))
  | Next, IncR v, _ => Some (with_ s (l_file s) (Some None) (l_lock s) w (IncW (S v)) (l_regs s))
  | Next, IncW v, _ => Some (with_ s (l_file s) (Some (Some v)) None w Idle (w :: l_regs s))
  | Next, DecR v, _ =>
      if v - 1 =? 0 then Some (with_ s (l_file s) None None w Idle (l_regs s))
      else Some (with_ s (l_file s) (Some None) (l_lock s) w (DecW (v - 1)) (l_regs s))
  | Next, DecW v, _ => Some (with_ s (l_file s) (Some (Some v)) None w Idle (l_regs s))
  | Next, Del, _ => Some (with_ s false (l_cnt s) (l_lock s) w Idle (l_regs s))
  | Check, Idle, _ => if remaining (l_cnt s) =? 0 then Some (with_ s (l_file s) (l_cnt s) (l_lock s) w Del (l_regs s)) else Some s
  | Fetch, Idle, _ => Some (with_ s true (l_cnt s) (l_lock s) w Idle (l_regs s))
  | _, _, _ => None
  end.

(** A schedule: which worker takes which step.  Impossible steps are not taken. *)
Fixpoint lrun (s : lstate) (sched : list (nat * lact)) : lstate :=
  match sched with
  | [] => s
  | (w, a) :: rest => lrun (match lstep s w a with Some s' => s' | None => s end) rest
  end.
