(** The room on the disk while [map] and [optimize] download their inputs (data_processor.py 108-116, 123-180, 186-207, 540-590, 687-729). *)
From Verif Require Import Base.

(** A downloader process (data_processor.py 123-180): waits for its next input (line 132), looks at the disk (line 154), or copies; then the files that are
    still to be copied are known by their sizes (lines 157-177). *)
Inductive dstate := Waits | Checks (i : nat) | Copies (i : nat) (rest : list nat).

(** The bytes that are free on the disk of the cache, the downloaders with their queues (lines 709-713), the inputs the worker can take (line 553), the files the remover
    was told of (line 587), the inputs worked on, and whether a write has failed for want of room.  Simplified: the workers of a
    machine are one worker with all their downloaders and one remover; the files of an input that
    are already in the cache (lines 143-148) are files of size 0; nobody else uses the disk. *)
Record disk := Disk {
  s_free : nat; s_dl : list (list nat * dstate); s_ready : list nat; s_gone : list nat; s_worked : list nat; s_full : bool }.

(** What a job does: the sizes of the files of each input, the bytes written while an input is worked on (chunks or files of [map]; those wait for the
    uploader, line 740), the threshold (line 108), whether inputs are removed (line 586), and
    the bytes free at [/] (line 154) if the cache is not on the same disk. *)
Record job := Job { j_sizes : nat -> list nat; j_out : nat -> nat; j_threshold : nat; j_remove : bool; j_root : option nat }.

Fixpoint set_nth {A} (l : list A) (n : nat) (x : A) : list A :=
  match l, n with
  | [], _ => []
  | _ :: l', 0 => x :: l'
  | y :: l', S n' => y :: set_nth l' n' x
  end.

(** Who makes the next step. *)
Inductive turn := Down (d : nat) | Work | Remove.

(** One step; [None] if there is none (waiting for an input, for room or for a message).  The look at the disk and the first copy are
    two steps (lines 154, 157). *)
Definition step (j : job) (s : disk) (t : turn) : option disk :=
  match t with
  | Down d =>
      match nth_error (s_dl s) d with
      | Some (i :: q, Waits) => Some (Disk (s_free s) (set_nth (s_dl s) d (q, Checks i)) (s_ready s) (s_gone s) (s_worked s) (s_full s))
      | Some (q, Checks i) =>
          (** data_processor.py 110-114 *)
          if match j_root j with None => s_free s | Some r => r end <=? j_threshold j then None
          else Some (Disk (s_free s) (set_nth (s_dl s) d (q, Copies i (j_sizes j i))) (s_ready s) (s_gone s) (s_worked s) (s_full s))
      | Some (q, Copies i (b :: rest)) =>
          if b <=? s_free s
          then Some (Disk (s_free s - b) (set_nth (s_dl s) d (q, Copies i rest)) (s_ready s) (s_gone s) (s_worked s) (s_full s))
          else Some (Disk (s_free s) (set_nth (s_dl s) d (q, Copies i rest)) (s_ready s) (s_gone s) (s_worked s) true)
      | Some (q, Copies i []) => Some (Disk (s_free s) (set_nth (s_dl s) d (q, Waits)) (s_ready s ++ [i]) (s_gone s) (s_worked s) (s_full s))
      | _ => None
      end
  | Work =>
      (** data_processor.py 553, 578-587 *)
      match s_ready s with
      | [] => None
      | i :: r =>
          let gone := s_gone s ++ (if j_remove j then j_sizes j i else []) in
          if j_out j i <=? s_free s
          then Some (Disk (s_free s - j_out j i) (s_dl s) r gone (s_worked s ++ [i]) (s_full s))
          else Some (Disk (s_free s) (s_dl s) r gone (s_worked s ++ [i]) true)
      end
  | Remove =>
      (** data_processor.py 196-203 *)
      match s_gone s with
      | [] => None
      | b :: g => Some (Disk (s_free s + b) (s_dl s) (s_ready s) g (s_worked s) (s_full s))
      end
  end.

(** data_processor.py 687-713: the queues of the downloaders are filled before they start. *)
Definition start (free : nat) (queues : list (list nat)) : disk := Disk free (map (fun q => (q, Waits)) queues) [] [] [] false.
(** A sequence of steps. *)
Fixpoint steps (j : job) (s : disk) (l : list turn) : option disk :=
  match l with
  | [] => Some s
  | t :: l' => match step j s t with Some s' => steps j s' l' | None => None end
  end.
