(** The processes of a worker of [map] and [optimize], and how they end: finished, failed, interrupted.
    Source: src/litdata/processing/data_processor.py 124-179 (downloaders), 185-205 (remover), 226-300
    (uploaders), 509-599 ([run], [_terminate], [_loop]), 691-749 (start), 1269-1273 ([_exit_on_error]),
    1310-1316 ([_signal_handler]).

    Simplifications: what the processes do with an item or a file is left out, only the messages between
    them are kept; downloads, uploads and removals succeed; there are downloaders (with inputs that need
    none the messages are in the queue from the start); the reports of progress are left out.  One worker:
    that another one has failed, whereupon the parent terminates all workers, may happen at any time while this one is
    in its loop; a worker terminated later, while it waits for its uploaders or its remover, is not modelled. *)
From Verif Require Import Base.

(** An uploader or a remover: [None] has ended, [Some q] waits for messages, [q] is its queue: [true] is a
    file, [false] the message [None] that ends it. *)
Definition helper := option (list bool).
Definition told (m : bool) (h : helper) : helper := match h with Some q => Some (q ++ [m]) | None => None end.
Definition ended (h : helper) : bool := match h with None => true | _ => false end.

(** Where the process of the worker is: in the loop (549-599); waiting for the uploaders (564-570) and the
    remover (572-575) after the last input; in [_terminate] (527-538), [early] if it left the loop because
    of the message of the signal handler (594-597); at its end; after an exception (514-516), before and
    after the parent terminated it (1269-1273). *)
Inductive phase := Loop | Uploading | Removing | Terminating (early : bool) | Ended | Failed | Killed.

(** The worker.  A downloader is [None] when it has ended, or the inputs it still fetches; [s_ready] is the
    queue [ready_to_process_queue], [s_nones] is [num_downloader_finished], [s_stop] tells whether a message
    is in the queue [stop_queue]. *)
Record wst := Wst {
  s_phase : phase; s_nones : nat; s_stop : bool; s_ready : list (option nat);
  s_down : list (option (list nat)); s_up : list helper; s_rem : list helper
}.

Section W.
(** What an input leads to: an exception, or files for some uploaders; the same for the end of the recipe. *)
Context (work : nat -> res (list nat)) (last : res (list nat)).

(** 640-655: [_try_upload]: the files go to the queues of uploaders. *)
Definition hand_over (files : list nat) (ups : list helper) : list helper :=
  fold_left (fun u i => upd i (told true) u) files ups.

(** One step of the worker's own process; [None]: it waits. *)
Definition main_step (s : wst) : option wst :=
  match s_phase s with
  | Loop =>
      match s_ready s with
      | [] => None
      | None :: r =>
          if S (s_nones s) =? length (s_down s)
          then match last with
               | Err _ => Some (Wst Failed (S (s_nones s)) (s_stop s) r (s_down s) (s_up s) (s_rem s))
               | Ok files => Some (Wst Uploading (S (s_nones s)) (s_stop s) r (s_down s) (map (told false) (hand_over files (s_up s))) (s_rem s))
               end
          else Some (Wst Loop (S (s_nones s)) (s_stop s) r (s_down s) (s_up s) (s_rem s))
      | Some i :: r =>
          match work i with
          | Err _ => Some (Wst Failed (s_nones s) (s_stop s) r (s_down s) (s_up s) (s_rem s))
          | Ok files => Some (Wst (if s_stop s then Terminating true else Loop) (s_nones s) false r (s_down s)
                                  (hand_over files (s_up s)) (map (told true) (s_rem s)))
          end
      end
  | Uploading => if forallb ended (s_up s)
                 then Some (Wst Removing (s_nones s) (s_stop s) (s_ready s) (s_down s) (s_up s) (map (told false) (s_rem s)))
                 else None
  | Removing => if forallb ended (s_rem s)
                then Some (Wst (Terminating false) (s_nones s) (s_stop s) (s_ready s) (s_down s) (s_up s) (s_rem s))
                else None
  | Terminating _ =>
      if forallb ended (s_up s) && forallb (fun d => match d with None => true | _ => false end) (s_down s) && forallb ended (s_rem s)
      then Some (Wst Ended (s_nones s) (s_stop s) (s_ready s) (s_down s) (s_up s) (s_rem s))
      else None
  | Ended | Failed | Killed => None
  end.

(** Who makes the next step.  [Interrupt]: the handler of SIGINT in the parent (1310-1316), which then exits;
    [Kill]: the parent got the message of the exception of this worker or of another one, and terminates this one
    (1269-1273). *)
Inductive actor := Main | Downloader (i : nat) | Uploader (i : nat) | Remover (i : nat) | Interrupt | Kill.

Definition step (a : actor) (s : wst) : option wst :=
  match a with
  | Main => main_step s
  | Downloader i =>
      match nth_error (s_down s) i with
      | Some (Some (x :: l)) => Some (Wst (s_phase s) (s_nones s) (s_stop s) (s_ready s ++ [Some x]) (upd i (fun _ => Some l) (s_down s)) (s_up s) (s_rem s))
      | Some (Some []) => Some (Wst (s_phase s) (s_nones s) (s_stop s) (s_ready s ++ [None]) (upd i (fun _ => None) (s_down s)) (s_up s) (s_rem s))
      | _ => None
      end
  | Uploader i =>
      match nth_error (s_up s) i with
      | Some (Some (true :: q)) => Some (Wst (s_phase s) (s_nones s) (s_stop s) (s_ready s) (s_down s) (upd i (fun _ => Some q) (s_up s)) (map (told true) (s_rem s)))
      | Some (Some (false :: q)) => Some (Wst (s_phase s) (s_nones s) (s_stop s) (s_ready s) (s_down s) (upd i (fun _ => None) (s_up s)) (s_rem s))
      | _ => None
      end
  | Remover i =>
      match nth_error (s_rem s) i with
      | Some (Some (true :: q)) => Some (Wst (s_phase s) (s_nones s) (s_stop s) (s_ready s) (s_down s) (s_up s) (upd i (fun _ => Some q) (s_rem s)))
      | Some (Some (false :: q)) => Some (Wst (s_phase s) (s_nones s) (s_stop s) (s_ready s) (s_down s) (s_up s) (upd i (fun _ => None) (s_rem s)))
      | _ => None
      end
  | Interrupt => Some (Wst (s_phase s) (s_nones s) true (s_ready s) (s_down s) (s_up s) (s_rem s))
  | Kill => match s_phase s with
            | Loop | Failed => Some (Wst Killed (s_nones s) (s_stop s) (s_ready s) (s_down s) (s_up s) (s_rem s))
            | _ => None
            end
  end.

(** Any order of steps; an actor that cannot make a step waits. *)
Definition run (l : list actor) (s : wst) : wst :=
  fold_left (fun s a => match step a s with Some s' => s' | None => s end) l s.
End W.

(** 520-526, 691-749: the start: [inputs] are the lists of inputs of the downloaders. *)
Definition started (inputs : list (list nat)) (uploaders : nat) (remover : bool) : wst :=
  Wst Loop 0 false [] (map Some inputs) (repeat (Some []) uploaders) (if remover then [Some []] else []).
