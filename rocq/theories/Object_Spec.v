(** Vocabulary for the properties about using a StreamingDataset directly. *)
From Verif Require Import Base Assign_Model Assign_Spec Iter_Model Iter_Spec Object_Model.

(** The rank exists; every node has the same number of ranks. *)
Definition ocfg_ok (k : ocfg) : Prop :=
  rng_ok (oc_rng k) /\ global_rank (oc_env k) < world_size (oc_env k) /\ 1 <= num_nodes (oc_env k) /\
  num_nodes (oc_env k) * (world_size (oc_env k) / num_nodes (oc_env k)) = world_size (oc_env k).
Definition one_node (k : ocfg) : Prop := num_nodes (oc_env k) = 1.

(** Calls with a batch size give a positive one. *)
Definition batch_ok (c : op) : Prop :=
  match c with SetBatch n => 1 <= n | GetLen _ B => 1 <= B | _ => True end.

(** What a user who remembers their calls and the answers knows: the settings
    that were made last, the epoch (the last one set plus the loops that came
    to their end since) and the state that is loaded, if any. *)
Record view := V {
  v_shuffle : bool; v_drop : bool; v_epoch : nat; v_workers : nat; v_batch : nat; v_held : option osaved }.

(** A loaded state is in use until a loop ends, or it is dropped. *)
Definition view_step (c : op) (r : out) (v : view) : view :=
  let (sh, dr, e, nw, B, held) := v in
  match c with
  | SetShuffle b => V b dr e nw B held
  | SetDrop b => V sh b e nw B held
  | SetEpoch e' => match held with None => V sh dr e' nw B held | Some _ => v end
  | SetBatch n => V sh dr e nw n held
  | SetWorkers n => V sh dr e (Nat.max 1 n) B held
  | GetLen n m => V sh dr e (Nat.max 1 n) m held
  | Iter => match held, r with
            | Some s, Raised ValueError => v
            | Some s, _ => V sh dr (sd_epoch (os_main s)) nw B held
            | None, _ => v
            end
  | Next => match r with Stopped => V sh dr (S e) nw B None | _ => v end
  | Load s => V sh dr e nw B (Some s)
  | Save n _ _ =>
      match held with
      | Some s => V sh dr e nw B
                    (Some (OSV (SD n (sd_workers (os_main s)) (sd_batch (os_main s)) (sd_epoch (os_main s)))
                               (os_seed s) (os_drop s) (os_shuffle s)))
      | None => v
      end
  | DropState => V sh dr e nw B None
  | Reset => V sh dr 1 1 1 None
  | Len | Get _ => v
  end.
Fixpoint view_after (cs : list op) (rs : list out) (v : view) : view :=
  match cs, rs with
  | c :: cs', r :: rs' => view_after cs' rs' (view_step c r v)
  | _, _ => v
  end.
(** A new dataset: epoch 1, one worker, batch size 1. *)
Definition view_new (shuffle drop : bool) : view := V shuffle drop 1 1 1 None.

(** The user calls [history] on a new dataset; what the user then knows. *)
Definition history (k : ocfg) (shuffle drop : bool) (h : list op) (o : obj) (v : view) : Prop :=
  exists rs, o_run k h (new_obj shuffle drop) = (rs, o) /\ v = view_after h rs (view_new shuffle drop).

(** The samples of an epoch on this rank for given settings, in order. *)
Definition epoch_samples (k : ocfg) (shuffle drop : bool) (B e : nat) (s : list sample) : Prop :=
  exists a w, shuffle_assign (oc_rng k) shuffle (oc_env k) (oc_seed k) drop 1 B e (oc_ivs k) = Ok a /\
    nth_error (workers a) (global_rank (oc_env k)) = Some w /\
    s = stream (shuffle_call (oc_rng k) shuffle (oc_seed k)) e w.

Definition item (s : sample) : out := Item (fst s) (snd s).

(** The answers to the calls of [next]. *)
Fixpoint answers (cs : list op) (rs : list out) : list out :=
  match cs, rs with
  | Next :: cs', r :: rs' => r :: answers cs' rs'
  | _ :: cs', _ :: rs' => answers cs' rs'
  | _, _ => []
  end.

(** Calls that a user may make in the body of a loop: no other loop, no [reset],
    no change of the epoch. *)
Definition quiet (c : op) : Prop :=
  match c with Iter | Next | Reset | SetEpoch _ => False | _ => True end.
(** The same, with changes of the epoch. *)
Definition calm (c : op) : Prop :=
  match c with Iter | Next | Reset => False | _ => True end.

(** How many samples are asked for. *)
Definition asked (cs : list op) : nat := length (filter (fun c => match c with Next => true | _ => false end) cs).

(** [drop_last] was not changed since the dataset was new or reset, or since a
    loop was begun. *)
Fixpoint settled (cs : list op) (b : bool) : bool :=
  match cs with
  | [] => b
  | SetDrop _ :: cs' => settled cs' false
  | (Iter | Reset) :: cs' => settled cs' true
  | _ :: cs' => settled cs' b
  end.
Definition no_load (c : op) : Prop := match c with Load _ => False | _ => True end.

(** A saved state that fits the dataset. *)
Definition fits (k : ocfg) (v : view) (st : osaved) : Prop :=
  os_shuffle st = v_shuffle v /\ os_drop st = v_drop v /\ os_seed st = oc_seed k /\
  sd_workers (os_main st) = 1 /\ 1 <= sd_batch (os_main st).
