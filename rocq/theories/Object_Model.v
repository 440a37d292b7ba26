(** Model of a StreamingDataset object that is used directly in the main
    process (without a dataloader): its setters, [len], indexing, loops over it,
    saved and loaded states, [reset], in any order.
    Source: src/litdata/streaming/dataset.py 166-336, 389-510, 622-645.

    Simplifications: [force_override_state_dict=False]; the paths and the item
    loader of a loaded state are those of the dataset (Validate_Model.v has all
    checks); loaded states are values, not shared dicts (for sharing see
    Passes_Model.v); an [__iter__] that raises leaves the position as it was;
    reading the sample itself is modelled in Read_Model.v and Dataset_Model.v. *)
From Verif Require Import Base Assign_Model Iter_Model Config_Model.

(** The distributed environment, seed and chunk intervals of the dataset, and
    the random generator. *)
Record ocfg := OC { oc_rng : rng_t; oc_env : denv; oc_seed : nat; oc_ivs : list interval }.

(** dataset.py 484-500: the entries of a state dict that are read on loading. *)
Record osaved := OSV { os_main : sdict; os_seed : nat; os_drop : bool; os_shuffle : bool }.

(** streaming/shuffle.py 30-34: a shuffler remembers [seed] and [drop_last]; its
    class (NoShuffle or FullShuffle) is the flag. *)
Record shuffler := Sh { sh_full : bool; sh_seed : nat; sh_drop : bool }.

(** The fields of the object (dataset.py 121-194).  [o_cache] says whether
    [self.cache] is set; [o_it] holds the fields of a loop ([None] before the
    first one: [stop_length] is not set by [__init__]). *)
Record obj := Obj {
  o_shuffle : bool; o_drop : bool; o_epoch : nat; o_nw : nat; o_batch : nat;
  o_saved : option osaved; o_shuffler : option shuffler; o_cache : bool; o_it : option dstate }.

(** dataset.py 166-194. *)
Definition new_obj (shuffle drop : bool) : obj := Obj shuffle drop 1 1 1 None None false None.

Inductive op :=
| SetShuffle (b : bool) | SetDrop (b : bool) | SetEpoch (e : nat)
| SetBatch (n : nat) | SetWorkers (n : nat)
| Len | GetLen (nw B : nat) | Get (i : Z)
| Iter | Next
| Load (s : osaved) | Save (samples nw B : nat) | DropState | Reset.

(** What a call returns; [Item] is the chunk and position of a sample. *)
Inductive out := Done | Length (n : nat) | Item (c i : nat) | Stopped | State (s : osaved) | Raised (e : exn).

(** dataset.py 244-251: [_create_shuffler]. *)
Definition create_shuffler (k : ocfg) (o : obj) : shuffler :=
  match o_saved o with
  | Some s => Sh (o_shuffle o) (os_seed s) (os_drop s)
  | None => Sh (o_shuffle o) (oc_seed k) (o_drop o)
  end.

(** shuffle.py: the distribution and the length a shuffler computes (Assign_Model.v). *)
Definition sh_assign (k : ocfg) (h : shuffler) (nw B epoch : nat) :=
  shuffle_assign (oc_rng k) (sh_full h) (oc_env k) (sh_seed h) (sh_drop h) nw B epoch (oc_ivs k).
Definition sh_len (k : ocfg) (h : shuffler) (nw B epoch : nat) : res nat :=
  get_len (oc_rng k) (sh_full h) (oc_env k) (sh_seed h) (sh_drop h) nw B epoch (oc_ivs k).
Definition sh_call (k : ocfg) (h : shuffler) : shuf_t := shuffle_call (oc_rng k) (sh_full h) (sh_seed h).

(** dataset.py 256-257: [set_num_workers]. *)
Definition or_one (n : nat) : nat := if n =? 0 then 1 else n.

(** dataset.py 259-267: [get_len]; the cache it creates is not kept. *)
Definition obj_get_len (k : ocfg) (nw B : nat) (o : obj) : res nat * obj :=
  let h := match o_shuffler o with Some h => h | None => create_shuffler k o end in
  let o' := Obj (o_shuffle o) (o_drop o) (o_epoch o) (or_one nw) B (o_saved o) (Some h) (o_cache o) (o_it o) in
  (sh_len k h (or_one nw) B (o_epoch o), o').

(** dataset.py 250-251: [__len__]. *)
Definition obj_len (k : ocfg) (o : obj) : res nat * obj := obj_get_len k (o_nw o) (or_one (o_batch o)) o.

(** dataset.py 512-619: the checks of [_validate_state_dict], in their order;
    the process has one worker. *)
Definition obj_validate (k : ocfg) (s : osaved) (o : obj) : option exn * obj :=
  if negb (Bool.eqb (os_shuffle s) (o_shuffle o)) then (Some ValueError, o)
  else if negb (sd_workers (os_main s) =? 1) then (Some ValueError, o)
  else if negb (os_seed s =? oc_seed k) then (Some ValueError, o)
  else if negb (Bool.eqb (os_drop s) (o_drop o)) then (Some ValueError, o)
  else match obj_len k o with
       | (Err e, o') => (Some e, o')
       | (Ok L, o') => if L <? sd_samples (os_main s) then (Some ValueError, o') else (None, o')
       end.

Definition with_epoch (e : nat) (o : obj) : obj :=
  Obj (o_shuffle o) (o_drop o) e (o_nw o) (o_batch o) (o_saved o) (o_shuffler o) (o_cache o) (o_it o).
Definition with_saved (s : option osaved) (o : obj) : obj :=
  Obj (o_shuffle o) (o_drop o) (o_epoch o) (o_nw o) (o_batch o) s (o_shuffler o) (o_cache o) (o_it o).
Definition with_it (d : dstate) (o : obj) : obj :=
  Obj (o_shuffle o) (o_drop o) (o_epoch o) (o_nw o) (o_batch o) (o_saved o) (o_shuffler o) (o_cache o) (Some d).

(** dataset.py 269-336: [__iter__] in the main process (one worker of rank 0). *)
Definition obj_iter (k : ocfg) (o : obj) : out * obj :=
  let h := create_shuffler k o in
  let o1 := Obj (o_shuffle o) (o_drop o) (o_epoch o) (o_nw o) (o_batch o) (o_saved o) (Some h) true (o_it o) in
  match o_saved o with
  | None =>
      match bind (sh_assign k h 1 (o_batch o1) (o_epoch o1)) (fun a => iter_fresh (oc_env k) 1 0 (o_epoch o1) a) with
      | Ok d => (Done, with_it d o1)
      | Err e => (Raised e, o1)
      end
  | Some s =>
      match obj_validate k s o1 with
      | (Some e, o2) => (Raised e, o2)
      | (None, o2) =>
          let o3 := with_epoch (sd_epoch (os_main s)) o2 in
          match bind (sh_assign k h 1 (o_batch o3) (o_epoch o3))
                     (fun a => resume (sh_call k h) (oc_env k) 1 0 (os_main s) a) with
          | Ok d => (Done, with_it d o3)
          | Err e => (Raised e, o3)
          end
      end
  end.

(** dataset.py 414-473: [__next__]; [self.current_epoch] is a field of the
    object that [set_epoch] may have changed since [__iter__].  The AttributeError
    for the missing [stop_length] is [GenericException]. *)
Definition at_epoch (e : nat) (d : dstate) : dstate :=
  DS (d_chunks d) (d_ivs d) (d_upcoming d) (d_next d) (d_num_chunks d) (d_global d) (d_stop d)
     (d_triggered d) e (d_restored d) (d_in_chunk d).
Definition obj_next (k : ocfg) (o : obj) : out * obj :=
  match o_it o with
  | None => (Raised GenericException, o)
  | Some d =>
      let shuf := match o_shuffler o with Some h => sh_call k h | None => fun l _ _ _ => l end in
      match next shuf (at_epoch (o_epoch o) d) with
      | (Yield r, d') => (Item (rq_chunk r) (rq_index r), with_it d' o)
      | (Stop, d') => (Stopped, with_saved None (with_epoch (d_epoch d') (with_it d' o)))
      | (Raise e, d') => (Raised e, with_it d' o)
      end
  end.

(** dataset.py 622-645: [reset]; [upcoming_indexes], [worker_next_chunk_index]
    and [stop_length] are not among the fields it sets. *)
Definition obj_reset (o : obj) : obj :=
  Obj (o_shuffle o) (o_drop o) 1 1 1 None None false
      (option_map (fun d => DS [] [] (d_upcoming d) (d_next d) None 0 (d_stop d) false 1 false (d_in_chunk d)) (o_it o)).

(** dataset.py 475-500: [state_dict]; with a loaded state that one, updated. *)
Definition obj_save (k : ocfg) (samples nw B : nat) (o : obj) : out * obj :=
  match o_saved o with
  | Some s =>
      let m := os_main s in
      let s' := OSV (SD samples (sd_workers m) (sd_batch m) (sd_epoch m)) (os_seed s) (os_drop s) (os_shuffle s) in
      (State s', with_saved (Some s') o)
  | None => (State (OSV (SD samples (or_one nw) B (o_epoch o)) (oc_seed k) (o_drop o) (o_shuffle o)), o)
  end.

(** dataset.py 389-397: an integer index; the cache and the shuffler are
    created if there is no cache yet. *)
Definition obj_get (k : ocfg) (i : Z) (o : obj) : out * obj :=
  let o' := if o_cache o then o
            else Obj (o_shuffle o) (o_drop o) (o_epoch o) (o_nw o) (o_batch o) (o_saved o)
                     (Some (create_shuffler k o)) true (o_it o) in
  (match get_chunk_index (oc_ivs k) i with Ok (p, c) => Item c p | Err e => Raised e end, o').

(** One call.  dataset.py 196-211, 253-257, 502-510 for the setters. *)
Definition o_step (k : ocfg) (c : op) (o : obj) : out * obj :=
  match c with
  | SetShuffle b => (Done, Obj b (o_drop o) (o_epoch o) (o_nw o) (o_batch o) (o_saved o) (o_shuffler o) (o_cache o) (o_it o))
  | SetDrop b => (Done, Obj (o_shuffle o) b (o_epoch o) (o_nw o) (o_batch o) (o_saved o) (o_shuffler o) (o_cache o) (o_it o))
  | SetEpoch e => (Done, match o_saved o with None => with_epoch e o | Some _ => o end)
  | SetBatch n => (Done, Obj (o_shuffle o) (o_drop o) (o_epoch o) (o_nw o) n (o_saved o) (o_shuffler o) (o_cache o) (o_it o))
  | SetWorkers n => (Done, Obj (o_shuffle o) (o_drop o) (o_epoch o) (or_one n) (o_batch o) (o_saved o) (o_shuffler o) (o_cache o) (o_it o))
  | Len => let (r, o') := obj_len k o in (match r with Ok n => Length n | Err e => Raised e end, o')
  | GetLen nw B => let (r, o') := obj_get_len k nw B o in (match r with Ok n => Length n | Err e => Raised e end, o')
  | Get i => obj_get k i o
  | Iter => obj_iter k o
  | Next => obj_next k o
  | Load s => (Done, with_saved (Some s) o)
  | Save samples nw B => obj_save k samples nw B o
  | DropState => (Done, with_saved None o)
  | Reset => (Done, obj_reset o)
  end.

(** A history of calls: what each returned, and the object afterwards. *)
Fixpoint o_run (k : ocfg) (cs : list op) (o : obj) : list out * obj :=
  match cs with
  | [] => ([], o)
  | c :: cs' => let (r, o1) := o_step k c o in let (rs, o2) := o_run k cs' o1 in (r :: rs, o2)
  end.
