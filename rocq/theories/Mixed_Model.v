(** Model of one StreamingDataLoader over a CombinedStreamingDataset, used again and again: loops
    over it that run to the end or are left early, and states saved and loaded in between.
    Source: src/litdata/streaming/dataloader.py 607-667, 692-756, src/litdata/streaming/combined.py
    111-130, 157-225, 228-260, 338-350, src/litdata/streaming/dataset.py 202-211, 269-336, 475-510.

    Simplifications: a worker that raises makes the whole loop raise (in the code the batches before
    are delivered); what a member delivers to a worker in an epoch is given (its computation is in
    Assign_Model.v and Iter_Model.v); persistent workers are left out (see Passes_Model.v); of the
    checks of [_validate_state_dict] only those on numbers are here (the others are in
    Validate_Model.v); [len] of the loader, which sets the batch sizes back, is never asked for. *)
From Verif Require Import Base Iter_Model Loader_Order_Model Dict Config_Model Combined_Model Passes_Model.
From Coq Require Import QArith.
Local Open Scope nat_scope.

(** A dict from workers to lists of counts. *)
Definition cdict := list (nat * list nat).

Section Mixed.
Context {A : Type}.

(** The arguments of the datasets and the dataloader.  [g_data k e b w] is what member [k] with
    batch size [b] delivers in epoch [e] to worker [w]; [g_nw] is the number of workers (1 when
    [num_workers=0], which is [g_inproc]); [g_len] is [len] of the combined dataset when iterating over
    all; [g_force] is [force_override_state_dict]. *)
Record mcfg := MCfg {
  g_rng : nat -> list nat -> list Q -> nat; g_all : bool; g_method : batching; g_ws : list Q;
  g_members : nat; g_data : nat -> nat -> nat -> nat -> list A; g_len : nat;
  g_nw : nat; g_B : nat; g_inproc : bool; g_force : bool }.

(** The loader's bookkeeping ([m_epoch] to [m_own]); the combined dataset: [m_given] is its
    [_num_samples_yielded], the dict of the state loaded last; [m_shared] tells whether the loader's
    own [_num_samples_yielded_combined] is that same dict object; [m_bs] is its batch size and its
    members'; [m_mem] is [current_epoch] and [_state_dict] of every member; [m_it] are the counts of
    the iterator that it keeps. *)
Record mstate := MS {
  m_epoch : nat; m_latest : nat; m_cycle : nat; m_restore : bool; m_own : cdict;
  m_given : option cdict; m_shared : bool; m_bs : nat; m_mem : list (nat * option sdict);
  m_it : option (list nat) }.

(** dataloader.py 591-617, combined.py 79-107, dataset.py 181-186. *)
Definition m_init (g : mcfg) : mstate :=
  MS 0 0 0 false [] None false (g_B g) (repeat (1, None) (g_members g)) None.

(** The loader's [_num_samples_yielded_combined]. *)
Definition m_counts (st : mstate) : cdict :=
  if m_shared st then match m_given st with Some d => d | None => [] end else m_own st.

(** dataset.py 202-211: [set_epoch]. *)
Definition set_ep (e : nat) (d : nat * option sdict) : nat * option sdict :=
  match snd d with None => (e, None) | Some _ => d end.

(** dataloader.py 632-642: the start of [__iter__]; combined.py 132-140, 157-160. *)
Definition m_begin (st : mstate) : mstate :=
  if m_restore st then
    MS (m_epoch st) (m_latest st) (m_cycle st) true (m_own st) (m_given st) (m_shared st) (m_bs st)
       (map (set_ep (m_epoch st)) (m_mem st)) (m_it st)
  else
    let e := m_epoch st + 1 in
    MS e 0 0 false [] (m_given st) false (m_bs st)
       (map (fun d => set_ep e (fst d, None)) (m_mem st)) (m_it st).

(** dataset.py 269-336, 339-387, 530-545, 612-616: [__iter__] of member [k] in worker [w], as the list
    of the samples that it delivers from then on.  The length of the member is taken to be the number
    of its samples for this rank. *)
Definition m_iter (g : mcfg) (bs w k : nat) (d : nat * option sdict) : res (list A) :=
  match snd d with
  | None => Ok (g_data g k (fst d) bs w)
  | Some s =>
      if negb (sd_workers s =? g_nw g) then Err ValueError
      else if sum (map (fun v => length (g_data g k (fst d) bs v)) (seq 0 (g_nw g))) <? sd_samples s then Err ValueError
      else
        bind (replay_sampling (sd_samples s) (sd_batch s) (sd_workers s)) (fun idx =>
        match nth_error idx w with
        | None => Err KeyError
        | Some i =>
            let all := g_data g k (sd_epoch s) bs w in
            if length all <=? i then Err IndexError else Ok (skipn i all)
        end)
  end.

(** [n] calls of [next]: the samples with the counts after each, and the iterator before the call that
    raised StopIteration or after all of them. *)
Fixpoint c_steps (g : mcfg) (bs n : nat) (s : cit A) : res (list (A * list nat) * (cit A * bool)) :=
  match n with
  | 0 => Ok ([], (s, false))
  | S n' =>
      match c_next (g_rng g) (g_all g) (g_method g) bs (g_ws g) s with
      | Combined_Model.Yield x s' =>
          bind (c_steps g bs n' s') (fun r => Ok ((x, c_counts s') :: fst r, snd r))
      | Combined_Model.Stop _ => Ok ([], (s, true))
      | Combined_Model.Raise e => Err e
      end
  end.

(** combined.py 171-191 and 228-260: [__iter__] in worker [w]. *)
Definition m_start (g : mcfg) (st : mstate) (w : nat) : res (cit A) :=
  bind (map_res (fun kd => m_iter g (m_bs st) w (fst kd) (snd kd)) (combine (seq 0 (g_members g)) (m_mem st))) (fun its =>
  Ok (c_init its (g_ws g) (match m_given st with Some d => dget w d | None => None end))).

(** What worker [w] yields in a loop.  With [num_workers=0] only the samples of the batches that are
    delivered are fetched. *)
Definition m_run (g : mcfg) (v : visit) (st : mstate) (w : nat) : res (list (A * list nat) * (cit A * bool)) :=
  bind (m_start g st w) (fun s =>
  c_steps g (m_bs st) (match g_inproc g, v with true, Part n => n * g_B g | _, _ => S (length (concat (c_iters s))) end) s).

(** The members that raised StopIteration (combined.py 281-300, 325). *)
Definition m_ended (g : mcfg) (bs : nat) (s : cit A) (stopped : bool) : list bool :=
  if g_all g then (if stopped then repeat true (g_members g) else map negb (c_alive s))
  else if stopped then
    match get_index (g_rng g) (g_method g) bs s with
    | Ok (k, _) => upd k (fun _ => true) (repeat false (g_members g))
    | Err _ => repeat false (g_members g)
    end
  else repeat false (g_members g).

(** dataset.py 285-287, 420-421, 430-431: a member of the main process after it was iterated. *)
Definition m_after (d : nat * option sdict) (ended : bool) : nat * option sdict :=
  let e := match snd d with Some s => sd_epoch s | None => fst d end in
  if ended then (e + 1, None) else (e, snd d).

(** dataloader.py 499-508 and 654-661: the counts that come with a batch are those of its last sample. *)
Definition batch_counts (b : list (A * list nat)) : list nat := last (map snd b) [].

(** dataloader.py 653-661: the counts are stored under the number that the loader's own cycle over the
    workers gives, which starts at [c]. *)
Fixpoint store (nw c : nat) (bs : list (list (A * list nat))) (d : cdict) : cdict :=
  match bs with
  | [] => d
  | b :: bs' => store nw (c + 1) bs' (dset (c mod nw) (batch_counts b) d)
  end.

(** One loop: the batches delivered (with the worker of each) and the state afterwards.  With
    [num_workers=0] the iterator counts in the list of the dict it was given (combined.py 181, 246, 327). *)
Definition m_visit (g : mcfg) (v : visit) (st : mstate) : res (list (nat * list A) * mstate) :=
  let st1 := m_begin st in
  bind (map_res (m_run g v st1) (seq 0 (g_nw g))) (fun runs =>
  let qs := map (fun r => pieces (g_B g) (fst r)) runs in
  let n := match v with Whole => g_nw g * (2 + length (concat qs)) | Part n => n end in
  let out := fst (serve (tasks (g_nw g) (m_latest st1) (m_restore st1) n) qs) in
  let d := store (g_nw g) (m_cycle st1) (map snd out) (m_counts st1) in
  let latest := match length out with 0 => m_latest st1 | S n' => (m_cycle st1 + n') mod g_nw g end in
  let restore := match v with Whole => false | Part _ => m_restore st1 end in
  let fin := match runs with r :: _ => snd r | [] => (c_init [] [] None, false) end in
  let given :=
    if m_shared st1 then Some d
    else match m_given st1 with
         | Some d0 => Some (if g_inproc g then match dget 0 d0 with Some _ => dset 0 (c_counts (fst fin)) d0 | None => d0 end else d0)
         | None => None
         end in
  let own := if m_shared st1 then m_own st1 else d in
  let mem := if g_inproc g
             then map (fun kd => m_after (snd kd) (nth (fst kd) (m_ended g (m_bs st1) (fst fin) (snd fin)) false))
                      (combine (seq 0 (g_members g)) (m_mem st1))
             else m_mem st1 in
  let it := if g_inproc g then Some (c_counts (fst fin)) else m_it st1 in
  Ok (map (fun wb => (fst wb, map fst (snd wb))) out,
      MS (m_epoch st1) latest (m_cycle st1 + length out) restore own given (m_shared st1) (m_bs st1) mem it)).

(** A saved state. *)
Record mobj := MO { o_epoch : nat; o_latest : nat; o_counts : cdict; o_members : list sdict }.

(** dataset.py 475-500: [state_dict] of a member. *)
Definition mem_save (g : mcfg) (n : nat) (d : nat * option sdict) : sdict :=
  match snd d with
  | None => SD n (g_nw g) (g_B g) (fst d)
  | Some s => SD n (sd_workers s) (sd_batch s) (sd_epoch s)
  end.

(** dataloader.py 692-703, combined.py 193-200, 338-350: [state_dict].  The dict of a member's loaded
    state is changed in place. *)
Definition m_save (g : mcfg) (st : mstate) : res (mobj * mstate) :=
  let totals := match m_it st with
                | Some c => c
                | None => saved_counts (g_members g) (map snd (m_counts st))
                end in
  bind (map_res (fun kd => match nth_error totals (fst kd) with
                           | Some n => Ok (mem_save g n (snd kd))
                           | None => Err IndexError
                           end) (combine (seq 0 (g_members g)) (m_mem st))) (fun sds =>
  Ok (MO (m_epoch st) (m_latest st) (m_counts st) sds,
      MS (m_epoch st) (m_latest st) (m_cycle st) (m_restore st) (m_own st) (m_given st) (m_shared st) (m_bs st)
         (map (fun ds => match snd (fst ds) with None => fst ds | Some _ => (fst (fst ds), Some (snd ds)) end)
              (combine (m_mem st) sds)) (m_it st))).

(** dataloader.py 705-756, combined.py 202-225: [load_state_dict].  [len] of the combined dataset is
    asked for only with [iterate_over_all] and a positive number of samples; it resets the batch sizes
    (combined.py 118-119). *)
Definition m_load (g : mcfg) (o : mobj) (st : mstate) : res mstate :=
  let total := sum (map (fun wc => sum (snd wc)) (o_counts o)) in
  if negb (length (o_members o) =? g_members g) && (negb (g_force g) || (g_members g <? length (o_members o))) then Err RuntimeError
  else
    Ok (MS (o_epoch o) (o_latest o + 1) (m_cycle st + (o_latest o + 1))
           (if g_all g then (if (0 <? total) && (total <? g_len g) then true else m_restore st) else true)
           (m_own st) (Some (o_counts o)) true
           (if g_all g && (0 <? total) then 1 else m_bs st)
           (map (fun kd => (fst (snd kd), match nth_error (o_members o) (fst kd) with Some s => Some s | None => snd (snd kd) end))
                (combine (seq 0 (g_members g)) (m_mem st)))
           (m_it st)).
End Mixed.
Arguments mcfg A : clear implicits.
