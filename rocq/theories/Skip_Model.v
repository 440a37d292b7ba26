(** Model of the computation that decides which worker may delete a shared chunk.
    Source: src/litdata/utilities/shuffle.py 147-311 and
    src/litdata/streaming/dataset.py 300-326.

    Simplifications: dictionaries are association lists in insertion order;
    Python ints are [nat] (all subtractions are of a smaller from a larger
    number for non-negative interval sizes). *)
From Verif Require Export Dict.
From Verif Require Import Base Assign_Model.

(** [if k not in d: d[k] = [] ; d[k].append(v)]: shuffle.py 274-278, 294-296, 308-310. *)
Fixpoint add_to (k v : nat) (d : list (nat * list nat)) : list (nat * list nat) :=
  match d with
  | [] => [(k, [v])]
  | (k', vs) :: d' => if k' =? k then (k', vs ++ [v]) :: d' else (k', vs) :: add_to k v d'
  end.

(** shuffle.py 270-280: [_get_shared_chunks]. *)
Definition get_shared_chunks (workers_chunks : list (list nat)) : list (nat * list nat) :=
  let all := fold_left (fun d wc => fold_left (fun d c => add_to c (fst wc) d) (snd wc) d)
                       (combine (seq 0 (length workers_chunks)) workers_chunks) [] in
  filter (fun kv => 1 <? length (snd kv)) all.

(** shuffle.py 283-298: the inner dictionary of [_aggregate_shared_chunks_per_rank] for one chunk. *)
Definition aggregate_one (nw : nat) (worker_ids : list nat) : list (nat * list nat) :=
  fold_left (fun d w => add_to (w / nw) w d) worker_ids [].

(** shuffle.py 301-311: [_map_node_worker_rank_to_chunk_indexes_to_not_delete]. *)
Definition invert_map (to_disable : list (nat * list nat)) : list (nat * list nat) :=
  fold_left (fun d cw => fold_left (fun d w => add_to w (fst cw) d) (snd cw) d) to_disable [].

(** Local variables of the simulation, shuffle.py 171-188:
    [workers_chunks_for_this_rank], [workers_interval_sizes_for_this_rank],
    [num_shared_workers_for_this_rank], [worker_tracker_idx],
    [num_of_samples_to_carry_to_next_chunk], [counter]. *)
Record sk := Sk { k_chunks : list (list nat); k_sizes : list (list nat); k_shared : nat;
                  k_idx : nat; k_carry : option nat; k_counter : nat }.

(** shuffle.py 193: [min(size[0] for size in sizes)] over the non-empty lists. *)
Fixpoint min_head (l : list (list nat)) : option nat :=
  match l with
  | [] => None
  | [] :: l' => min_head l'
  | (x :: _) :: l' => match min_head l' with None => Some x | Some m => Some (Nat.min x m) end
  end.

Definition sub_head (k : nat) (l : list nat) : list nat :=
  match l with [] => [] | x :: l' => (x - k) :: l' end.
Definition is_nonempty {A} (l : list A) : bool := match l with [] => false | _ => true end.

(** shuffle.py 191-202: PART 1. [min] of an empty sequence raises ValueError. *)
Definition part1 (B : nat) (s : sk) : res sk :=
  match k_carry s with
  | Some _ => Ok s
  | None =>
      match min_head (k_sizes s) with
      | None => Err ValueError
      | Some m =>
          let num_batches := m / B - 1 in
          let n := length (filter is_nonempty (k_sizes s)) in
          Ok (Sk (k_chunks s) (map (sub_head (num_batches * B)) (k_sizes s)) (k_shared s)
                 (k_idx s + num_batches * n) None (k_counter s + num_batches * B * n))
      end
  end.

(** shuffle.py 204-262: the rest of one iteration of [while True].  [inl s]: go
    on with [s]; [inr (w, n)]: the tracked chunk was consumed entirely, last by
    worker [w] of the rank, when [counter] was [n]. *)
Definition part2 (nw B c : nat) (s : sk) : res (sk + nat * nat) :=
  let i := k_idx s mod nw in
  match nth_error (k_sizes s) i with
  | None => Err IndexError
  | Some [] => Ok (inl (Sk (k_chunks s) (k_sizes s) (k_shared s) (k_idx s + 1) (k_carry s) (k_counter s)))
  | Some (lft :: _) =>
      let remover := match k_carry s with None => B | Some r => r end in
      if remover <? lft then
        Ok (inl (Sk (k_chunks s) (upd i (sub_head remover) (k_sizes s)) (k_shared s) (k_idx s + 1) None
                    (k_counter s + remover)))
      else
        match nth_error (k_chunks s) i with
        | None | Some [] => Err IndexError
        | Some (cur :: _) =>
            let chunks := upd i (@tl nat) (k_chunks s) in
            let sizes := upd i (@tl nat) (k_sizes s) in
            let counter := k_counter s + remover in
            let shared := if cur =? c then k_shared s - 1 else k_shared s in
            if (shared =? 0) && (cur =? c) then Ok (inr (i, counter))
            else
              let carry := if lft =? B then k_carry s else Some (B - lft) in
              let carry := if remover =? B then carry else None in
              let idx := match carry with None => k_idx s + 1 | Some _ => k_idx s end in
              Ok (inl (Sk chunks sizes shared idx carry counter))
        end
  end.

(** shuffle.py 189-262: the loop, unrolled at most [fuel] times. *)
Fixpoint simulate (fuel nw B c : nat) (s : sk) : res (nat * nat) :=
  match fuel with
  | 0 => Err OutOfFuel
  | S f =>
      bind (part1 B s) (fun s1 =>
      bind (part2 nw B c s1) (fun r =>
      match r with inl s2 => simulate f nw B c s2 | inr o => Ok o end))
  end.

(** shuffle.py 171-188 and the loop for one (chunk, rank) pair.  The fuel is
    proved sufficient in [simulate_ok]. *)
Definition track (nw B c : nat) (workers_chunks : list (list nat)) (workers_intervals : list (list interval))
           (local_rank nshared : nat) : res (nat * nat) :=
  let chunks := firstn nw (skipn (local_rank * nw) workers_chunks) in
  let sizes := map (map iv_size) (firstn nw (skipn (local_rank * nw) workers_intervals)) in
  simulate (sum (map sum sizes) * nw + nw + 1) nw B c (Sk chunks sizes nshared 0 None 0).

(** shuffle.py 168-262: the loop over ranks for one chunk, updating [max_trackers]. *)
Fixpoint track_ranks (nw B c : nat) (wc : list (list nat)) (wi : list (list interval))
         (by_rank : list (nat * list nat)) (mt : list (nat * (nat * nat))) : res (list (nat * (nat * nat))) :=
  match by_rank with
  | [] => Ok mt
  | (local_rank, ws) :: rest =>
      bind (track nw B c wc wi local_rank (length ws)) (fun wn =>
      let entry := (local_rank * nw + fst wn, snd wn) in
      let mt' := match dget c mt with
                 | None => dset c entry mt
                 | Some old => if snd old <? snd wn then dset c entry mt else mt
                 end in
      track_ranks nw B c wc wi rest mt')
  end.

(** shuffle.py 167-262: the outer loop over shared chunks. *)
Fixpoint track_all (nw B : nat) (wc : list (list nat)) (wi : list (list interval))
         (shared : list (nat * list nat)) (mt : list (nat * (nat * nat))) : res (list (nat * (nat * nat))) :=
  match shared with
  | [] => Ok mt
  | (c, ws) :: rest => bind (track_ranks nw B c wc wi (aggregate_one nw ws) mt) (track_all nw B wc wi rest)
  end.

(** shuffle.py 264-267. *)
Fixpoint disable_all (shared : list (nat * list nat)) (mt : list (nat * (nat * nat))) : res (list (nat * list nat)) :=
  match shared with
  | [] => Ok []
  | (c, ws) :: rest =>
      match dget c mt with
      | None => Err KeyError
      | Some (last, _) =>
          bind (disable_all rest mt) (fun r => Ok ((c, filter (fun w => negb (w =? last)) ws) :: r))
      end
  end.

(** shuffle.py 147-267: [_find_chunks_per_workers_on_which_to_skip_deletion].
    With [num_workers = 0] or [batch_size = 0] and a shared chunk, line 294 or
    195 raises ZeroDivisionError. *)
Definition find_skip_deletion (nw B : nat) (wc : list (list nat)) (wi : list (list interval))
  : res (list (nat * list nat)) :=
  let shared := get_shared_chunks wc in
  if is_nonempty shared && ((nw =? 0) || (B =? 0)) then Err ZeroDivisionError
  else bind (track_all nw B wc wi shared []) (fun mt => disable_all shared mt).

(** streaming/dataset.py 303-326: the chunks that worker [wrank] of the rank of
    [env] is told not to delete ([[]] if the attribute is left alone; its
    initial value None in config.py 103 has the same meaning, lines 111-114). *)
Definition worker_skip (env : denv) (nw wrank B : nat) (a : list (list nat) * list (list interval))
  : res (list nat) :=
  if num_nodes env =? 0 then Err ZeroDivisionError
  else
    let node_size := world_size env / num_nodes env in
    if node_size =? 0 then Err ZeroDivisionError
    else
      let first_rank_this_node := (global_rank env / node_size) * node_size in
      let num_workers_per_node := node_size * nw in
      let worker_start := first_rank_this_node * num_workers_per_node in
      let local_rank := global_rank env mod node_size in
      bind (find_skip_deletion nw B (firstn num_workers_per_node (skipn worker_start (fst a)))
                                    (firstn num_workers_per_node (skipn worker_start (snd a))))
      (fun to_disable =>
      match dget (local_rank * nw + wrank) (invert_map to_disable) with
      | Some l => Ok l
      | None => Ok []
      end).
