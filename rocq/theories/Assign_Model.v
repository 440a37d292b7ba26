(** Model of the assignment of chunks to dataloader workers.
    Source: src/litdata/utilities/shuffle.py, src/litdata/streaming/shuffle.py.

    General simplifications of this file:
    - Python ints are modelled by [nat].  Chunk intervals are only ever
      subtracted as [roi_end - roi_start]; all theorems assume
      [roi_start <= roi_end], so truncated subtraction agrees with Python's.
    - numpy scalars and Python ints are not distinguished. *)
From Verif Require Import Base.

(** src/litdata/streaming/item_loader.py 45-65: [Interval], a named tuple
    (chunk_start, roi_start_idx, roi_end_idx, chunk_end). *)
Record interval := Iv { iv_start : nat; iv_rs : nat; iv_re : nat; iv_end : nat }.

(** [interval[2] - interval[1]], used all over shuffle.py and dataset.py. *)
Definition iv_size (i : interval) : nat := iv_re i - iv_rs i.

(** src/litdata/utilities/env.py 35-50: [_DistributedEnv]. *)
Record denv := Env { world_size : nat; global_rank : nat; num_nodes : nat }.

(** utilities/shuffle.py 80-85: the number of batches of each worker of one rank. *)
Definition batches_of_rank (max_batches W nw : nat) : list nat :=
  let num_batches_per_rank := max_batches / W in
  let base_batches := num_batches_per_rank / nw in
  let rem_batches := num_batches_per_rank mod nw in
  map (fun i => base_batches + (if i <? rem_batches then 1 else 0)) (seq 0 nw).

(** utilities/shuffle.py 79-103: the loop over ranks that fills
    [num_items_per_workers].  [acc] is [num_items_per_workers] before the
    iteration for the first rank of [ranks]. *)
Fixpoint quota_loop (ranks : list nat) (W nw B : nat) (drop_last : bool) (num_items : nat)
         (acc : list nat) : list nat :=
  match ranks with
  | [] => acc
  | rank :: ranks' =>
      let max_batches := num_items / B in
      let rem_batches := (max_batches / W) mod nw in
      let tmp_arr := batches_of_rank max_batches W nw in
      let acc' :=
        if rank =? W - 1 then
          let num_assigned_items := B * (sum acc + sum tmp_arr) in
          let tmp_arr := if 1 <? B then map (fun x => x * B) tmp_arr else tmp_arr in
          let acc := if 1 <? B then map (fun x => x * B) acc else acc in
          let left_items := num_items - num_assigned_items in
          let tmp_arr :=
            if negb drop_last && (0 <? left_items)
            then upd (rem_batches mod nw) (fun x => x + left_items) tmp_arr
            else tmp_arr in
          acc ++ tmp_arr
        else acc ++ tmp_arr in
      quota_loop ranks' W nw B drop_last num_items acc'
  end.

Definition quotas (W nw B : nat) (drop_last : bool) (num_items : nat) : list nat :=
  quota_loop (seq 0 W) W nw B drop_last num_items [].

(** State of one global worker during the assignment: what is left of
    [num_items_per_workers[rank]], [chunks_per_workers[rank]] and
    [intervals_per_workers[rank]].  The three parallel Python lists are modelled
    as one list of records. *)
Record wst := Wst { w_left : nat; w_chunks : list nat; w_ivs : list interval }.

(** utilities/shuffle.py 110-142: the inner [while True] loop for one chunk; the
    variable [rank] walks along the list of workers. *)
Fixpoint give (c : nat) (iv : interval) (ws : list wst) : list wst :=
  match ws with
  | [] => []                                          (* rank == len(...) : break *)
  | w :: ws' =>
      if w_left w =? 0 then w :: give c iv ws'        (* rank += 1; continue *)
      else if iv_size iv =? 0 then w :: ws'           (* break *)
      else if w_left w <? iv_size iv then
        {| w_left := 0;
           w_chunks := w_chunks w ++ [c];
           w_ivs := w_ivs w ++ [Iv (iv_start iv) (iv_rs iv) (iv_rs iv + w_left w) (iv_end iv)] |}
        :: give c (Iv (iv_start iv) (iv_rs iv + w_left w) (iv_re iv) (iv_end iv)) ws'
      else
        {| w_left := w_left w - iv_size iv;
           w_chunks := w_chunks w ++ [c];
           w_ivs := w_ivs w ++ [iv] |} :: ws'         (* break *)
  end.

(** utilities/shuffle.py 65-144: [_associate_chunks_and_intervals_to_workers].
    [batch_size = 0] and [num_workers = 0] raise ZeroDivisionError (lines 74, 83). *)
Definition assign (W nw B : nat) (drop_last : bool) (indexes : list nat) (ivs : list interval)
  : res (list (list nat) * list (list interval)) :=
  if (B =? 0) || ((0 <? W) && (nw =? 0)) then Err ZeroDivisionError
  else
    let num_items := sum (map iv_size ivs) in
    let ws0 := map (fun q => Wst q [] []) (quotas W nw B drop_last num_items) in
    let ws := fold_left (fun ws ci => give (fst ci) (snd ci) ws) (combine indexes ivs) ws0 in
    Ok (map w_chunks ws, map w_ivs ws).

(** [np.random.RandomState(key).permutation(a)]: numpy shuffles positions, so the
    result depends on the key and the length only.  [rng key n] is the order of
    the positions [0..n-1]; see [rng_ok] in the specification. *)
Definition rng_t := list nat -> nat -> list nat.
Definition permute {A} (p : list nat) (l : list A) : list A :=
  flat_map (fun i => match nth_error l i with Some x => [x] | None => [] end) p.

(** [np.asarray(l)[idx].tolist()]: numpy fancy indexing, raising IndexError. *)
Fixpoint gather {A} (l : list A) (idx : list nat) : res (list A) :=
  match idx with
  | [] => Ok []
  | i :: idx' =>
      match nth_error l i with
      | None => Err IndexError
      | Some x => bind (gather l idx') (fun r => Ok (x :: r))
      end
  end.

(** streaming/shuffle.py 66-77: [NoShuffle.get_chunks_and_intervals_per_workers]. *)
Definition no_shuffle_assign (env : denv) (drop_last : bool) (nw B : nat) (ivs : list interval) :=
  assign (world_size env) nw B drop_last (seq 0 (length ivs)) ivs.

(** utilities/shuffle.py 47-62: [_group_chunks_by_nodes]; [wid] is the running
    [worker_global_id]. *)
Fixpoint group_by_nodes_loop (wid : nat) (cpw : list (list nat)) (W nodes nw : nat)
         (acc : list (list nat)) : res (list (list nat)) :=
  match cpw with
  | [] => Ok acc
  | chunks :: cpw' =>
      if nw =? 0 then Err ZeroDivisionError
      else if W / nodes =? 0 then Err ZeroDivisionError
      else
        let node_rank := (wid / nw) / (W / nodes) in
        if node_rank <? length acc
        then group_by_nodes_loop (S wid) cpw' W nodes nw (upd node_rank (fun l => l ++ chunks) acc)
        else Err IndexError
  end.
Definition group_by_nodes (cpw : list (list nat)) (W nodes nw : nat) : res (list (list nat)) :=
  if nodes =? 0 then Err ZeroDivisionError
  else group_by_nodes_loop 0 cpw W nodes nw (repeat [] nodes).

(** utilities/shuffle.py 23-44: [_intra_node_chunk_shuffle]. *)
Definition intra_node_shuffle (rng : rng_t) (env : denv) (nw : nat) (cpw : list (list nat))
           (seed epoch : nat) : res (list nat) :=
  bind (group_by_nodes cpw (world_size env) (num_nodes env) nw) (fun per_node =>
  Ok (concat (map (fun l => permute (rng [seed; epoch] (length l)) l) per_node))).

(** streaming/shuffle.py 99-138: [FullShuffle.get_chunks_and_intervals_per_workers]. *)
Definition full_shuffle_assign (rng : rng_t) (env : denv) (seed : nat) (drop_last : bool)
           (nw B epoch : nat) (ivs : list interval) :=
  let seed_shift := if 1 <? num_nodes env then 1 else epoch in
  let shuffled_indexes := permute (rng [seed; seed_shift] (length ivs)) (seq 0 (length ivs)) in
  bind (gather ivs shuffled_indexes) (fun shuffled_ivs =>
  bind (assign (world_size env) nw B drop_last shuffled_indexes shuffled_ivs) (fun a =>
  if (epoch =? 1) || (num_nodes env =? 1) then Ok a
  else
    bind (intra_node_shuffle rng env nw (fst a) seed epoch) (fun shuffled_indexes' =>
    bind (gather ivs shuffled_indexes') (fun shuffled_ivs' =>
    assign (world_size env) nw B drop_last shuffled_indexes' shuffled_ivs')))).

(** streaming/dataset.py 244-251 chooses the shuffler from the [shuffle] flag. *)
Definition shuffle_assign (rng : rng_t) (shuffle : bool) (env : denv) (seed : nat) (drop_last : bool)
           (nw B epoch : nat) (ivs : list interval) :=
  if shuffle then full_shuffle_assign rng env seed drop_last nw B epoch ivs
  else no_shuffle_assign env drop_last nw B ivs.

(** streaming/shuffle.py 36-47: [Shuffle.get_len]. *)
Definition get_len (rng : rng_t) (shuffle : bool) (env : denv) (seed : nat) (drop_last : bool)
           (nw B epoch : nat) (ivs : list interval) : res nat :=
  bind (shuffle_assign rng shuffle env seed drop_last nw B epoch ivs) (fun a =>
  let worker_start := global_rank env * nw in
  Ok (sum (flat_map (map iv_size) (firstn nw (skipn worker_start (snd a)))))).

(** streaming/shuffle.py 79-80 and 140-141: [Shuffle.__call__] on the positions of one chunk. *)
Definition shuffle_call (rng : rng_t) (shuffle : bool) (seed : nat)
           (arr : list nat) (num_chunks epoch chunk_index : nat) : list nat :=
  if shuffle then permute (rng [seed; num_chunks; epoch; chunk_index] (length arr)) arr else arr.
