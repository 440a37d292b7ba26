(** From an index file to a sample: which file and which position inside it
    [dataset[i]] reads.  Models streaming/config.py (lookup, subsampled chunks),
    the interval generators of streaming/item_loader.py, and the index and slice
    handling of [StreamingDataset.__getitem__]. *)
From Verif Require Import Base Assign_Model.

(** One entry of the "chunks" list of index.json.  The file name is a number (the
    code only compares names); [k_size] is "chunk_size", [k_dim] is "dim". *)
Record cinfo := Ci { k_file : nat; k_size : nat; k_dim : option nat }.

(** A region of interest [(start, end)] of a chunk, in positions of the chunk. *)
Notation roi := (nat * nat)%type.

(** streaming/item_loader.py 134 ([PyTreeLoader]: "chunk_size") and 424-425
    ([TokensLoader]: dim // block_size): the number of samples of a chunk.
    [ByItem] also stands for the other loaders that inherit line 134.
    A "dim" of None raises TypeError in the division; a falsy block size fails the
    assertion of line 419. *)
Inductive loader_kind := ByItem | ByBlock (block_size : nat).
Definition num_samples (k : loader_kind) (c : cinfo) : res nat :=
  match k with
  | ByItem => Ok (k_size c)
  | ByBlock b =>
      if b =? 0 then Err AssertionError
      else match k_dim c with None => Err TypeError | Some d => Ok (d / b) end
  end.

Fixpoint sizes_of (k : loader_kind) (cs : list cinfo) : res (list nat) :=
  match cs with
  | [] => Ok []
  | c :: cs' => bind (num_samples k c) (fun n => bind (sizes_of k cs') (fun ns => Ok (n :: ns)))
  end.

(** streaming/item_loader.py 132-140, 422-432: the loop of [generate_intervals];
    [idx] enumerates the chunks, [b] is the running [begin] (the code's [end] is
    [begin] plus the size of the current chunk).  A region list that is too short
    raises IndexError. *)
Fixpoint intervals_loop (idx b : nat) (sizes : list nat) (rois : option (list roi))
  : res (list interval) :=
  match sizes with
  | [] => Ok []
  | n :: sizes' =>
      bind (match rois with
            | None => Ok (b, b + n)
            | Some rs => match nth_error rs idx with
                         | None => Err IndexError
                         | Some r => Ok (b + fst r, b + snd r)
                         end
            end)
           (fun se => bind (intervals_loop (S idx) (b + n) sizes' rois)
                           (fun l => Ok (Iv b (fst se) (snd se) (b + n) :: l)))
  end.
Definition generate_intervals (sizes : list nat) (rois : option (list roi)) : res (list interval) :=
  intervals_loop 0 0 sizes rois.

(** utilities/dataset_utilities.py 214-226: [generate_roi]. *)
Definition generate_roi (k : loader_kind) (cs : list cinfo) : res (list roi) :=
  bind (sizes_of k cs) (fun ns => Ok (map (fun n => (0, n)) ns)).

(** streaming/config.py 219-225: [zero_based_roi]. *)
Fixpoint zero_based (start : nat) (ivs : list interval) : list (nat * nat) :=
  match ivs with
  | [] => []
  | iv :: ivs' => let diff := iv_re iv - iv_rs iv in
                  (start, start + diff) :: zero_based (start + diff) ivs'
  end.

(** streaming/config.py 227-234: the search of [_get_chunk_index_from_index]; it
    returns the index to read and the chunk index.  The index may be any Python
    integer.  [self._intervals[chunk_index]] is walked in step with the list. *)
Fixpoint search (chunk_index : nat) (zs : list (nat * nat)) (ivs : list interval) (index : Z)
  : res (nat * nat) :=
  match zs, ivs with
  | z :: zs', iv :: ivs' =>
      if ((Z.of_nat (fst z) <=? index) && (index <? Z.of_nat (snd z)))%Z
      then Ok (iv_rs iv + Z.to_nat (index - Z.of_nat (fst z)), chunk_index)
      else search (S chunk_index) zs' ivs' index
  | _, _ => Err ValueError
  end.
Definition get_chunk_index (ivs : list interval) (index : Z) : res (nat * nat) :=
  search 0 (zero_based 0 ivs) ivs index.

(** streaming/config.py 329-355: [load_subsampled_chunks].  The dictionary from a
    name to its positions is expressed by comparing every slot's name; a slot that
    stays empty raises ValueError. *)
Definition fill_slots (files : list nat) (slots : list (option cinfo)) (c : cinfo) : list (option cinfo) :=
  map (fun fs => if fst fs =? k_file c then Some c else snd fs) (combine files slots).
Fixpoint all_filled (slots : list (option cinfo)) : res (list cinfo) :=
  match slots with
  | [] => Ok []
  | None :: _ => Err ValueError
  | Some c :: slots' => bind (all_filled slots') (fun l => Ok (c :: l))
  end.
Definition load_subsampled_chunks (files : list nat) (original : list cinfo) : res (list cinfo) :=
  all_filled (fold_left (fill_slots files) original (map (fun _ => None) files)).

(** streaming/dataset.py 394-395 and streaming/config.py 236-269 with
    streaming/item_loader.py 148-150, 498-501: [dataset[i]] for an integer [i] on a dataset restricted
    to [files] and [rois]; the result is the file read and the position in it
    (the index minus the chunk's [begin], which every loader subtracts). *)
Definition sample_at (k : loader_kind) (original : list cinfo) (files : list nat) (rois : list roi)
           (index : Z) : res (nat * nat) :=
  bind (load_subsampled_chunks files original) (fun cs =>
  bind (sizes_of k cs) (fun sizes =>
  bind (generate_intervals sizes (Some rois)) (fun ivs =>
  bind (get_chunk_index ivs index) (fun rc =>
  match nth_error cs (snd rc), nth_error ivs (snd rc) with
  | Some c, Some iv => Ok (k_file c, fst rc - iv_start iv)
  | _, _ => Err IndexError
  end)))).

(** CPython's [slice.indices(length)] followed by [range(start, stop, step)]
    (streaming/dataset.py 397-398). *)
Definition slice_bound (len step dflt : Z) (b : option Z) : Z :=
  match b with
  | None => dflt
  | Some x =>
      let x' := if (x <? 0)%Z then (x + len)%Z else x in
      if (x' <? 0)%Z then (if (step <? 0)%Z then -1 else 0)%Z
      else if (len <=? x')%Z then (if (step <? 0)%Z then len - 1 else len)%Z
      else x'
  end.
Definition range_count (start stop step : Z) : nat :=
  if (0 <? step)%Z
  then (if (start <? stop)%Z then Z.to_nat ((stop - start - 1) / step + 1) else 0)
  else (if (stop <? start)%Z then Z.to_nat ((start - stop - 1) / (- step) + 1) else 0).
Definition slice_indices (len : nat) (start stop step : option Z) : res (list Z) :=
  let l := Z.of_nat len in
  let st := match step with None => 1%Z | Some s => s end in
  if (st =? 0)%Z then Err ValueError
  else
    let b := slice_bound l st (if (st <? 0)%Z then l - 1 else 0)%Z start in
    let e := slice_bound l st (if (st <? 0)%Z then -1 else l)%Z stop in
    Ok (map (fun k => b + Z.of_nat k * st)%Z (seq 0 (range_count b e st))).

(** streaming/dataset.py 396-400: [dataset[start:stop:step]]; [len] is the value of
    [len(dataset)], the number of samples of the current rank. *)
Fixpoint map_res {A B} (f : A -> res B) (l : list A) : res (list B) :=
  match l with
  | [] => Ok []
  | x :: l' => bind (f x) (fun y => bind (map_res f l') (fun ys => Ok (y :: ys)))
  end.
Definition slice_at (k : loader_kind) (original : list cinfo) (files : list nat) (rois : list roi)
           (len : nat) (start stop step : option Z) : res (list (nat * nat)) :=
  bind (slice_indices len start stop step) (map_res (sample_at k original files rois)).
