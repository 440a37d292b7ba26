(** Model of the binary writer.
    Source: src/litdata/streaming/writer.py 36-443.

    Simplifications: serialization of a sample into (data, dim) is done by the
    caller (see Format_Model.v for the encoding); an exception ends the run, the
    half-updated state that a caller could still look at is not modelled; file
    names are represented by the chunk number in them; the index file is
    represented by the list of chunk infos. *)
From Verif Require Import Base Dict Format_Model.

(** writer.py 36-44: [Item].  [bytes] is [len(data)] (337), and the truth value of
    an item is its length: an item without bytes counts as false. *)
Record item := Item { it_data : bytes; it_dim : option nat }.
Definition it_bytes (x : item) : nat := length (it_data x).

(** writer.py 48-118: the parameters.  [seal n] is the encryption of a chunk in
    its n-th use (the identity unless the encryption level is "chunk"; Fernet and
    RSA are randomized, therefore the counter), [compress] the compressor. *)
Record wcfg := WCfg {
  c_bytes : option nat;      (** chunk_bytes *)
  c_size : option nat;       (** chunk_size *)
  c_seal : nat -> bytes -> bytes;
  c_compress : bytes -> bytes
}.

(** [limit and limit < n]: None and 0 are false. *)
Definition exceeds (limit : option nat) (n : nat) : bool :=
  match limit with Some (S k) => S k <? n | _ => false end.

(** writer.py 390-392. *)
Definition over (c : wcfg) (num_bytes num_items : nat) : bool :=
  exceeds (c_bytes c) num_bytes || exceeds (c_size c) num_items.

(** writer.py 388: [item.dim if item.dim else 1]. *)
Definition units (x : item) : nat := match it_dim x with Some (S d) => S d | _ => 1 end.

(** A written chunk: the number in its file name, the contents of the file and
    the entries of its chunk info (288-293).  [ch_items] is a ghost field, the
    items that went into the file. *)
Record chunk := Chunk {
  ch_index : nat;
  ch_file : bytes;
  ch_bytes : nat;
  ch_size : nat;
  ch_dim : option nat;
  ch_items : list item
}.

(** writer.py 105-117. *)
Record wstate := WState {
  w_items : list (nat * item);       (** _serialized_items *)
  w_min : option nat;
  w_max : option nat;
  w_nb : nat;                        (** _per_sample_num_bytes *)
  w_ni : nat;                        (** _per_sample_num_items *)
  w_chunks : list chunk;             (** files and _chunks_info, in order *)
  w_index : nat;                     (** _chunk_index *)
  w_done : bool                      (** _is_done *)
}.

Definition new_writer (chunk_index : nat) : wstate := WState [] None None 0 0 [] chunk_index false.

(** writer.py 81-82. *)
Definition truthy (o : option nat) : bool := match o with Some (S _) => true | _ => false end.
Definition is_none {A} (o : option A) : bool := match o with None => true | _ => false end.
Definition create_writer (c : wcfg) (chunk_index : nat) : res wstate :=
  if (is_none (c_size c) && is_none (c_bytes c)) || (truthy (c_size c) && truthy (c_bytes c)) then Err ValueError
  else Ok (new_writer chunk_index).

(** writer.py 384-399, the loop of [_should_write].  Returns the answer, the new
    [_max_index] and the counters.  [None]: out of fuel. *)
Fixpoint scan (fuel : nat) (c : wcfg) (items : list (nat * item)) (index nb ni : nat)
  : option (bool * nat * nat * nat) :=
  match fuel with
  | O => None
  | S f =>
      let stop := Some (false, index, nb, ni) in
      match dget index items with
      | None => stop
      | Some x =>
          if it_bytes x =? 0 then stop
          else
            let nb := nb + it_bytes x in
            let ni := ni + units x in
            if over c nb ni then Some (true, index, nb, ni)
            else scan f c items (S index) nb ni
      end
  end.

(** writer.py 371-399: [_should_write]; the counters are only stored when the answer is no. *)
Definition should_write (c : wcfg) (s : wstate) : res (bool * wstate) :=
  match w_items s, w_max s with
  | [], _ => Ok (false, s)
  | _, None => Ok (false, s)
  | _, Some index =>
      match scan (S (length (w_items s))) c (w_items s) index (w_nb s) (w_ni s) with
      | None => Err OutOfFuel
      | Some (true, m, _, _) =>
          Ok (true, WState (w_items s) (w_min s) (Some m) (w_nb s) (w_ni s) (w_chunks s) (w_index s) (w_done s))
      | Some (false, m, nb, ni) =>
          Ok (false, WState (w_items s) (w_min s) (Some m) nb ni (w_chunks s) (w_index s) (w_done s))
      end
  end.

(** writer.py 249: popping the items of [range(a, a + n)]. *)
Fixpoint pop_range (n a : nat) (d : list (nat * item)) : res (list item * list (nat * item)) :=
  match n with
  | O => Ok ([], d)
  | S n' =>
      match dpop a d with
      | None => Err KeyError
      | Some (x, d') => bind (pop_range n' (S a) d') (fun r => Ok (x :: fst r, snd r))
      end
  end.

(** writer.py 239: [sorted(keys)]. *)
Fixpoint insert_key (k : nat) (l : list nat) : list nat :=
  match l with
  | [] => [k]
  | k' :: l' => if k <=? k' then k :: l else k' :: insert_key k l'
  end.
Definition sort_keys (l : list nat) : list nat := fold_right insert_key [] l.

(** writer.py 240-241. *)
Fixpoint consecutive (l : list nat) : bool :=
  match l with
  | k :: ((k' :: _) as l') => (k =? k' - 1) && (1 <=? k') && consecutive l'
  | _ => true
  end.

(** writer.py 242: [[pop(index) for index in indices]]. *)
Fixpoint pop_keys (ks : list nat) (d : list (nat * item)) : res (list item * list (nat * item)) :=
  match ks with
  | [] => Ok ([], d)
  | k :: ks' =>
      match dpop k d with
      | None => Err KeyError
      | Some (x, d') => bind (pop_keys ks' d') (fun r => Ok (x :: fst r, snd r))
      end
  end.

(** writer.py 238-249: the items taken out for the next chunk. *)
Definition take_items (on_done : bool) (s : wstate) : res (list item * list (nat * item)) :=
  if on_done then
    let indices := sort_keys (map fst (w_items s)) in
    if consecutive indices then pop_keys indices (w_items s) else Err AssertionError
  else
    match w_max s, w_min s with
    | Some mx, Some mn =>
        bind (if mx =? mn
              then match dpop mx (w_items s) with
                   | Some (x, d) => Ok ([x], d)
                   | None => Err KeyError
                   end
              else Ok ([], w_items s)) (fun first =>
        bind (pop_range (mx - mn) mn (snd first)) (fun rest =>
        Ok (fst first ++ fst rest, snd rest)))
    | _, _ => Err AssertionError
    end.

(** writer.py 284-286. *)
Definition dim_of (items : list item) : option nat :=
  match items with
  | x :: _ => if truthy (it_dim x)
              then Some (sum (map (fun y => match it_dim y with Some d => d | None => 0 end) items))
              else None
  | [] => None
  end.

(** writer.py 208-297 and 304-309: [_create_chunk] and [write_chunk]; the warning of
    lines 274-279 is left out. *)
Definition write_chunk (c : wcfg) (on_done : bool) (s : wstate) : res wstate :=
  bind (take_items on_done s) (fun taken =>
  let items := fst taken in
  match items with
  | [] => Err RuntimeError
  | _ =>
      let data := c_seal c (w_index s) (chunk_data (map it_data items)) in
      if truthy (c_size c) && exceeds (c_size c) (length items) then Err AssertionError
      else Ok (WState (snd taken) (w_min s) (w_max s) (w_nb s) (w_ni s)
                 (w_chunks s ++ [Chunk (w_index s) (c_compress c data) (length data) (length items) (dim_of items) items])
                 (S (w_index s)) (w_done s))
  end).

(** The smallest key. *)
Definition min_key (k : nat) (d : list (nat * item)) : nat := fold_right Nat.min k (map fst d).

(** writer.py 359-369. *)
Definition flush (c : wcfg) (s : wstate) : res wstate :=
  bind (write_chunk c false s) (fun s =>
  Ok (WState (w_items s) None None 0 0 (w_chunks s) (w_index s) (w_done s))).

(** [if not self._should_write(): return None] followed by 359-369. *)
Definition write_if_full (c : wcfg) (s : wstate) : res wstate :=
  bind (should_write c s) (fun r => if fst r then flush c (snd r) else Ok (snd r)).

(** writer.py 321-369: [add_item]. *)
Definition add_item (c : wcfg) (s : wstate) (index : nat) (x : item) : res wstate :=
  match dget index (w_items s) with
  | Some _ => Err ValueError
  | None =>
      let items := dset index x (w_items s) in
      let fresh k := WState items (Some k) (Some k) 0 0 (w_chunks s) (w_index s) (w_done s) in
      let same := WState items (w_min s) (w_max s) (w_nb s) (w_ni s) (w_chunks s) (w_index s) (w_done s) in
      match w_min s with
      | None => write_if_full c (fresh (min_key index items))
      | Some mn =>
          if index <? mn then write_if_full c (fresh index)
          else match w_max s with
               | Some mx => if index =? mx then write_if_full c same else Ok same
               | None => Ok same
               end
      end
  end.

(** writer.py 431-433: the loop of [done]. *)
Fixpoint done_loop (fuel : nat) (c : wcfg) (s : wstate) : res wstate :=
  match fuel with
  | O => Err OutOfFuel
  | S f =>
      bind (should_write c s) (fun r =>
      if fst r then bind (write_chunk c false (snd r)) (done_loop f c) else Ok (snd r))
  end.

(** writer.py 425-443: [done]; [filled] is the answer of the property of lines 121-133. *)
Definition done (c : wcfg) (filled : bool) (s : wstate) : res wstate :=
  if filled || w_done s then Ok s
  else
    bind (done_loop (S (length (w_items s))) c s) (fun s =>
    bind (match w_items s with [] => Ok s | _ => write_chunk c true s end) (fun s =>
    Ok (WState (w_items s) (w_min s) (w_max s) (w_nb s) (w_ni s) (w_chunks s) (w_index s) true))).

(** A caller that adds samples with consecutive indexes. *)
Fixpoint add_all (c : wcfg) (s : wstate) (a : nat) (l : list item) : res wstate :=
  match l with
  | [] => Ok s
  | x :: l' => bind (add_item c s a x) (fun s => add_all c s (S a) l')
  end.

(** A caller that adds samples with arbitrary indexes. *)
Fixpoint add_any (c : wcfg) (s : wstate) (l : list (nat * item)) : res wstate :=
  match l with
  | [] => Ok s
  | (i, x) :: l' => bind (add_item c s i x) (fun s => add_any c s l')
  end.
