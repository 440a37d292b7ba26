(** Model of the binary format of items and chunks.
    Source: src/litdata/streaming/writer.py 208-297 and
    src/litdata/streaming/item_loader.py 119-370.

    A byte is a number ([N]); a byte string a list of bytes. *)
From Verif Require Import Base.
From Coq Require Export NArith.

Notation bytes := (list N).
Definition two32 : N := (2 ^ 32)%N.

(** [np.uint32(x).tobytes()]: the value modulo 2^32, little endian. *)
Definition le32 (x : N) : bytes :=
  let x := (x mod two32)%N in
  [x mod 256; (x / 256) mod 256; (x / 65536) mod 256; (x / 16777216) mod 256]%N.

(** One little-endian uint32. *)
Definition un32 (a b c d : N) : N := (a + 256 * b + 65536 * c + 16777216 * d)%N.

(** [np.frombuffer(b, np.uint32)]: raises ValueError if the length is not a multiple of 4. *)
Fixpoint frombuffer32 (b : bytes) : res (list N) :=
  match b with
  | [] => Ok []
  | a :: b :: c :: d :: r => bind (frombuffer32 r) (fun l => Ok (un32 a b c d :: l))
  | _ => Err ValueError
  end.

Definition blen (b : bytes) : N := N.of_nat (length b).

(** writer.py 259: [np.array([0] + sizes).cumsum()] (int64). *)
Fixpoint cumsum (acc : N) (sizes : list N) : list N :=
  match sizes with
  | [] => [acc]
  | s :: sizes' => acc :: cumsum (acc + s)%N sizes'
  end.

(** writer.py 257-266: header and body of a chunk.  Line 259 casts the offsets to
    uint32 (modulo 2^32), line 262 adds the header size in uint32 arithmetic.
    Simplification: a header of 2^32 bytes or more (2^30 items) is treated like
    any other, numpy would raise there. *)
Definition chunk_data (items : list bytes) : bytes :=
  let num_items := N.of_nat (length items) in
  let offsets := map (fun o => (o mod two32)%N) (cumsum 0 (map blen items)) in
  let header := (4 + 4 * N.of_nat (length offsets))%N in
  let offsets := map (fun o => ((o + header) mod two32)%N) offsets in
  le32 num_items ++ flat_map le32 offsets ++ concat items.

(** item_loader.py 179: the position of an item's offset pair in the header. *)
Definition item_offset (index begin : nat) : nat :=
  (if begin <=? index then 1 + (index - begin) else index + 1) * 4.

(** [fp.seek(off); fp.read(n)]. *)
Definition read_at (file : bytes) (off n : N) : bytes := firstn (N.to_nat n) (skipn (N.to_nat off) file).

(** item_loader.py 253-264: [_load_data].  [end - begin] is a uint32 subtraction
    and wraps around. *)
Definition load_data (file : bytes) (offset : nat) : res bytes :=
  bind (frombuffer32 (read_at file (N.of_nat offset) 8)) (fun pair =>
  match pair with
  | [b; e] => Ok (read_at file b ((e + two32 - b) mod two32)%N)
  | _ => Err ValueError
  end).

(** item_loader.py 146-221, without waiting for the file, decryption (see
    Encrypt_Model.v) and deserialization: the raw bytes of sample [index] of a
    chunk whose first sample is [begin]. *)
Definition load_item (file : bytes) (index begin : nat) : res bytes :=
  load_data file (item_offset index begin).

(** item_loader.py 337-364: [PyTreeLoader.encode_data].  [np.array(sizes, np.uint32)]. *)
Definition encode_fields (data : list bytes) (sizes : list N) : bytes :=
  flat_map le32 sizes ++ concat data.

(** item_loader.py 287-297: the fields cut out of an item by [PyTreeLoader.deserialize];
    [nfmt] is the number of entries of the data format.  [idx += size] adds a
    numpy uint32 to a Python int, which wraps around modulo 2^32 (NumPy 2). *)
Fixpoint cut_fields (raw : bytes) (idx : N) (sizes : list N) : list bytes :=
  match sizes with
  | [] => []
  | s :: sizes' =>
      let stop := ((idx + s) mod two32)%N in
      read_at raw idx (stop - idx)%N :: cut_fields raw stop sizes'
  end.
Definition decode_fields (nfmt : nat) (raw : bytes) : res (list bytes) :=
  let idx := nfmt * 4 in
  bind (frombuffer32 (firstn idx raw)) (fun sizes =>
  Ok (cut_fields raw (N.of_nat idx) (firstn nfmt sizes))).

(** item_loader.py 266-285: [mds_deserialize]: columns with a fixed size are not
    listed in the item's header ([column_sizes], 0 standing for None). *)
Fixpoint mds_sizes (raw : bytes) (idx : N) (column_sizes : list N) : res (list N * N) :=
  match column_sizes with
  | [] => Ok ([], idx)
  | c :: cs =>
      if (c =? 0)%N then
        bind (frombuffer32 (read_at raw idx 4)) (fun l =>
        match l with
        | [s] => bind (mds_sizes raw (idx + 4)%N cs) (fun r => Ok (s :: fst r, snd r))
        | _ => Err ValueError
        end)
      else bind (mds_sizes raw idx cs) (fun r => Ok (c :: fst r, snd r))
  end.
Definition mds_decode (column_sizes : list N) (nfmt : nat) (raw : bytes) : res (list bytes) :=
  bind (mds_sizes raw 0 column_sizes) (fun r => Ok (cut_fields raw (snd r) (firstn nfmt (fst r)))).

(** item_loader.py 435-448 and 494-518: [TokensLoader]: the bytes behind the
    header, and block [index] of a chunk starting at [begin].
    [frombuffer(count, offset)] raises ValueError when the buffer is too small. *)
Definition tokens_buffer (file : bytes) (chunk_size : nat) : bytes := skipn ((1 + chunk_size + 1) * 4) file.
Definition load_block (file : bytes) (chunk_size itemsize block index begin : nat) : res bytes :=
  let buffer := tokens_buffer file chunk_size in
  let offset := itemsize * (index - begin) * block in
  if length buffer <? offset + itemsize * block then Err ValueError
  else Ok (firstn (itemsize * block) (skipn offset buffer)).
