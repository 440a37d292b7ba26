(** Model of the serializers of single values.
    Source: src/litdata/streaming/serializers.py 58-534, src/litdata/constants.py 56-99
    and the choice of a serializer in src/litdata/streaming/writer.py 184-195.

    Not modelled: JPEG, video and TIFF files (their decoders are not inverses of
    anything the writer does), user supplied serializers, and the type of the
    returned scalars (a Python int comes back as np.int64 of the same value). *)
From Verif Require Import Base Format_Model.
From Coq Require Import NArith ZArith.

(** Values of a sample: strings as lists of code points, floats as their 64-bit
    pattern, arrays and tensors as (dtype, shape, elements in C order), images by
    size, mode and raw bytes, lists of JPEG images by the bytes of each image,
    [None], and any other object. *)
Inductive tdtype := F32 | F64 | C64 | C128 | F16 | BF16 | U8 | I8 | I16 | I32 | I64 | BOOL.

Inductive leaf :=
| LStr (s : list N)
| LBool (b : bool)
| LInt (z : Z)
| LFloat (bits : N)
| LBytes (b : bytes)
| LPil (width height : N) (mode : list N) (raw : bytes)
| LJpegs (images : list bytes)
| LArr (dtype : nat) (shape : list N) (data : bytes)
| LTensor (dtype : tdtype) (shape : list N) (data : bytes)
| LNone
| LOther (id : N).

(** constants.py 56-77 read backwards, as the serializers do with [{v: k}]: of two
    names of one dtype the last index wins. *)
Definition torch_index (d : tdtype) : N :=
  match d with
  | F32 => 1 | F64 => 3 | C64 => 5 | C128 => 7 | F16 => 9 | BF16 => 10 | U8 => 11 | I8 => 12
  | I16 => 14 | I32 => 16 | I64 => 18 | BOOL => 19
  end%N.

(** constants.py 56-77: [_TORCH_DTYPES_MAPPING]. *)
Definition torch_dtypes : list tdtype :=
  [F32; F32; F64; F64; C64; C64; C128; C128; F16; F16; BF16; U8; I8; I16; I16; I32; I32; I64; I64; BOOL].
Definition torch_dtype (i : N) : res tdtype :=
  match nth_error torch_dtypes (N.to_nat i) with Some d => Ok d | None => Err KeyError end.

Definition torch_itemsize (d : tdtype) : nat :=
  match d with F32 => 4 | F64 => 8 | C64 => 8 | C128 => 16 | F16 => 2 | BF16 => 2 | U8 => 1 | I8 => 1
             | I16 => 2 | I32 => 4 | I64 => 8 | BOOL => 1 end.

(** constants.py 79-99: item sizes of the numpy dtypes 0-14; 14 is [object], whose
    "bytes" are pointers.  The three flexible dtypes 15-17 have size zero and are
    never the dtype of a non-empty array: like every dtype outside of the table
    they are refused with a KeyError. *)
Definition numpy_itemsizes : list nat := [1; 2; 4; 8; 1; 2; 4; 8; 2; 4; 8; 8; 16; 1; 8].
Definition numpy_object : nat := 14.

Definition prod (shape : list N) : N := fold_right N.mul 1%N shape.

(** [str.encode("utf-8")]; a surrogate raises UnicodeEncodeError, a ValueError. *)
Definition utf8_char (c : N) : res bytes :=
  (if c <? 128 then Ok [c]
   else if c <? 2048 then Ok [192 + c / 64; 128 + c mod 64]
   else if c <? 65536 then
     if (55296 <=? c) && (c <? 57344) then Err ValueError
     else Ok [224 + c / 4096; 128 + (c / 64) mod 64; 128 + c mod 64]
   else if c <? 1114112 then
     Ok [240 + c / 262144; 128 + (c / 4096) mod 64; 128 + (c / 64) mod 64; 128 + c mod 64]
   else Err ValueError)%N.
Fixpoint utf8 (s : list N) : res bytes :=
  match s with
  | [] => Ok []
  | c :: s' => bind (utf8_char c) (fun b => bind (utf8 s') (fun r => Ok (b ++ r)))
  end.

(** [bytes.decode("utf-8")]: strict, over-long forms and surrogates raise. *)
Definition cont (b : N) : bool := ((128 <=? b) && (b <? 192))%N.
Definition checked (lo : N) (c : N) : res N :=
  (if (c <? lo) || ((55296 <=? c) && (c <? 57344)) || (1114112 <=? c) then Err ValueError else Ok c)%N.
Fixpoint un_utf8 (b : bytes) : res (list N) :=
  match b with
  | [] => Ok []
  | x :: r =>
      if (x <? 128)%N then bind (un_utf8 r) (fun s => Ok (x :: s))
      else if (x <? 192)%N then Err ValueError
      else match r with
      | [] => Err ValueError
      | y :: r =>
          if negb (cont y) then Err ValueError
          else if (x <? 224)%N then
            bind (checked 128 ((x - 192) * 64 + (y - 128))%N) (fun c =>
            bind (un_utf8 r) (fun s => Ok (c :: s)))
          else match r with
          | [] => Err ValueError
          | z :: r =>
              if negb (cont z) then Err ValueError
              else if (x <? 240)%N then
                bind (checked 2048 ((x - 224) * 4096 + (y - 128) * 64 + (z - 128))%N) (fun c =>
                bind (un_utf8 r) (fun s => Ok (c :: s)))
              else match r with
              | [] => Err ValueError
              | w :: r =>
                  if negb (cont w) then Err ValueError
                  else if (248 <=? x)%N then Err ValueError
                  else bind (checked 65536 ((x - 240) * 262144 + (y - 128) * 4096 + (z - 128) * 64 + (w - 128))%N) (fun c =>
                       bind (un_utf8 r) (fun s => Ok (c :: s)))
              end
          end
      end
  end.

(** Little-endian numbers of [k] bytes. *)
Fixpoint le (k : nat) (x : N) : bytes :=
  match k with O => [] | S k' => (x mod 256 :: le k' (x / 256))%N end.
Fixpoint un_le (b : bytes) : N :=
  match b with [] => 0 | x :: b' => x + 256 * un_le b' end%N.

Definition two63 : Z := (2 ^ 63)%Z.
Definition two64 : Z := (2 ^ 64)%Z.

(** [np.int64(z).tobytes()]; out of range is an OverflowError. *)
Definition int64 (z : Z) : res bytes :=
  if ((- two63 <=? z) && (z <? two63))%Z then Ok (le 8 (Z.to_N (z mod two64))) else Err GenericException.
Definition un_int64 (b : bytes) : Z :=
  let x := Z.of_N (un_le b) in if (x <? two63)%Z then x else (x - two64)%Z.

(** The integer part of a double, [np.int64(x)]: NaN and infinity raise. *)
Definition float_to_int (bits : N) : res Z :=
  let e := ((bits / 2 ^ 52) mod 2048)%N in
  let m := (bits mod 2 ^ 52 + 2 ^ 52)%N in
  if (e =? 2047)%N then Err ValueError
  else
    let n := (if e <? 1023 then 0
              else if e <? 1075 then m / 2 ^ (1075 - e) else m * 2 ^ (e - 1075))%N in
    Ok (if (bits <? 2 ^ 63)%N then Z.of_N n else (- Z.of_N n)%Z).

(** The double nearest to an integer, [np.float64(z)] (ties to even). *)
Definition int_to_float (z : Z) : res N :=
  let n := Z.to_N (Z.abs z) in
  let sign := (if (z <? 0)%Z then 2 ^ 63 else 0)%N in
  if (n =? 0)%N then Ok 0%N
  else
    let k := N.log2 n in
    if (1024 <=? k)%N then Err GenericException
    else
      let q := (if k <=? 52 then n * 2 ^ (52 - k)
                else
                  let d := 2 ^ (k - 52) in
                  let r := n mod d in
                  let up := (d <? 2 * r) || ((d =? 2 * r) && N.odd (n / d)) in
                  n / d + (if up then 1 else 0))%N in
      let bits := ((1023 + k) * 2 ^ 52 + (q - 2 ^ 52))%N in
      if (2047 * 2 ^ 52 <=? bits)%N then Err GenericException else Ok (sign + bits)%N.

(** [np.float64(None)] is NaN. *)
Definition nan_bits : N := (2047 * 2 ^ 52 + 2 ^ 51)%N.

(** serializers.py 515-534: the serializers in the order in which they are tried;
    those of files and images that are not modelled are left out. *)
Inductive serializer :=
| SStr | SBool | SInt | SFloat | SPil | SJpegs | SBytes | SNoHeadNumpy | SNumpy | SNoHeadTensor | STensor | SPickle.
Definition serializers : list serializer :=
  [SStr; SBool; SInt; SFloat; SPil; SJpegs; SBytes; SNoHeadNumpy; SNumpy; SNoHeadTensor; STensor; SPickle].

(** An entry of the data format: the serializer's name, with the dtype's index
    for the formats without header ("no_header_numpy:3"). *)
Inductive fmt := Fmt (s : serializer) (dtype : option N).
Definition fmt_serializer (f : fmt) : serializer := match f with Fmt s _ => s end.

(** serializers.py 428-455: [NumericSerializer] declares the size of its dtype. *)
Definition declared_size (s : serializer) (b : bytes) : N :=
  match s with SInt | SFloat => 8%N | _ => blen b end.

Section Codec.
(** [isfile s]: the string names an existing file (not one of the extensions of
    the video and TIFF serializers).  [pickle] and [unpickle]: the pickle module. *)
Context (isfile : list N -> bool) (pickle : leaf -> bytes) (unpickle : bytes -> res leaf).

(** The [can_serialize] methods. *)
Definition can_serialize (s : serializer) (l : leaf) : bool :=
  match s, l with
  | SStr, LStr x => negb (isfile x)                     (* 424-425 *)
  | SBool, LBool _ => true                              (* 483-492 *)
  | SInt, LInt _ => true                                (* 446-447: a bool is an int *)
  | SInt, LBool _ => true
  | SFloat, LFloat _ => true                            (* 454-455 *)
  | SPil, LPil _ _ _ _ => true                          (* 84-91 *)
  | SJpegs, LJpegs _ => true                            (* 217-224 *)
  | SBytes, LBytes _ => true                            (* 235-236 *)
  | SNoHeadNumpy, LArr _ shape _ => length shape =? 1   (* 356-357 *)
  | SNumpy, LArr _ shape _ => 1 <? length shape         (* 333-334 *)
  | SNoHeadTensor, LTensor _ shape _ => length shape =? 1         (* 297-298 *)
  | STensor, LTensor _ shape _ => negb (length shape =? 1)        (* 274-275 *)
  | SPickle, _ => true                                  (* 369-370 *)
  | _, _ => false
  end.

(** serializers.py 289-291 and 348-350: the index of the dtype, then the elements;
    [tensor.numpy()] raises for bfloat16. *)
Definition numpy_index (d : nat) : res N :=
  match nth_error numpy_itemsizes d with Some _ => Ok (N.of_nat d) | None => Err KeyError end.
Definition tensor_bytes (d : tdtype) (data : bytes) : res bytes :=
  match d with BF16 => Err TypeError | _ => Ok data end.
Definition array_header (index : N) (shape : list N) : bytes :=
  le32 index ++ le32 (N.of_nat (length shape)) ++ flat_map le32 shape.

(** The [serialize] methods.  A serializer chosen from the first sample may be
    handed any value of a later sample.
    Simplification: where a numeric serializer is handed an array, a string or an
    arbitrary object, or the bytes serializer something that is not bytes, an
    exception is raised (numpy would convert arrays element by element and parse
    numeric strings). *)
Definition serialize (s : serializer) (l : leaf) : res (bytes * fmt) :=
  let plain (r : res bytes) := bind r (fun b => Ok (b, Fmt s None)) in
  match s with
  | SStr =>                                             (* 418-419 *)
      match l with LStr x => plain (utf8 x) | _ => Err GenericException end
  | SBool =>                                            (* 461-470 *)
      match l with
      | LBool b => plain (Ok [if b then 1 else 0]%N)
      | LInt z => plain (Ok [if (z =? 0)%Z then 0 else 1]%N)
      | LFloat x => plain (Ok [if (x mod 2 ^ 63 =? 0)%N then 0 else 1]%N)
      | LStr x => plain (Ok [if (length x =? 0)%nat then 0 else 1]%N)
      | LBytes x => plain (Ok [if (length x =? 0)%nat then 0 else 1]%N)
      | LNone => plain (Ok [0%N])
      | _ => Err GenericException
      end
  | SInt =>                                             (* 435-436 *)
      match l with
      | LInt z => plain (int64 z)
      | LBool b => plain (int64 (if b then 1 else 0))
      | LFloat x => plain (bind (float_to_int x) int64)
      | LNone => Err TypeError
      | _ => Err GenericException
      end
  | SFloat =>                                           (* 435-436 *)
      match l with
      | LFloat x => plain (Ok (le 8 x))
      | LInt z => plain (bind (int_to_float z) (fun x => Ok (le 8 x)))
      | LBool b => plain (bind (int_to_float (if b then 1 else 0)) (fun x => Ok (le 8 x)))
      | LNone => plain (Ok (le 8 nan_bits))
      | _ => Err GenericException
      end
  | SPil =>                                             (* 63-68 *)
      match l with
      | LPil w h mode raw =>
          plain (bind (utf8 mode) (fun m => Ok (le32 w ++ le32 h ++ le32 (blen m) ++ m ++ raw)))
      | _ => Err GenericException
      end
  | SJpegs =>                                           (* 160-177 *)
      match l with
      | LJpegs images =>
          plain (Ok (le32 (N.of_nat (length images)) ++ flat_map le32 (map blen images) ++ concat images))
      | _ => Err GenericException
      end
  | SBytes =>                                           (* 229-230 *)
      match l with LBytes b => plain (Ok b) | _ => Err TypeError end
  | SNoHeadNumpy =>                                     (* 348-350 *)
      match l with
      | LArr d _ data => bind (numpy_index d) (fun i => Ok (data, Fmt s (Some i)))
      | _ => Err GenericException
      end
  | SNumpy =>                                           (* 308-315 *)
      match l with
      | LArr d shape data => plain (bind (numpy_index d) (fun i => Ok (array_header i shape ++ data)))
      | _ => Err GenericException
      end
  | SNoHeadTensor =>                                    (* 289-291 *)
      match l with
      | LTensor d _ data => bind (tensor_bytes d data) (fun b => Ok (b, Fmt s (Some (torch_index d))))
      | _ => Err GenericException
      end
  | STensor =>                                          (* 246-253 *)
      match l with
      | LTensor d shape data =>
          plain (bind (tensor_bytes d data) (fun b => Ok (array_header (torch_index d) shape ++ b)))
      | _ => Err GenericException
      end
  | SPickle => plain (Ok (pickle l))                    (* 363-364 *)
  end.

(** writer.py 184-195: [_serialize]: the first serializer that accepts the value. *)
Fixpoint first_match (ss : list serializer) (l : leaf) : res (bytes * fmt) :=
  match ss with
  | [] => Err ValueError
  | s :: ss' => if can_serialize s l then serialize s l else first_match ss' l
  end.
Definition serialize_new (l : leaf) : res (bytes * fmt) := first_match serializers l.

(** [np.frombuffer(b, np.uint32).item()]: raises unless there is exactly one. *)
Definition one32 (b : bytes) : res N :=
  bind (frombuffer32 b) (fun l => match l with [x] => Ok x | _ => Err ValueError end).

(** The header of an array: serializers.py 255-262 and 317-326.
    Simplification: the dimensions are read in one go. *)
Definition read_header (data : bytes) : res (N * list N * bytes) :=
  bind (one32 (firstn 4 data)) (fun i =>
  bind (one32 (firstn 4 (skipn 4 data))) (fun rank =>
  let n := N.to_nat rank in
  bind (frombuffer32 (firstn (4 * n) (skipn 8 data))) (fun shape =>
  if length shape =? n then Ok (i, shape, skipn (8 + 4 * n) data) else Err ValueError))).

Definition numpy_size (i : N) : res nat :=
  match nth_error numpy_itemsizes (N.to_nat i) with
  | Some k => if N.to_nat i =? numpy_object then Err ValueError else Ok k
  | None => Err KeyError
  end.
(** [np.frombuffer(b, dtype)]/[torch.frombuffer]: whole elements. *)
Definition whole (k : nat) (b : bytes) : res nat :=
  if length b mod k =? 0 then Ok (length b / k) else Err ValueError.

(** serializers.py 197-215: the images cut out of the list. *)
Fixpoint cut_images (data : bytes) (sizes : list N) : list bytes :=
  match sizes with
  | [] => []
  | s :: sizes' => firstn (N.to_nat s) data :: cut_images (skipn (N.to_nat s) data) sizes'
  end.

(** The [deserialize] methods, after [setup] with the entry of the data format. *)
Definition deserialize (f : fmt) (data : bytes) : res leaf :=
  match f with Fmt s dtype =>
  match s with
  | SStr => bind (un_utf8 data) (fun x => Ok (LStr x))            (* 421-422 *)
  | SBool =>                                                      (* 472-481 *)
      match data with [] => Err IndexError | b :: _ => Ok (LBool (negb (b =? 0)%N)) end
  | SInt =>                                                       (* 438-439 *)
      bind (whole 8 data) (fun n => if n =? 0 then Err IndexError else Ok (LInt (un_int64 (firstn 8 data))))
  | SFloat =>                                                     (* 438-439 *)
      bind (whole 8 data) (fun n => if n =? 0 then Err IndexError else Ok (LFloat (un_le (firstn 8 data))))
  | SPil =>                                                       (* 71-82 *)
      bind (frombuffer32 (firstn 12 data)) (fun l =>
      match l with
      | [w; h; m] =>
          let rest := skipn 12 data in
          bind (un_utf8 (firstn (N.to_nat m) rest)) (fun mode => Ok (LPil w h mode (skipn (N.to_nat m) rest)))
      | _ => Err ValueError
      end)
  | SJpegs =>                                                     (* 179-215 *)
      bind (one32 (firstn 4 data)) (fun k =>
      let n := N.to_nat k in
      if n =? 0 then Err ValueError
      else if length data <? 4 + 4 * n then Err ValueError
      else bind (frombuffer32 (firstn (4 * n) (skipn 4 data))) (fun sizes =>
           Ok (LJpegs (cut_images (skipn (4 + 4 * n) data) sizes))))
  | SBytes => Ok (LBytes data)                                    (* 232-233 *)
  | SNoHeadNumpy =>                                               (* 345-346, 352-354 *)
      match dtype with
      | None => Err AssertionError
      | Some i => bind (numpy_size i) (fun k => bind (whole k data) (fun n =>
                  Ok (LArr (N.to_nat i) [N.of_nat n] data)))
      end
  | SNumpy =>                                                     (* 317-331 *)
      bind (read_header data) (fun h =>
      match h with (i, shape, body) =>
      bind (numpy_size i) (fun k => bind (whole k body) (fun n =>
      if (N.of_nat n =? prod shape)%N then Ok (LArr (N.to_nat i) shape body) else Err ValueError)) end)
  | SNoHeadTensor =>                                              (* 286-287, 293-295 *)
      match dtype with
      | None => Err AssertionError
      | Some i => bind (torch_dtype i) (fun d => bind (whole (torch_itemsize d) data) (fun n =>
                  Ok (LTensor d [N.of_nat n] data)))
      end
  | STensor =>                                                    (* 255-272 *)
      bind (read_header data) (fun h =>
      match h with (i, shape, body) =>
      bind (torch_dtype i) (fun d =>
      match body with
      | [] => if (prod shape =? 0)%N then Ok (LTensor d shape [])
              else Err GenericException (* torch.empty: uninitialised elements *)
      | _ => bind (whole (torch_itemsize d) body) (fun n =>
             if (N.of_nat n =? prod shape)%N then Ok (LTensor d shape body) else Err RuntimeError)
      end) end)
  | SPickle => unpickle data                                      (* 366-367 *)
  end end.

End Codec.
