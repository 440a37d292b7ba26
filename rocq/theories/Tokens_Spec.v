(** What the properties about datasets of tokens say. *)
From Verif Require Import Base Format_Model Codec_Model Tree_Model Tree_Spec Tokens_Model.
From Coq Require Import NArith.

(** A token is a group of bytes; a document is a list of tokens; as a value it is a one-dimensional array or tensor. *)
Definition token := list N.
Definition array (k : tkind) (doc : list token) : leaf :=
  match k with
  | Torch d => LTensor d [N.of_nat (length doc)] (concat doc)
  | Numpy i => LArr i [N.of_nat (length doc)] (concat doc)
  end.
(** Dtypes that numpy can write: no bfloat16, no objects. *)
Definition plain_kind (k : tkind) : Prop := match k with Torch d => d <> BF16 | Numpy i => i < 14 end.
(** Bytes of a token: of the torch dtypes, and of int8, int16, int32, int64, uint8, uint16, uint32, uint64, float16, float32,
    float64, complex64, complex128 and bool of numpy. *)
Definition width (k : tkind) : nat :=
  match k with
  | Torch (U8 | I8 | BOOL) => 1 | Torch (F16 | BF16 | I16) => 2 | Torch (F32 | I32) => 4 | Torch (F64 | I64 | C64) => 8 | Torch C128 => 16
  | Numpy (0 | 4 | 13) => 1 | Numpy (1 | 5 | 8) => 2 | Numpy (2 | 6 | 9) => 4 | Numpy (3 | 7 | 10 | 11) => 8 | Numpy 12 => 16 | Numpy _ => 8
  end.
(** A document: at least one token, all of the size of the dtype. *)
Definition document (k : tkind) (doc : list token) : Prop := doc <> [] /\ Forall (fun t => length t = width k) doc.

(** [samples] are the [tokens] cut into blocks; fewer than a block are left over. *)
Definition cut {A} (block : nat) (tokens : list A) (samples : list (list A)) : Prop :=
  exists rest, concat samples ++ rest = tokens /\ length rest < block /\ Forall (fun s => length s = block) samples.

(** Limits of a chunk: at most so many tokens and bytes, unless it is a single document. *)
Definition under (limit : option nat) (n : nat) : Prop := match limit with None | Some 0 => True | Some k => n <= k end.
Definition chunk_ok (k : tkind) (chunk_bytes chunk_size : option nat) (docs : list (list token)) : Prop :=
  docs <> [] /\
  (length docs = 1 \/ under chunk_size (length (concat docs)) /\ under chunk_bytes (width k * length (concat docs))).
