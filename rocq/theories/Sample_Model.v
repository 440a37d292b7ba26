(** Model of writing and reading samples: the data format inferred from the first
    sample, the encoding of a sample, the entries of the index file.
    Source: src/litdata/streaming/writer.py 145-206, src/litdata/streaming/item_loader.py
    45-85, 287-297 and 337-364, src/litdata/streaming/config.py 56-109. *)
From Verif Require Import Base Format_Model Codec_Model Tree_Model.
From Coq Require Import NArith ZArith.

(** writer.py 88-92: [_data_format] and [_data_spec]. *)
Record fstate := FState { f_format : option (list fmt); f_spec : option (spec key) }.
Definition fresh : fstate := FState None None.

Section Sample.
Context (isfile : list N -> bool) (pickle : leaf -> bytes) (unpickle : bytes -> res leaf).
Context (registered_w registered_r : nat -> bool).

(** writer.py 159-182, with 184-195 and 197-206 inlined: [serialize].  The data
    format and spec of the first sample are kept; later samples are serialized with
    its serializers, pairing leaves and format entries with [zip]. *)
Definition encode_with (rs : list (bytes * serializer)) : bytes :=
  encode_fields (map fst rs) (map (fun r => declared_size (snd r) (fst r)) rs).
Definition serialize_sample (st : fstate) (t : tree leaf) : res (bytes * fstate) :=
  let flat := tree_flatten t in
  match f_format st with
  | None =>
      bind (mapM (serialize_new isfile pickle) (fst flat)) (fun rs =>
      Ok (encode_with (map (fun r => (fst r, fmt_serializer (snd r))) rs),
          FState (Some (map snd rs)) (Some (snd flat))))
  | Some [] => Err AssertionError
  | Some fs =>
      bind (mapM (fun p => bind (serialize pickle (fmt_serializer (snd p)) (fst p)) (fun r =>
                           Ok (fst r, fmt_serializer (snd p))))
                 (combine (fst flat) fs)) (fun rs =>
      Ok (encode_with rs, st))
  end.

(** The samples of one writer, one after the other. *)
Fixpoint serialize_all (st : fstate) (ts : list (tree leaf)) : res (list bytes * fstate) :=
  match ts with
  | [] => Ok ([], st)
  | t :: ts' =>
      bind (serialize_sample st t) (fun r =>
      bind (serialize_all (snd r) ts') (fun q => Ok (fst r :: fst q, snd q)))
  end.

(** writer.py 145-157: the data format and spec in the index file; [data_spec] is
    None if no sample was written. *)
Definition get_config (st : fstate) : res (option (list fmt) * option (spec json)) :=
  match f_spec st with
  | None => Ok (f_format st, None)
  | Some s => bind (spec_to_json registered_w s) (fun j => Ok (f_format st, Some j))
  end.

(** config.py 80-96: the data format and spec of an opened dataset. *)
Definition open_config (c : option (list fmt) * option (spec json)) : res (list fmt * spec key) :=
  match c with
  | (Some fs, Some j) => bind (spec_of_json registered_r j) (fun s => Ok (fs, s))
  | _ => Err TypeError
  end.

(** item_loader.py 287-297: [PyTreeLoader.deserialize]. *)
Definition deserialize_sample (c : list fmt * spec key) (raw : bytes) : res (tree leaf) :=
  bind (decode_fields (length (fst c)) raw) (fun fields =>
  bind (mapM (fun p => deserialize unpickle (snd p) (fst p)) (combine fields (fst c))) (unflatten (snd c))).

(** A dataset written by one writer: the encoded samples and the index entries. *)
Definition write_samples (ts : list (tree leaf)) : res (list bytes * (option (list fmt) * option (spec json))) :=
  bind (serialize_all fresh ts) (fun r => bind (get_config (snd r)) (fun c => Ok (fst r, c))).

(** ... and read back. *)
Definition read_samples (d : list bytes * (option (list fmt) * option (spec json))) : res (list (tree leaf)) :=
  bind (open_config (snd d)) (fun c => mapM (deserialize_sample c) (fst d)).

End Sample.
