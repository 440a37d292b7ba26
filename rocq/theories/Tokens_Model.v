(** From the documents given to a writer with a TokensLoader to the blocks of tokens of the dataset.
    Source: src/litdata/streaming/item_loader.py 373-432, 434-521 and 561-589, src/litdata/streaming/writer.py
    159-206 and 321-443, src/litdata/streaming/config.py 56-109 and 219-269, src/litdata/utilities/dataset_utilities.py 214-226.

    Simplifications: as in Dataset_Model.v (one writer, no subsampling, the files are in the cache directory when they are
    asked for; the memory maps are the subject of Loader_Model.v and Items_Model.v); no encryption (see load_tokens
    in Encrypt_Model.v for what becomes of it). *)
From Verif Require Import Base Assign_Model Config_Model Iter_Model Format_Model Codec_Model Tree_Model Sample_Model
  Writer_Model Encrypt_Model Dataset_Model.
From Coq Require Import NArith ZArith.

(** item_loader.py 589: [flattened[0].shape[0]]; other values have no [shape] (AttributeError). *)
Definition first_dim (l : leaf) : res nat :=
  match l with
  | LArr _ shape _ | LTensor _ shape _ => match shape with n :: _ => Ok (N.to_nat n) | [] => Err IndexError end
  | _ => Err GenericException
  end.

(** item_loader.py 561-589: [TokensLoader.encode_data]: the bytes of the first value and its number of tokens. *)
Definition encode_tokens (data : list bytes) (flat : list leaf) : res item :=
  match data, flat with
  | d :: _, l :: _ => bind (first_dim l) (fun n => Ok (Item d (Some n)))
  | _, _ => Err IndexError
  end.

Section Tokens.
Context (isfile : list N -> bool) (pickle : leaf -> bytes).
Context (registered_w registered_r : nat -> bool).

(** writer.py 159-206 as in Sample_Model.v, with [encode_data] of the TokensLoader. *)
Definition serialize_tokens (st : fstate) (t : tree leaf) : res (item * fstate) :=
  let flat := tree_flatten t in
  match f_format st with
  | None =>
      bind (mapM (serialize_new isfile pickle) (fst flat)) (fun rs =>
      bind (encode_tokens (map fst rs) (fst flat)) (fun x =>
      Ok (x, FState (Some (map snd rs)) (Some (snd flat)))))
  | Some [] => Err AssertionError
  | Some fs =>
      bind (mapM (fun p => bind (serialize pickle (fmt_serializer (snd p)) (fst p)) (fun r => Ok (fst r))) (combine (fst flat) fs)) (fun data =>
      bind (encode_tokens data (fst flat)) (fun x => Ok (x, st)))
  end.
Fixpoint serialize_docs (st : fstate) (ts : list (tree leaf)) : res (list item * fstate) :=
  match ts with
  | [] => Ok ([], st)
  | t :: ts' =>
      bind (serialize_tokens st t) (fun r =>
      bind (serialize_docs (snd r) ts') (fun q => Ok (fst r :: fst q, snd q)))
  end.

(** writer.py 321-369, 425-443 and 415-423. *)
Definition write_tokens (chunk_bytes chunk_size : option nat) (compress : bytes -> bytes) (ts : list (tree leaf)) : res written :=
  bind (serialize_docs fresh ts) (fun w =>
  bind (write_items chunk_bytes chunk_size compress None (fst w)) (fun s =>
  bind (get_config registered_w (snd w)) (fun c =>
  Ok (Written (map (fun ch => (Ci (ch_index ch) (ch_size ch) (ch_dim ch), ch_bytes ch)) (w_chunks s))
              c None (map (fun ch => (ch_index ch, ch_file ch)) (w_chunks s)))))).

(** item_loader.py 405-413: the serializer of the first entry of the data format and its dtype. *)
Inductive tkind := Torch (d : tdtype) | Numpy (i : nat).
Definition token_kind (fs : list fmt) : res tkind :=
  match fs with
  | Fmt SNoHeadTensor (Some i) :: _ => bind (torch_dtype i) (fun d => Ok (Torch d))
  | Fmt SNoHeadNumpy (Some i) :: _ => match nth_error numpy_itemsizes (N.to_nat i) with Some _ => Ok (Numpy (N.to_nat i)) | None => Err KeyError end
  | [] => Err IndexError
  | _ => Err ValueError
  end.
Definition itemsize (k : tkind) : nat :=
  match k with Torch d => torch_itemsize d | Numpy i => nth i numpy_itemsizes 0 end.

(** An opened dataset with a TokensLoader of the given block size (dataset_utilities.py 214-226, then config.py 64-96 with
    item_loader.py 396-432). *)
Record tokens := Tokens_ {
  t_chunks : list (cinfo * nat);
  t_kind : tkind;
  t_block : nat;
  t_ivs : list interval;
  t_disk : disk
}.
Definition open_tokens (block : nat) (decompress : bytes -> res bytes) (x : written) : res tokens :=
  bind (generate_roi (ByBlock block) (map fst (x_chunks x))) (fun rois =>
  bind (open_config registered_r (x_format x)) (fun conf =>
  bind (token_kind (fst conf)) (fun k =>
  if forallb (fun c => match k_dim (fst c) with None => true | Some _ => false end) (x_chunks x) then Err ValueError
  else
  bind (sizes_of (ByBlock block) (map fst (x_chunks x))) (fun sizes =>
  bind (generate_intervals sizes (Some rois)) (fun ivs =>
  Ok (Tokens_ (x_chunks x) k block ivs (local_files decompress (x_files x)))))))).

(** item_loader.py 510-516: [frombuffer] gives an array of [block] tokens. *)
Definition block_of (k : tkind) (block : nat) (b : bytes) : leaf :=
  match k with Torch d => LTensor d [N.of_nat block] b | Numpy i => LArr i [N.of_nat block] b end.
(** reader.py 391-403 with config.py 236-269 and item_loader.py 465-521. *)
Definition read_block (o : tokens) (chunk index : nat) : res leaf :=
  match nth_error (t_chunks o) chunk, nth_error (t_ivs o) chunk with
  | Some (c, size), Some iv =>
      bind (load_tokens None (t_disk o) index (k_file c) (iv_start iv) size (k_size c) (itemsize (t_kind o)) (t_block o)) (fun b =>
      Ok (block_of (t_kind o) (t_block o) b))
  | _, _ => Err IndexError
  end.
(** dataset.py 389-412: [dataset[i]]. *)
Definition get_block (o : tokens) (i : Z) : res leaf :=
  bind (get_chunk_index (t_ivs o) i) (fun rc => read_block o (snd rc) (fst rc)).
(** dataset.py 414-473: what one worker yields for the requests it makes. *)
Definition blocks_yielded (o : tokens) (reqs : list request) : res (list leaf) :=
  mapM (fun r => read_block o (rq_chunk r) (rq_index r)) reqs.
End Tokens.
