(** From the samples given to a writer to the samples yielded by a dataset: the models of
    the writer, the index file, the reader and the default item loader put together.
    Source: src/litdata/streaming/writer.py, config.py, cache.py, reader.py 347-448,
    dataset.py 389-480, item_loader.py 119-335.

    Simplifications: one writer (rank 0), no subsampling, no background thread (chunk
    files are in the cache directory when they are asked for, see Prefetch_Model.v and
    Read_Model.v); the index file is not spelled out as JSON (see Sample_Model.v for the data spec). *)
From Verif Require Import Base Assign_Model Config_Model Iter_Model Format_Model Codec_Model Tree_Model Sample_Model
  Writer_Model Encrypt_Model.

(** The index file: chunk entries with "chunk_bytes", data format and spec, encryption
    and whether the chunks are compressed; and the files next to it, by chunk number. *)
Record written := Written {
  x_chunks : list (cinfo * nat);
  x_format : option (list fmt) * option (spec json);
  x_enc : option (nat * level);
  x_files : list (nat * bytes)
}.

Section Dataset.
Context (isfile : list N -> bool) (pickle : leaf -> bytes) (unpickle : bytes -> res leaf).
Context (registered_w registered_r : nat -> bool).

(** A writer that is given the samples [ts] with indexes 0, 1, ... and [done] (writer.py
    321-369, 425-443 and 415-423).  [PyTreeLoader.encode_data] gives no dimension (item_loader.py 364). *)
Definition write_dataset (chunk_bytes chunk_size : option nat) (compress : bytes -> bytes) (e : option cipher)
           (ts : list (tree leaf)) : res written :=
  bind (write_samples isfile pickle registered_w ts) (fun w =>
  bind (write_items chunk_bytes chunk_size compress e (map (fun b => Item b None) (fst w))) (fun s =>
  Ok (Written (map (fun ch => (Ci (ch_index ch) (ch_size ch) (ch_dim ch), ch_bytes ch)) (w_chunks s))
              (snd w) (option_map enc_state e) (map (fun ch => (ch_index ch, ch_file ch)) (w_chunks s))))).

(** An opened dataset (config.py 64-96): entries, format and spec, encryption, intervals. *)
Record opened := Opened {
  o_chunks : list (cinfo * nat);
  o_conf : list fmt * spec key;
  o_enc : option (nat * level);
  o_ivs : list interval;
  o_disk : disk
}.

(** config.py 151-175: the chunk files are decompressed next to the compressed ones; a file
    that cannot be decompressed does not appear. *)
Definition local_files (decompress : bytes -> res bytes) (files : list (nat * bytes)) : disk := fun p =>
  match find (fun f => fst f =? p) files with
  | Some f => match decompress (snd f) with Ok d => Some d | Err _ => None end
  | None => None
  end.

Definition open_dataset (decompress : bytes -> res bytes) (x : written) : res opened :=
  bind (open_config registered_r (x_format x)) (fun conf =>
  bind (sizes_of ByItem (map fst (x_chunks x))) (fun sizes =>
  bind (generate_roi ByItem (map fst (x_chunks x))) (fun rois =>
  bind (generate_intervals sizes (Some rois)) (fun ivs =>
  Ok (Opened (x_chunks x) conf (x_enc x) ivs (local_files decompress (x_files x))))))).

(** reader.py 391-403 with config.py 236-269 and item_loader.py 146-221: one sample, given the
    index and the chunk index.  [key]: the encryption object of the dataset. *)
Definition read_sample (o : opened) (key : option cipher) (st : pyl) (chunk index : nat) : res (tree leaf * pyl) :=
  match nth_error (o_chunks o) chunk, nth_error (o_ivs o) chunk with
  | Some (c, size), Some iv =>
      bind (load_bytes (o_enc o) key (o_disk o) index chunk (k_file c) (iv_start iv) size st) (fun r =>
      bind (deserialize_sample unpickle (o_conf o) (fst r)) (fun t => Ok (t, snd r)))
  | _, _ => Err IndexError
  end.

(** Several reads, one after the other, with one loader. *)
Fixpoint read_list (o : opened) (key : option cipher) (st : pyl) (l : list (nat * nat)) : res (list (tree leaf) * pyl) :=
  match l with
  | [] => Ok ([], st)
  | (c, i) :: l' =>
      bind (read_sample o key st c i) (fun r =>
      bind (read_list o key (snd r) l') (fun q => Ok (fst r :: fst q, snd q)))
  end.

(** dataset.py 389-412: [dataset[i]] for an integer. *)
Definition get_item (o : opened) (key : option cipher) (st : pyl) (i : Z) : res (tree leaf * pyl) :=
  bind (get_chunk_index (o_ivs o) i) (fun rc => read_sample o key st (snd rc) (fst rc)).
Fixpoint get_items (o : opened) (key : option cipher) (st : pyl) (l : list Z) : res (list (tree leaf) * pyl) :=
  match l with
  | [] => Ok ([], st)
  | i :: l' =>
      bind (get_item o key st i) (fun r =>
      bind (get_items o key (snd r) l') (fun q => Ok (fst r :: fst q, snd q)))
  end.

(** dataset.py 414-473: what one dataloader worker yields for the requests it makes. *)
Definition yielded (o : opened) (key : option cipher) (reqs : list request) : res (list (tree leaf)) :=
  bind (read_list o key new_loader (map (fun r => (rq_chunk r, rq_index r)) reqs)) (fun r => Ok (fst r)).

(** reader.py 427-443: the last sample of a pass ends with the loader closed if the chunks are remote
    or compressed (only then is there a thread). *)
Definition after_pass (remote : bool) (st : pyl) : pyl := if remote then close_loader st else st.

End Dataset.
