(** Model of datasets in MosaicML's shard format (MDS): the adapted index, opening, the files of the
    cache directory and [dataset[i]].
    Source: src/litdata/utilities/dataset_utilities.py 229-301, src/litdata/streaming/config.py 56-175 and
    236-269, 313-326, src/litdata/streaming/item_loader.py 45-85 and 146-285, src/litdata/streaming/compression.py
    44-79, src/litdata/streaming/serializers.py 516-546, src/litdata/streaming/reader.py 475-516.

    Simplifications: no subsampling; the background thread carries out a request before the reader looks for
    the file; a request that fails leaves the reader waiting, which ends with FileNotFoundError; closing the
    open file at the end of a pass is left out (Encrypt_Model.v has it). *)
From Coq Require Import String NArith ZArith.
From Verif Require Import Base Assign_Model Config_Model Format_Model Codec_Model Tree_Model Sample_Model Names_Model
  Size_Model Paths_Model Unzip_Model.
Local Open Scope list_scope.
Local Open Scope nat_scope.

(** An entry of "shards" in MosaicML's index.json: "column_names", "column_encodings", "column_sizes"
    ([None] for null), "compression", "format", "zip_data" (basename and bytes; null without compression),
    "samples".  What litdata does not look at ("raw_data", hashes, ...) is left out. *)
Record shard := Shard {
  s_names : list str;
  s_encodings : list str;
  s_sizes : list (option N);
  s_compression : option str;
  s_format : str;
  s_zip : option (str * N);
  s_samples : nat
}.

(** An entry of the adapted "chunks": filename, chunk_bytes, chunk_size, column_sizes. *)
Record mchunk := MChunk { c_name : str; c_bytes : N; c_samples : nat; c_sizes : list (option N) }.

(** The adapted index: chunks, and of its config the entries "compression", "data_format", "format" and
    "data_spec" (spelled as in Tree_Model.v). *)
Record mindex := MIndex {
  i_chunks : list mchunk;
  i_compression : option str;
  i_format : list str;
  i_kind : str;
  i_spec : spec json
}.

(** dataset_utilities.py 269-301: [adapt_mds_shards_to_chunks].  Subscripting None raises TypeError, line 285
    fails for an empty list. *)
Definition adapt_shard (s : shard) : res mchunk :=
  match s_zip s with
  | None => Err TypeError
  | Some (name, n) => Ok (MChunk name n (s_samples s) (s_sizes s))
  end.
Definition adapt (shards : list shard) : res mindex :=
  bind (mapM adapt_shard shards) (fun chunks =>
  match shards with
  | [] => Err IndexError
  | s :: _ =>
      Ok (MIndex chunks (s_compression s) (s_encodings s) (s_format s)
            (SNode (NDict (map JStr (s_names s))) (map (fun _ => SLeaf) (s_names s))))
  end).

(** serializers.py 516-535: the serializers by name; those that decode images, videos and files stand for
    themselves ([Decoder]). *)
Inductive entry := Entry (f : fmt) | Decoder (name : str).
Definition serializer_of (name : str) : res entry :=
  match find (fun p => if list_eq_dec N.eq_dec name (codes (fst p)) then true else false)
    [("str", Entry (Fmt SStr None)); ("bool", Entry (Fmt SBool None)); ("int", Entry (Fmt SInt None));
     ("float", Entry (Fmt SFloat None)); ("video", Decoder (codes "video")); ("tifffile", Decoder (codes "tifffile"));
     ("file", Decoder (codes "file")); ("pil", Entry (Fmt SPil None)); ("jpeg", Decoder (codes "jpeg"));
     ("jpeg_array", Entry (Fmt SJpegs None)); ("bytes", Entry (Fmt SBytes None));
     ("no_header_numpy", Entry (Fmt SNoHeadNumpy None)); ("numpy", Entry (Fmt SNumpy None));
     ("no_header_tensor", Entry (Fmt SNoHeadTensor None)); ("tensor", Entry (Fmt STensor None));
     ("pickle", Entry (Fmt SPickle None))]%string
  with
  | Some p => Ok (snd p)
  | None => Err KeyError
  end.

(** item_loader.py 63-67 and 73-80: the serializer of an entry of the data format.  Unpacking a split with more
    than two parts raises ValueError.  Simplification: the dtype after the colon of "no_header_tensor" and
    "no_header_numpy", which no MDS dataset has, is not parsed. *)
Definition colon : N := 58%N.
Definition entry_of (name : str) : res entry :=
  match split colon name with
  | [_] => serializer_of name
  | [a; b] => match serializer_of b with Ok e => Ok e | Err _ => serializer_of a end
  | _ => Err ValueError
  end.

(** compression.py 69-79: the registered names. *)
Definition compressors : list str := codes "zstd" :: map (fun k => codes "zstd:" ++ dec k) (seq 1 22).

(** An opened dataset. *)
Record mopen := MOpen {
  o_cache : str;
  o_remote : option (str -> option bytes);
  o_chunks : list mchunk;
  o_kind : str;
  o_entries : list entry;
  o_spec : spec key;
  o_comp : option str;
  o_ivs : list interval
}.

(** config.py 313-326: [_validate_item_loader] with the default loader (an adapted index has no "item_loader"). *)
Definition validate (fmts : list str) : res unit :=
  match fmts with
  | [f] => if starts (codes "no_header_tensor") f then Err ValueError else Ok tt
  | _ => Ok tt
  end.

(** config.py 90-101: an empty name is no compression. *)
Definition find_compressor (c : option str) : res (option str) :=
  match c with
  | None | Some [] => Ok None
  | Some c => if existsb (fun x => if list_eq_dec N.eq_dec c x then true else false) compressors then Ok (Some c) else Err ValueError
  end.

(** config.py 64-101 (with dataset_utilities.py 214-226 for the regions): opening the index at [cache];
    [remote]: the files of the remote directory, if there is one. *)
Definition open_mds (cache : str) (remote : option (str -> option bytes)) (shards : list shard) : res mopen :=
  bind (adapt shards) (fun ix =>
  bind (validate (i_format ix)) (fun _ =>
  bind (spec_of_json (fun _ => false) (i_spec ix)) (fun sp =>
  bind (mapM entry_of (i_format ix)) (fun es =>
  let sizes := map c_samples (i_chunks ix) in
  bind (generate_intervals sizes (Some (map (fun n => (0, n)) sizes))) (fun ivs =>
  bind (find_compressor (i_compression ix)) (fun comp =>
  Ok (MOpen cache remote (i_chunks ix) (i_kind ix) es sp comp ivs))))))).

(** config.py 86: [len] of the dataset. *)
Definition mds_length (o : mopen) : nat := last (map iv_end (o_ivs o)) 0.

Section Read.
Context (decompress : bytes -> res bytes) (unpickle : bytes -> res leaf) (decode : str -> bytes -> res leaf).

(** config.py 126-128 and 153, 250-253: the path of a chunk and the path from which it is read. *)
Definition path_of (o : mopen) (c : mchunk) : str := join (o_cache o) (c_name c).
Definition target_of (o : mopen) (c : mchunk) : str :=
  match o_comp o with Some comp => replace (dot :: comp) [] (path_of o c) | None => path_of o c end.

(** config.py 149-168: [try_decompress]. *)
Definition try_decompress (o : mopen) (c : mchunk) (d : files) : files :=
  match o_comp o with
  | None => d
  | Some _ =>
      match d (target_of o c), d (path_of o c) with
      | None, Some data =>
          let d := match o_remote o with Some _ => set_file d (path_of o c) None | None => d end in
          match decompress data with Ok x => set_file d (target_of o c) (Some x) | Err _ => d end
      | _, _ => d
      end
  end.

(** config.py 124-147: [download_chunk_from_index]. *)
Definition prepare (o : mopen) (c : mchunk) (d : files) : files :=
  match d (path_of o c) with
  | Some _ => try_decompress o c d
  | None =>
      match o_remote o with
      | None => d
      | Some store =>
          match store (c_name c) with
          | None => d
          | Some data => try_decompress o c (set_file d (path_of o c) (Some data))
          end
      end
  end.

(** reader.py 363: only then is there a thread that prepares and deletes chunks. *)
Definition threaded (o : mopen) : bool :=
  match o_remote o, o_comp o with None, None => false | _, _ => true end.

(** item_loader.py 266-285 and 287-297 with 213-216: one item, decoded. *)
Definition decode_entry (e : entry) (b : bytes) : res leaf :=
  match e with Entry f => deserialize unpickle f b | Decoder name => decode name b end.
Definition size_or_zero (s : option N) : N := match s with Some n => n | None => 0%N end.
Definition decode_item (o : mopen) (c : mchunk) (raw : bytes) : res (tree leaf) :=
  bind (if list_eq_dec N.eq_dec (o_kind o) (codes "mds")
        then mds_decode (map size_or_zero (c_sizes c)) (length (o_entries o)) raw
        else decode_fields (length (o_entries o)) raw) (fun fields =>
  bind (mapM (fun p => decode_entry (snd p) (fst p)) (combine fields (o_entries o))) (unflatten (o_spec o))).

(** Files, and the path and content of the file that the item loader has open. *)
Definition mstate : Type := files * option (str * bytes).

(** item_loader.py 181-205: the file is opened once it is at least as large as "chunk_bytes". *)
Definition open_file (o : mopen) (c : mchunk) (s : mstate) : res bytes * mstate :=
  let p := target_of o c in
  match snd s with
  | Some (q, f) => if list_eq_dec N.eq_dec q p then (Ok f, s)
                   else match fst s p with
                        | Some f => if (c_bytes c <=? blen f)%N then (Ok f, (fst s, Some (p, f))) else (Err FileNotFoundError, s)
                        | None => (Err FileNotFoundError, s)
                        end
  | None => match fst s p with
            | Some f => if (c_bytes c <=? blen f)%N then (Ok f, (fst s, Some (p, f))) else (Err FileNotFoundError, s)
            | None => (Err FileNotFoundError, s)
            end
  end.

(** reader.py 383-385: a chunk other than the last one is asked for.  Simplification: the last chunk is the one
    whose file is open. *)
Definition ask (o : mopen) (c : mchunk) (s : mstate) : mstate :=
  let asked := if threaded o then (prepare o c (fst s), snd s) else s in
  match snd s with
  | Some (q, _) => if list_eq_dec N.eq_dec q (target_of o c) then s else asked
  | None => asked
  end.

(** reader.py 363-403 with config.py 211-269 and item_loader.py 146-221: [dataset[i]]. *)
Definition mds_get (o : mopen) (i : Z) (s : mstate) : res (tree leaf) * mstate :=
  match get_chunk_index (o_ivs o) i with
  | Err e => (Err e, s)
  | Ok (index, k) =>
      match nth_error (o_chunks o) k, nth_error (o_ivs o) k with
      | Some c, Some iv =>
          let (f, s) := open_file o c (ask o c s) in
          (bind f (fun f => bind (load_item f index (iv_start iv)) (decode_item o c)), s)
      | _, _ => (Err IndexError, s)
      end
  end.

(** What happens to an opened dataset: a sample is read, a chunk is prepared ahead or deleted
    (reader.py 130-158 with item_loader.py 305-322) by the thread. *)
Inductive mevent := MGet (i : Z) | MPrepare (k : nat) | MDelete (k : nat).
Definition mds_step (o : mopen) (e : mevent) (s : mstate) : option (Z * res (tree leaf)) * mstate :=
  match e with
  | MGet i => let (r, s) := mds_get o i s in (Some (i, r), s)
  | MPrepare k =>
      (None, match nth_error (o_chunks o) k with
             | Some c => if threaded o then (prepare o c (fst s), snd s) else s
             | None => s
             end)
  | MDelete k =>
      (None, match nth_error (o_chunks o) k with
             | Some c => if threaded o then (set_file (fst s) (target_of o c) None, snd s) else s
             | None => s
             end)
  end.
Fixpoint mds_run (o : mopen) (es : list mevent) (s : mstate) : list (Z * res (tree leaf)) :=
  match es with
  | [] => []
  | e :: es' =>
      let (r, s) := mds_step o e s in
      match r with Some x => x :: mds_run o es' s | None => mds_run o es' s end
  end.

End Read.

(** config.py 104-109: [filename_to_size_map] of a dataset with compression [comp]. *)
Definition mds_size_map (comp : str) (chunks : list mchunk) : list (str * nat) :=
  map (fun c => (replace (dot :: comp) [] (c_name c), N.to_nat (c_bytes c))) chunks.
