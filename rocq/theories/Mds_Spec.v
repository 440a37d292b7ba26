(** What the properties about MDS datasets say: what MosaicML's writer puts into shards and index. *)
From Coq Require Import String NArith ZArith.
From Verif Require Import Base Assign_Model Config_Model Config_Spec Format_Model Codec_Model Tree_Model Names_Model Size_Model
  Paths_Model Unzip_Model Unzip_Spec Mds_Model.
Local Open Scope list_scope.
Local Open Scope nat_scope.

(** A column: name, encoding, fixed size in bytes if it has one. *)
Record column := Column { col_name : str; col_encoding : str; col_size : option N }.

(** One value of a column and its bytes in the encodings that the two libraries share. *)
Inductive mds_value (decode : str -> bytes -> res leaf) : str -> leaf -> bytes -> Prop :=
| VInt z : (- 2 ^ 63 <= z < 2 ^ 63)%Z -> mds_value decode (codes "int") (LInt z) (le 8 (Z.to_N (z mod 2 ^ 64)))
| VStr s b : utf8 s = Ok b -> mds_value decode (codes "str") (LStr s) b
| VBytes b : mds_value decode (codes "bytes") (LBytes b) b
| VPil w h mode m raw : (w < two32)%N -> (h < two32)%N -> utf8 mode = Ok m -> (blen m < two32)%N ->
    mds_value decode (codes "pil") (LPil w h mode raw) (le32 w ++ le32 h ++ le32 (blen m) ++ m ++ raw)
| VJpeg v b : decode (codes "jpeg") b = Ok v -> mds_value decode (codes "jpeg") v b.

(** A sample: the sizes of the columns without a fixed size, then the values. *)
Fixpoint size_head (cols : list column) (data : list bytes) : bytes :=
  match cols, data with
  | c :: cols', b :: data' =>
      match col_size c with Some _ => size_head cols' data' | None => le32 (blen b) ++ size_head cols' data' end
  | _, _ => []
  end.
Definition mds_item (cols : list column) (data : list bytes) : bytes := size_head cols data ++ concat data.

(** A shard: the number of samples, the positions where they begin and the last one ends, the writer's
    configuration, the samples. *)
Fixpoint positions (at_ : N) (items : list bytes) : list N :=
  match items with [] => [at_] | x :: items' => at_ :: positions (at_ + blen x) items' end.
Definition mds_file (config : bytes) (items : list bytes) : bytes :=
  let n := N.of_nat (length items) in
  le32 n ++ flat_map le32 (positions (4 + 4 * (n + 1) + blen config) items) ++ config ++ concat items.

(** A shard to be written: the name of its file, the writer's configuration, the samples (values by column) and
    their bytes. *)
Record wshard := WShard { w_raw : str; w_config : bytes; w_values : list (list leaf); w_data : list (list bytes) }.
Definition raw_file (cols : list column) (w : wshard) : bytes := mds_file (w_config w) (map (mds_item cols) (w_data w)).

Inductive values_ok (decode : str -> bytes -> res leaf) : list column -> list leaf -> list bytes -> Prop :=
| values_nil : values_ok decode [] [] []
| values_cons c v b cs vs bs :
    mds_value decode (col_encoding c) v b -> (forall n, col_size c = Some n -> (0 < n)%N /\ blen b = n) ->
    values_ok decode cs vs bs -> values_ok decode (c :: cs) (v :: vs) (b :: bs).

(** The compressed file carries the extension ".zstd", whatever the level. *)
Definition zip_name (w : wshard) : str := w_raw w ++ codes ".zstd".
Definition zip_file (compress : bytes -> bytes) (cols : list column) (w : wshard) : bytes := compress (raw_file cols w).

(** The entry of a shard in the index: with compression [comp], and without. *)
Definition zipped (comp : str) (compress : bytes -> bytes) (cols : list column) (w : wshard) : shard :=
  Shard (map col_name cols) (map col_encoding cols) (map col_size cols) (Some comp) (codes "mds")
        (Some (zip_name w, blen (zip_file compress cols w))) (length (w_values w)).
Definition unzipped (cols : list column) (w : wshard) : shard :=
  Shard (map col_name cols) (map col_encoding cols) (map col_size cols) None (codes "mds") None (length (w_values w)).

Definition shared_encodings : list string := ["int"; "str"; "bytes"; "pil"; "jpeg"]%string.

(** A dataset: shards of the same columns, less than 4 GiB each, with different plain names. *)
Definition shard_ok (decode : str -> bytes -> res leaf) (cols : list column) (w : wshard) : Prop :=
  Forall2 (values_ok decode cols) (w_values w) (w_data w) /\ (blen (raw_file cols w) < two32)%N /\
  ~ In slash (w_raw w) /\ contains (codes ".zstd") (w_raw w) = false.
Definition mds_ok (decode : str -> bytes -> res leaf) (cols : list column) (ws : list wshard) : Prop :=
  ws <> [] /\ NoDup (map w_raw ws) /\ Forall (fun c => In (col_encoding c) (map codes shared_encodings)) cols /\
  Forall (shard_ok decode cols) ws.

(** The samples of the dataset, in order, and a sample as it is handed out: a dict of the columns. *)
Definition all_values (ws : list wshard) : list (list leaf) := flat_map w_values ws.
Definition as_dict (cols : list column) (vs : list leaf) : tree leaf :=
  Node (NDict (map (fun c => KStr (col_name c)) cols)) (map (fun v => Leaf v) vs).

(** A codec that gives back what it was given. *)
Definition lossless (compress : bytes -> bytes) (decompress : bytes -> res bytes) : Prop :=
  forall b, decompress (compress b) = Ok b.

(** The directory of the dataset (or its cache directory): an ordinary name without the extension. *)
Definition plain_dir (cache : str) : Prop := dir_name cache /\ contains (codes ".zstd") cache = false.

(** Where the compressed files are at the beginning: in the directory of the dataset, or in the remote
    directory and not in the cache. *)
Definition stored (compress : bytes -> bytes) (cols : list column) (ws : list wshard) (cache : str)
           (remote : option (str -> option bytes)) (d : files) : Prop :=
  forall w, In w ws ->
    d (cache ++ slash :: w_raw w) = None /\
    match remote with
    | None => d (cache ++ slash :: zip_name w) = Some (zip_file compress cols w)
    | Some store => d (cache ++ slash :: zip_name w) = None /\ store (zip_name w) = Some (zip_file compress cols w)
    end.

(** The positions asked for, in order. *)
Definition gets (es : list mevent) : list Z :=
  flat_map (fun e => match e with MGet i => [i] | _ => [] end) es.

(** The shard that holds position [i]. *)
Fixpoint shard_at (ws : list wshard) (i : nat) : option wshard :=
  match ws with
  | [] => None
  | w :: ws' => if i <? length (w_values w) then Some w else shard_at ws' (i - length (w_values w))
  end.

(** The encodings that litdata knows, and a name that is not one of them in any reading. *)
Definition known_encodings : list string :=
  ["str"; "bool"; "int"; "float"; "video"; "tifffile"; "file"; "pil"; "jpeg"; "jpeg_array"; "bytes"; "no_header_numpy";
   "numpy"; "no_header_tensor"; "tensor"; "pickle"]%string.
Definition unknown_encoding (e : str) : Prop :=
  forall part, In part (split colon e) -> ~ In part (map codes known_encodings).
