(** Properties of datasets in MosaicML's shard format. *)
From Coq Require Import String NArith ZArith Lia.
From Verif Require Import Base Assign_Model Config_Model Config_Spec Format_Model Codec_Model Tree_Model Names_Model Size_Model Paths_Model
  Unzip_Model Unzip_Spec Mds_Model Mds_Spec Mds_Proofs.
Local Open Scope list_scope.
Local Open Scope nat_scope.
Local Ltac Zify.zify_post_hook ::= idtac.

(** * The cases *)

(** A codec for the examples: a file of two samples becomes shorter, any other one byte longer. *)
Definition ex_compress (b : bytes) : bytes :=
  match b with (2 :: 0 :: 0 :: 0 :: r)%N => 7%N :: r | _ => 8%N :: b end.
Definition ex_decompress (b : bytes) : res bytes :=
  match b with
  | (7 :: r)%N => Ok (2 :: 0 :: 0 :: 0 :: r)%N
  | (8 :: r)%N => Ok r
  | _ => Err GenericException
  end.
Lemma ex_lossless : lossless ex_compress ex_decompress.
Proof.
  intros b. unfold ex_compress.
  destruct b as [|b0 b]; [reflexivity|]. destruct b0 as [|[p|[p|p|]|]]; try reflexivity.
  destruct b as [|b1 b]; [reflexivity|]. destruct b1; try reflexivity.
  destruct b as [|b2 b]; [reflexivity|]. destruct b2; try reflexivity.
  destruct b as [|b3 b]; [reflexivity|]. destruct b3; reflexivity.
Qed.

Definition ex_decode (_ : str) (b : bytes) : res leaf := Ok (LOther (blen b)).
Definition ex_unpickle (_ : bytes) : res leaf := Err GenericException.
Definition ex_cols : list column :=
  [Column (codes "class") (codes "int") (Some 8%N); Column (codes "image") (codes "jpeg") None; Column (codes "text") (codes "str") None].
Definition ex_sample (z : Z) (jpeg : bytes) (text : string) : list leaf := [LInt z; LOther (blen jpeg); LStr (codes text)].
Definition ex_data (z : Z) (jpeg : bytes) (text : string) : list bytes :=
  [le 8 (Z.to_N (z mod 2 ^ 64)); jpeg; codes text].
Definition ex_shard (name : string) (l : list (Z * bytes * string)) : wshard :=
  WShard (codes name) (codes "{config}") (map (fun x => ex_sample (fst (fst x)) (snd (fst x)) (snd x)) l)
         (map (fun x => ex_data (fst (fst x)) (snd (fst x)) (snd x)) l).
Definition ex_ws : list wshard :=
  [ex_shard "shard.00000.mds" [((-1)%Z, [255; 216]%N, "cat"); (5%Z, [255]%N, "")]%string;
   ex_shard "shard.00001.mds" [(7%Z, [], "a dog"); (8%Z, [1; 2; 3]%N, "x")]%string].
Definition ex_cache : str := codes "/data/mds".

Definition ex_files (compress : bytes -> bytes) (ws : list wshard) : files :=
  fold_right (fun w d => set_file d (ex_cache ++ slash :: zip_name w) (Some (zip_file compress ex_cols w))) (fun _ => None) ws.

Lemma ex_values z jpeg text : (- 2 ^ 63 <= z < 2 ^ 63)%Z -> utf8 (codes text) = Ok (codes text) ->
  values_ok ex_decode ex_cols (ex_sample z jpeg text) (ex_data z jpeg text).
Proof.
  intros Hz Ht. apply values_cons; [constructor; exact Hz|intros n E; injection E as <-; split; reflexivity|].
  apply values_cons; [constructor; reflexivity|intros n E; discriminate E|].
  apply values_cons; [constructor; exact Ht|intros n E; discriminate E|]. apply values_nil.
Qed.

Lemma ex_shard_ok name l :
  Forall (fun x => (- 2 ^ 63 <= fst (fst x) < 2 ^ 63)%Z /\ utf8 (codes (snd x)) = Ok (codes (snd x))) l ->
  (blen (raw_file ex_cols (ex_shard name l)) <? two32)%N = true -> existsb (N.eqb slash) (codes name) = false ->
  contains (codes ".zstd") (codes name) = false -> shard_ok ex_decode ex_cols (ex_shard name l).
Proof.
  intros F H1 H2 H3. split; [|split; [apply N.ltb_lt; exact H1|split; [|exact H3]]].
  - clear H1 H2 H3. cbn [ex_shard w_values w_data]. induction F as [|x l [Hz Ht] _ IH]; [constructor|]. cbn [map]. constructor; [apply ex_values; assumption|].
    exact IH.
  - intros G. assert (E : existsb (N.eqb slash) (codes name) = true); [|congruence]. apply existsb_exists. exists slash. split; [exact G|reflexivity].
Qed.

Lemma ex_ok : mds_ok ex_decode ex_cols ex_ws.
Proof.
  split; [discriminate|]. split.
  - repeat constructor; cbn [ex_ws map In w_raw ex_shard]; intros H; repeat (destruct H as [H|H]; [discriminate|]); exact H.
  - split; [repeat constructor; cbn [map shared_encodings In col_encoding]; tauto|].
    constructor; [|constructor; [|constructor]]; apply ex_shard_ok; try reflexivity; repeat (apply Forall_cons; [cbn [fst snd]; split; [lia|reflexivity]|]); apply Forall_nil.
Qed.

Lemma ex_dir : plain_dir ex_cache.
Proof. split; [split; [discriminate|reflexivity]|reflexivity]. Qed.

Lemma ex_stored : stored ex_compress ex_cols ex_ws ex_cache None (ex_files ex_compress ex_ws).
Proof. intros w [<-|[<-|[]]]; split; vm_compute; reflexivity. Qed.

(** * C152: reading
    The claim: every dataset written by MosaicML's MDSWriter is read by [StreamingDataset] with the samples that were
    written, each a dict of its columns.  Proved for compression "zstd", columns of the encodings that both libraries
    have in common, shards below 4 GiB of the same columns that compression does not make larger; the other cases
    are C153-C157. *)
Theorem C152_mds_samples_partial compress decompress unpickle decode cols ws cache remote d :
  lossless compress decompress -> plain_dir cache -> mds_ok decode cols ws -> stored compress cols ws cache remote d ->
  Forall (fun w => (blen (zip_file compress cols w) <= blen (raw_file cols w))%N) ws ->
  exists o, open_mds cache remote (map (zipped (codes "zstd") compress cols) ws) = Ok o /\
    mds_length o = length (all_values ws) /\
    forall evs, mds_run decompress unpickle decode o evs (d, None) =
      map (fun i => (i, match at_index (all_values ws) i with
                        | Some vs => Ok (as_dict cols vs)
                        | None => Err ValueError
                        end)) (gets evs).
Proof.
  intros Hc Hd Hok Hs Hle. destruct (mds_all compress decompress unpickle decode cols ws cache remote d Hc Hd Hok Hs) as (o & E & L & R).
  exists o. split; [exact E|]. split; [exact L|]. intros evs. rewrite R. apply map_ext. intros i. f_equal. unfold answer, at_index.
  destruct (Z.ltb_spec i 0) as [_|Hi]; [reflexivity|]. destruct (nth_error (all_values ws) (Z.to_nat i)) as [vs|] eqn:Ev; [|reflexivity].
  destruct (locate 0 0 ws (Z.to_nat i)) as [[[k b] w]|] eqn:El.
  - destruct (locate_spec _ _ _ _ _ _ _ El) as (_ & Ek & _ & _ & _ & _ & ->). rewrite Forall_forall in Hle.
    specialize (Hle w (nth_error_In _ _ Ek)). destruct (N.leb_spec (blen (zip_file compress cols w)) (blen (raw_file cols w))); [reflexivity|lia].
  - destruct (locate_none _ _ _ _ El) as [G _]. congruence.
Qed.

(** Four samples in two shards, read in another order, with chunks prepared and deleted in between. *)
Example C152_case :
  Forall (fun w => (blen (zip_file ex_compress ex_cols w) <= blen (raw_file ex_cols w))%N) ex_ws /\
  match open_mds ex_cache None (map (zipped (codes "zstd") ex_compress ex_cols) ex_ws) with
  | Ok o =>
      mds_length o = 4 /\
      mds_run ex_decompress ex_unpickle ex_decode o [MGet 3; MDelete 1; MGet 2; MPrepare 0; MDelete 0; MGet 0; MGet 4; MGet 3]%Z
              (ex_files ex_compress ex_ws, None) =
      [(3%Z, Ok (as_dict ex_cols [LInt 8; LOther 3; LStr (codes "x")])); (2%Z, Ok (as_dict ex_cols [LInt 7; LOther 0; LStr (codes "a dog")]));
       (0%Z, Ok (as_dict ex_cols [LInt (-1); LOther 2; LStr (codes "cat")])); (4%Z, Err ValueError);
       (3%Z, Ok (as_dict ex_cols [LInt 8; LOther 3; LStr (codes "x")]))]
  | Err _ => False
  end.
Proof. split; [repeat constructor; vm_compute; discriminate|]. vm_compute. split; reflexivity. Qed.

(** A dataset of no samples has no shards; it cannot be opened. *)
Theorem C152_no_samples_refuted : exists cache, plain_dir cache /\ forall remote, open_mds cache remote [] = Err IndexError.
Proof. exists ex_cache. split; [exact ex_dir|]. reflexivity. Qed.

(** * C153: without compression
    The claim: a dataset written without compression (MDSWriter's default) can be opened.  Refuted: "zip_data" is
    null then, and opening raises TypeError, for every such dataset. *)
Theorem C153_uncompressed_opens_refuted : exists decode cols ws cache,
  mds_ok decode cols ws /\ plain_dir cache /\ forall remote, open_mds cache remote (map (unzipped cols) ws) = Err TypeError.
Proof. exists ex_decode, ex_cols, ex_ws, ex_cache. split; [exact ex_ok|]. split; [exact ex_dir|]. intros remote. vm_compute. reflexivity. Qed.

Theorem C153_uncompressed_refused cache remote shards : Exists (fun s => s_zip s = None) shards -> open_mds cache remote shards = Err TypeError.
Proof. intros H. unfold open_mds, adapt. rewrite (adapt_refused shards H). reflexivity. Qed.

Example C153_case : Exists (fun s => s_zip s = None) (map (unzipped ex_cols) ex_ws).
Proof. left. reflexivity. Qed.

(** * C154: with a level of compression
    The claim: a dataset written with compression "zstd:k" is read like one written with "zstd".  Refuted: the files
    are called "....zstd" all the same, so that the suffix ".zstd:k" is not found in their names and the compressed bytes
    are taken for the shard, for every such dataset in a local directory. *)
Theorem C154_level_samples_refuted : exists compress decompress unpickle decode cols ws cache d o vs,
  lossless compress decompress /\ plain_dir cache /\ mds_ok decode cols ws /\ stored compress cols ws cache None d /\
  Forall (fun w => (blen (zip_file compress cols w) <= blen (raw_file cols w))%N) ws /\
  open_mds cache None (map (zipped (codes "zstd:7") compress cols) ws) = Ok o /\
  at_index (all_values ws) 0 = Some vs /\
  fst (mds_get decompress unpickle decode o 0 (d, None)) <> Ok (as_dict cols vs).
Proof.
  exists ex_compress, ex_decompress, ex_unpickle, ex_decode, ex_cols, ex_ws, ex_cache, (ex_files ex_compress ex_ws).
  eexists. eexists. split; [exact ex_lossless|]. split; [exact ex_dir|]. split; [exact ex_ok|]. split; [exact ex_stored|].
  split; [repeat constructor; vm_compute; discriminate|]. split; [vm_compute; reflexivity|]. split; [vm_compute; reflexivity|].
  vm_compute. discriminate.
Qed.

Theorem C154_level_reads_compressed compress decompress unpickle decode cols ws cache d k :
  plain_dir cache -> mds_ok decode cols ws -> stored compress cols ws cache None d -> 1 <= k <= 22 ->
  exists o, open_mds cache None (map (zipped (codes "zstd:" ++ dec k) compress cols) ws) = Ok o /\
    forall i w, (0 <= i)%Z -> shard_at ws (Z.to_nat i) = Some w ->
      snd (snd (mds_get decompress unpickle decode o i (d, None))) = Some (cache ++ slash :: zip_name w, zip_file compress cols w).
Proof. apply level_reads. Qed.

Example C154_case :
  match open_mds ex_cache None (map (zipped (codes "zstd:22") ex_compress ex_cols) ex_ws) with
  | Ok o => option_map fst (snd (snd (mds_get ex_decompress ex_unpickle ex_decode o 2 (ex_files ex_compress ex_ws, None)))) =
              Some (codes "/data/mds/shard.00001.mds.zstd") /\
            shard_at ex_ws 2 = nth_error ex_ws 1
  | Err _ => False
  end.
Proof. vm_compute. split; reflexivity. Qed.

(** * C155: shards that compression makes larger
    The claim: how well a shard compresses does not matter.  Refuted: a shard is waited for until its decompressed file
    is as large as the compressed one; where that never happens every read fails, in every history. *)
Theorem C155_any_ratio_refuted : exists compress decompress unpickle decode cols ws cache d o vs,
  lossless compress decompress /\ plain_dir cache /\ mds_ok decode cols ws /\ stored compress cols ws cache None d /\
  open_mds cache None (map (zipped (codes "zstd") compress cols) ws) = Ok o /\
  at_index (all_values ws) 0 = Some vs /\
  mds_run decompress unpickle decode o [MGet 0; MPrepare 0; MGet 0]%Z (d, None) = [(0%Z, Err FileNotFoundError); (0%Z, Err FileNotFoundError)].
Proof.
  set (ws := [ex_shard "shard.00000.mds" [(5%Z, [255]%N, "cat"%string)]]).
  exists ex_compress, ex_decompress, ex_unpickle, ex_decode, ex_cols, ws, ex_cache, (ex_files ex_compress ws).
  eexists. eexists. split; [exact ex_lossless|]. split; [exact ex_dir|].
  split.
  { split; [discriminate|]. split; [repeat constructor; intros []|]. split; [apply ex_ok|].
    constructor; [|constructor]. apply ex_shard_ok; try reflexivity. apply Forall_cons; [cbn [fst snd]; split; [lia|reflexivity]|]. apply Forall_nil. }
  split; [intros w [<-|[]]; split; vm_compute; reflexivity|].
  split; [vm_compute; reflexivity|]. split; [vm_compute; reflexivity|]. vm_compute. reflexivity.
Qed.

Theorem C155_larger_never_read compress decompress unpickle decode cols ws cache remote d :
  lossless compress decompress -> plain_dir cache -> mds_ok decode cols ws -> stored compress cols ws cache remote d ->
  exists o, open_mds cache remote (map (zipped (codes "zstd") compress cols) ws) = Ok o /\
    forall evs i r w, (0 <= i)%Z -> shard_at ws (Z.to_nat i) = Some w ->
      (blen (raw_file cols w) < blen (zip_file compress cols w))%N ->
      In (i, r) (mds_run decompress unpickle decode o evs (d, None)) -> r = Err FileNotFoundError.
Proof.
  intros Hc Hd Hok Hs. destruct (mds_all compress decompress unpickle decode cols ws cache remote d Hc Hd Hok Hs) as (o & E & L & R).
  exists o. split; [exact E|]. intros evs i r w Hi Hw Hlt Hin. rewrite R in Hin. apply in_map_iff in Hin. destruct Hin as (j & Ej & _).
  injection Ej as -> <-. unfold answer, at_index. rewrite Hw. destruct (Z.ltb_spec i 0) as [G|_]; [lia|].
  destruct (locate 0 0 ws (Z.to_nat i)) as [[[k b] w']|] eqn:El.
  2:{ destruct (locate_none _ _ _ _ El) as [_ G]. congruence. }
  destruct (locate_spec _ _ _ _ _ _ _ El) as (_ & Ek & Hb & _ & Hp & Ev & _). rewrite Ev.
  destruct (nth_error (w_values w') (0 + Z.to_nat i - b)) eqn:G; [|apply nth_error_None in G; lia].
  destruct (N.leb_spec (blen (zip_file compress cols w)) (blen (raw_file cols w))); [lia|reflexivity].
Qed.

Example C155_case :
  let w := ex_shard "shard.00000.mds" [(5%Z, [255]%N, "cat"%string)] in
  shard_at (ex_ws ++ [w]) 4 = Some w /\ (blen (raw_file ex_cols w) < blen (zip_file ex_compress ex_cols w))%N.
Proof. vm_compute. split; reflexivity. Qed.

(** * C156: columns
    The claim: each sample comes under the names of its columns.  Proved in C152 if all shards have the same columns;
    refuted otherwise: the names of the first shard are used for all samples. *)
Theorem C156_names_of_columns_refuted : exists compress decompress unpickle decode cols cols' w w' cache d o vs,
  lossless compress decompress /\ plain_dir cache /\ mds_ok decode cols [w] /\ mds_ok decode cols' [w'] /\
  stored compress cols [w] cache None d /\ stored compress cols' [w'] cache None d /\
  open_mds cache None [zipped (codes "zstd") compress cols w; zipped (codes "zstd") compress cols' w'] = Ok o /\
  at_index (all_values [w; w']) 1 = Some vs /\
  as_dict cols vs <> as_dict cols' vs /\
  fst (mds_get decompress unpickle decode o 1 (d, None)) = Ok (as_dict cols vs).
Proof.
  set (w := WShard (codes "a.mds") [] [[LInt 1]] [[le 8 1]]). set (w' := WShard (codes "b.mds") [] [[LInt 2]] [[le 8 2]]).
  set (cols := [Column (codes "x") (codes "int") (Some 8%N)]). set (cols' := [Column (codes "y") (codes "int") (Some 8%N)]).
  exists (fun b => b), (fun b => Ok b), ex_unpickle, ex_decode, cols, cols', w, w', ex_cache,
    (set_file (set_file (fun _ => None) (ex_cache ++ slash :: zip_name w) (Some (raw_file cols w))) (ex_cache ++ slash :: zip_name w') (Some (raw_file cols' w'))).
  eexists. eexists.
  assert (V : forall z n, (- 2 ^ 63 <= z < 2 ^ 63)%Z -> values_ok ex_decode [Column (codes n) (codes "int") (Some 8%N)] [LInt z] [le 8 (Z.to_N (z mod 2 ^ 64))]).
  { intros z n Hz. apply values_cons; [constructor; exact Hz|intros m E; injection E as <-; split; reflexivity|]. apply values_nil. }
  split; [intros b; reflexivity|]. split; [exact ex_dir|].
  split.
  { split; [discriminate|]. split; [repeat constructor; intros []|]. split; [repeat constructor; cbn; tauto|].
    constructor; [|constructor]. split; [constructor; [apply (V 1%Z "x"%string); lia|constructor]|]. split; [reflexivity|]. split; [|reflexivity].
    cbn. unfold slash. intros H. repeat (destruct H as [H|H]; [discriminate|]); exact H. }
  split.
  { split; [discriminate|]. split; [repeat constructor; intros []|]. split; [repeat constructor; cbn; tauto|].
    constructor; [|constructor]. split; [constructor; [apply (V 2%Z "y"%string); lia|constructor]|]. split; [reflexivity|]. split; [|reflexivity].
    cbn. unfold slash. intros H. repeat (destruct H as [H|H]; [discriminate|]); exact H. }
  split; [intros x [<-|[]]; split; vm_compute; reflexivity|]. split; [intros x [<-|[]]; split; vm_compute; reflexivity|].
  split; [vm_compute; reflexivity|]. split; [vm_compute; reflexivity|]. split; [vm_compute; discriminate|]. vm_compute. reflexivity.
Qed.

Theorem C156_names_of_first_shard decompress unpickle decode cache remote s shards o i st t :
  open_mds cache remote (s :: shards) = Ok o -> fst (mds_get decompress unpickle decode o i st) = Ok t ->
  exists ts, t = Node (NDict (map KStr (s_names s))) ts.
Proof. apply first_columns. Qed.

Example C156_case :
  match open_mds ex_cache None (map (zipped (codes "zstd") ex_compress ex_cols) ex_ws) with
  | Ok o => exists t, fst (mds_get ex_decompress ex_unpickle ex_decode o 1 (ex_files ex_compress ex_ws, None)) = Ok t
  | Err _ => False
  end.
Proof. vm_compute. eexists. reflexivity. Qed.

(** * C157: encodings and compressions that litdata does not know are refused when the dataset is opened. *)
Theorem C157_unknown_encoding_refused cache remote s shards e :
  In e (s_encodings s) -> unknown_encoding e -> exists x, open_mds cache remote (s :: shards) = Err x.
Proof. apply unknown_refused. Qed.

Theorem C157_unknown_compression_refused cache remote s shards c :
  s_compression s = Some c -> c <> [] -> c <> codes "zstd" -> (forall k, 1 <= k <= 22 -> c <> codes "zstd:" ++ dec k) ->
  exists x, open_mds cache remote (s :: shards) = Err x.
Proof. apply compression_refused. Qed.

Example C157_compression_case : forall remote,
  open_mds ex_cache remote (map (zipped (codes "gz:3") ex_compress ex_cols) ex_ws) = Err ValueError /\
  open_mds ex_cache remote (map (zipped (codes "zstd:23") ex_compress ex_cols) ex_ws) = Err ValueError.
Proof. intros remote. split; vm_compute; reflexivity. Qed.

Example C157_case :
  unknown_encoding (codes "ndarray:int32:3,3") /\ unknown_encoding (codes "uint8") /\ unknown_encoding (codes "ndarray:float16") /\ unknown_encoding (codes "json") /\
  forall remote, open_mds ex_cache remote [Shard [codes "x"] [codes "ndarray:int32:3,3"] [Some 36%N] (Some (codes "zstd")) (codes "mds") (Some (codes "s.mds.zstd", 5%N)) 1] = Err ValueError /\
                 open_mds ex_cache remote [Shard [codes "x"] [codes "uint8"] [Some 1%N] (Some (codes "zstd")) (codes "mds") (Some (codes "s.mds.zstd", 5%N)) 1] = Err KeyError.
Proof.
  assert (D : forall e, (forall p, In p (split colon e) -> existsb (fun x => if list_eq_dec N.eq_dec p x then true else false) (map codes known_encodings) = false) -> unknown_encoding e).
  { intros e H p Hp G. specialize (H p Hp). assert (T : existsb (fun x => if list_eq_dec N.eq_dec p x then true else false) (map codes known_encodings) = true).
    { apply existsb_exists. exists p. split; [exact G|]. destruct (list_eq_dec N.eq_dec p p); congruence. }
    congruence. }
  repeat (apply conj; [apply D; intros p Hp; vm_compute in Hp; repeat (destruct Hp as [<-|Hp]; [vm_compute; reflexivity|]); destruct Hp|]).
  intros remote. split; vm_compute; reflexivity.
Qed.

(** * C158: the size of the cache
    The claim: the size of the cache that is compared with [max_cache_size] is at least the size of the shards in it.
    Refuted: every decompressed shard counts with the size of its compressed file. *)
Theorem C158_cache_size_counted compress decode cols ws :
  mds_ok decode cols ws ->
  exists ix, adapt (map (zipped (codes "zstd") compress cols) ws) = Ok ix /\
    folder_size (mds_size_map (codes "zstd") (i_chunks ix)) (map (fun w => (w_raw w, length (raw_file cols w))) ws) =
    sum (map (fun w => length (zip_file compress cols w)) ws).
Proof.
  intros Hok. unfold adapt. rewrite (mapM_map adapt_shard (zipped (codes "zstd") compress cols) (chunk_of compress cols)) by reflexivity. cbn [bind].
  pose proof (cache_counted compress decode cols ws Hok) as E. destruct Hok as [Hn _]. destruct ws as [|w ws]; [congruence|].
  eexists. split; [reflexivity|exact E].
Qed.

Theorem C158_cache_size_refuted : exists compress decompress decode cols ws ix,
  lossless compress decompress /\ mds_ok decode cols ws /\
  adapt (map (zipped (codes "zstd") compress cols) ws) = Ok ix /\
  folder_size (mds_size_map (codes "zstd") (i_chunks ix)) (map (fun w => (w_raw w, length (raw_file cols w))) ws) <
  sum (map (fun w => length (raw_file cols w)) ws).
Proof.
  exists ex_compress, ex_decompress, ex_decode, ex_cols, ex_ws. eexists. split; [exact ex_lossless|]. split; [exact ex_ok|].
  split; [vm_compute; reflexivity|]. vm_compute. lia.
Qed.

Example C158_case :
  sum (map (fun w => length (zip_file ex_compress ex_cols w)) ex_ws) = 121 /\ sum (map (fun w => length (raw_file ex_cols w)) ex_ws) = 127.
Proof. vm_compute. split; reflexivity. Qed.

Print Assumptions C152_mds_samples_partial.
Print Assumptions C152_no_samples_refuted.
Print Assumptions C153_uncompressed_opens_refuted.
Print Assumptions C153_uncompressed_refused.
Print Assumptions C154_level_samples_refuted.
Print Assumptions C154_level_reads_compressed.
Print Assumptions C155_any_ratio_refuted.
Print Assumptions C155_larger_never_read.
Print Assumptions C156_names_of_columns_refuted.
Print Assumptions C156_names_of_first_shard.
Print Assumptions C157_unknown_encoding_refused.
Print Assumptions C157_unknown_compression_refused.
Print Assumptions C158_cache_size_counted.
Print Assumptions C158_cache_size_refuted.
