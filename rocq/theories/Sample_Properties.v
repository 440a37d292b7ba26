(** Properties C40, C41, C82-C84: values, structures and samples survive storage. *)
From Verif Require Import Base Format_Model Codec_Model Codec_Spec Codec_Proofs Codec_Proofs2 Codec_Float_Proofs
  Tree_Model Tree_Spec Tree_Proofs Sample_Model Sample_Spec Sample_Proofs.
From Coq Require Import NArith ZArith.
Local Open Scope nat_scope.

(** C40: every storable value is read back from its serialized form. *)
Theorem C40_value_round_trip isfile pickle unpickle l :
  (forall x, unpickle (pickle x) = Ok x) -> valid l -> storable l ->
  exists b f, serialize_new isfile pickle l = Ok (b, f) /\ deserialize unpickle f b = Ok l.
Proof. intros H Hv Hs. exact (new_round isfile pickle unpickle H l Hv Hs). Qed.
Print Assumptions C40_value_round_trip.

Local Ltac run :=
  match goal with |- ?x = _ =>
    let v := eval vm_compute in x in replace x with v by (vm_compute; reflexivity); reflexivity
  end.

Local Ltac good :=
  unfold good_values; cbn [leaves flat_map app];
  repeat (apply Forall_cons || apply Forall_nil || split); cbn -[N.pow Z.pow];
  try exact I; try discriminate; try lia; try reflexivity; try (right; lia).

Definition no_file (s : list N) : bool := false.
Definition no_pickle (l : leaf) : bytes := [].
Definition no_unpickle (b : bytes) : res leaf := Err GenericException.
Definition stored_as (l : leaf) : res (bytes * res leaf) :=
  bind (serialize_new no_file no_pickle l) (fun r => Ok (fst r, deserialize no_unpickle (snd r) (fst r))).
Example C40_case :
  stored_as (LInt (-2)) = Ok ([254; 255; 255; 255; 255; 255; 255; 255]%N, Ok (LInt (-2))) /\
  stored_as (LStr [233; 8364; 128512]%N) =
    Ok ([195; 169; 226; 130; 172; 240; 159; 152; 128]%N, Ok (LStr [233; 8364; 128512]%N)) /\
  stored_as (LTensor I16 [2; 1]%N [1; 0; 2; 0]%N) =
    Ok ([14; 0; 0; 0; 2; 0; 0; 0; 2; 0; 0; 0; 1; 0; 0; 0; 1; 0; 2; 0]%N, Ok (LTensor I16 [2; 1]%N [1; 0; 2; 0]%N)) /\
  stored_as (LArr 3 [1]%N [7; 0; 0; 0; 0; 0; 0; 0]%N) =
    Ok ([7; 0; 0; 0; 0; 0; 0; 0]%N, Ok (LArr 3 [1]%N [7; 0; 0; 0; 0; 0; 0; 0]%N)) /\
  stored_as (LJpegs [[9]; [8; 7]]%N) =
    Ok ([2; 0; 0; 0; 1; 0; 0; 0; 2; 0; 0; 0; 9; 8; 7]%N, Ok (LJpegs [[9]; [8; 7]]%N)).
Proof. repeat split; vm_compute; reflexivity. Qed.

(** C40: data that do not consist of whole elements are refused when they are read. *)
Theorem C40_cut_data unpickle data :
  (length data mod 8 <> 0 -> forall s, s = SInt \/ s = SFloat -> deserialize unpickle (Fmt s None) data = Err ValueError) /\
  (forall i k, nth_error numpy_itemsizes i = Some k -> length data mod k <> 0 -> deserialize unpickle (Fmt SNoHeadNumpy (Some (N.of_nat i))) data = Err ValueError) /\
  (forall i d, torch_dtype i = Ok d -> length data mod torch_itemsize d <> 0 -> deserialize unpickle (Fmt SNoHeadTensor (Some i)) data = Err ValueError).
Proof.
  assert (W : forall k, length data mod k <> 0 -> whole k data = Err ValueError).
  { intros k H. unfold whole. destruct (Nat.eqb_spec (length data mod k) 0) as [X|_]; [contradiction|reflexivity]. }
  split; [|split].
  - intros H s [-> | ->]; cbn [deserialize]; rewrite W by exact H; reflexivity.
  - intros i k Hk H. cbn [deserialize]. unfold numpy_size. rewrite Nat2N.id, Hk.
    destruct (i =? numpy_object); [reflexivity|]. cbn [bind]. rewrite W by exact H. reflexivity.
  - intros i d Hd H. cbn [deserialize]. rewrite Hd. cbn [bind]. rewrite W by exact H. reflexivity.
Qed.
Print Assumptions C40_cut_data.
Example C40_cut_data_case unpickle :
  deserialize unpickle (Fmt SInt None) [1; 2; 3]%N = Err ValueError /\
  deserialize unpickle (Fmt SNoHeadNumpy (Some 0%N)) [1; 2; 3]%N = Ok (LArr 0 [3]%N [1; 2; 3]%N) /\
  (exists i k, nth_error numpy_itemsizes (N.to_nat i) = Some k /\ 3 mod k <> 0 /\ deserialize unpickle (Fmt SNoHeadNumpy (Some i)) [1; 2; 3]%N = Err ValueError).
Proof. split; [reflexivity|]. split; [reflexivity|]. exists 3%N. eexists. split; [reflexivity|]. split; [vm_compute; discriminate|reflexivity]. Qed.

(** C40: the decoding of strings is strict: data that are read as a string are what is written for this string, so
    damaged data are never read as a string that other data stand for. *)
Theorem C40_strings_strict isfile pickle unpickle data v :
  deserialize unpickle (Fmt SStr None) data = Ok v ->
  exists x, v = LStr x /\ (isfile x = false -> serialize_new isfile pickle v = Ok (data, Fmt SStr None)) /\
    forall data', deserialize unpickle (Fmt SStr None) data' = Ok v -> data' = data.
Proof.
  cbn [deserialize]. destruct (un_utf8 data) as [x|e] eqn:E; cbn [bind]; [|discriminate]. intros H. injection H as <-.
  apply utf8_un_utf8 with (n := length data) in E; [|lia]. exists x. split; [reflexivity|]. split.
  - intros F. unfold serialize_new, first_match, serializers. cbn [can_serialize]. rewrite F. cbn [negb serialize]. rewrite E. reflexivity.
  - intros data' H. destruct (un_utf8 data') as [y|e'] eqn:E'; cbn [bind] in H; [|discriminate]. injection H as ->.
    apply utf8_un_utf8 with (n := length data') in E'; [|lia]. congruence.
Qed.
Print Assumptions C40_strings_strict.
Example C40_strings_strict_case unpickle :
  deserialize unpickle (Fmt SStr None) [195; 169]%N = Ok (LStr [233]%N) /\
  map (deserialize unpickle (Fmt SStr None)) [[195; 65]; [195]; [192; 128]; [237; 160; 128]; [226; 130; 65]; [240; 159; 152; 65]; [244; 144; 128; 128]; [128]]%N =
    repeat (Err ValueError) 8.
Proof. split; vm_compute; reflexivity. Qed.

(** C84: what cannot be read back is refused when it is written ... *)
Theorem C84_refused_partial isfile pickle l :
  ~ storable l -> (forall shape data, l <> LArr numpy_object shape data) ->
  (forall s, l = LStr s -> isfile s = false) ->
  exists e, serialize_new isfile pickle l = Err e.
Proof. exact (new_refused isfile pickle l). Qed.
Print Assumptions C84_refused_partial.

Example C84_case :
  stored_as (LInt (2 ^ 63)) = Err GenericException /\ stored_as (LStr [55296]%N) = Err ValueError /\
  stored_as (LTensor BF16 [1]%N [0; 0]%N) = Err TypeError.
Proof. repeat split; vm_compute; reflexivity. Qed.

(** ... except arrays of objects: they are written as pointers and cannot be read. *)
Theorem C84_object_arrays_refuted isfile pickle unpickle :
  exists l b f e, valid l /\ serialize_new isfile pickle l = Ok (b, f) /\ deserialize unpickle f b = Err e.
Proof.
  exists (LArr 14 [1]%N [1; 2; 3; 4; 5; 6; 7; 8]%N). do 3 eexists.
  split; [repeat split; repeat constructor|]. split; reflexivity.
Qed.
Print Assumptions C84_object_arrays_refuted.

(** C41: structures are rebuilt, with any leaves in place of the old ones. *)
Theorem C41_structure_round_trip {A B} (f : A -> B) (t : tree A) :
  tree_valid t ->
  let (ls, s) := tree_flatten t in
  ls = leaves t /\ num_leaves s = length ls /\ unflatten s ls = Ok t /\ unflatten s (map f ls) = Ok (tmap f t).
Proof.
  intros Hv. rewrite tree_flatten_ok. split; [reflexivity|]. split; [apply num_leaves_ok|]. split.
  - rewrite <- (map_id (leaves t)). rewrite unflatten_ok by exact Hv. rewrite tmap_id. reflexivity.
  - apply unflatten_ok, Hv.
Qed.
Print Assumptions C41_structure_round_trip.

Theorem C41_wrong_number {L} s (ls : list L) : length ls <> num_leaves s -> unflatten s ls = Err ValueError.
Proof. exact (unflatten_count s ls). Qed.
Print Assumptions C41_wrong_number.

Definition str (l : list N) : key := KStr l.
Definition nested : tree nat :=
  Node (NDict [str [97]%N; KInt 3]) [Node NTuple [Leaf 1; Node NList []; Leaf 2]; Node (NDeque (Some 4)) [Leaf 3; Leaf 4]].
Example C41_case :
  tree_flatten nested =
    ([1; 2; 3; 4], SNode (NDict [str [97]%N; KInt 3])
       [SNode NTuple [SLeaf; SNode NList []; SLeaf]; SNode (NDeque (Some 4)) [SLeaf; SLeaf]]) /\
  unflatten (snd (tree_flatten nested)) [1; 2; 3; 4] = Ok nested /\
  unflatten (snd (tree_flatten nested)) [1; 2; 3] = Err ValueError.
Proof. repeat split; vm_compute; reflexivity. Qed.

(** C83: the structure recorded in the index is the structure of the samples ... *)
Theorem C83_spec_in_index_partial reg_w reg_r {L} (t : tree L) :
  tree_plain reg_w reg_r t ->
  let s := snd (tree_flatten t) in
  exists j, spec_to_json reg_w s = Ok j /\ spec_of_json reg_r j = Ok s.
Proof. intros H. rewrite tree_flatten_ok. exact (spec_json reg_w reg_r t H). Qed.
Print Assumptions C83_spec_in_index_partial.

Example C83_case :
  bind (spec_to_json (fun _ => false) (snd (tree_flatten nested))) (spec_of_json (fun _ => false))
  = Ok (snd (tree_flatten nested)).
Proof. vm_compute. reflexivity. Qed.

(** ... and without tuples as keys and lambdas, whatever could be stored (a factory
    None and byte strings as keys raise) is read back, *)
Theorem C83_stored_partial reg_w reg_r {L} (t : tree L) j :
  tree_flat reg_w reg_r t ->
  let s := snd (tree_flatten t) in
  spec_to_json reg_w s = Ok j -> spec_of_json reg_r j = Ok s.
Proof. intros H. rewrite tree_flatten_ok. exact (spec_stored reg_w reg_r t j H). Qed.
Print Assumptions C83_stored_partial.

Example C83_stored_case :
  tree_flat (fun _ => false) (fun _ => false) (Node (NDefault FacNone [KInt 1]) [Leaf 7]) /\
  spec_to_json (fun _ => false) (snd (tree_flatten (Node (NDefault FacNone [KInt 1]) [Leaf 7]))) = Err GenericException /\
  exists j, spec_to_json (fun _ => false) (snd (tree_flatten nested)) = Ok j.
Proof.
  split; [cbn; repeat split; [repeat constructor|intros i; discriminate]|].
  split; [reflexivity|]. eexists. vm_compute. reflexivity.
Qed.

(** ... but a dictionary with tuples as keys is accepted and cannot be read back, *)
Theorem C83_tuple_keys_refuted isfile pickle unpickle reg_w reg_r :
  exists t d e, tree_valid t /\ good_values t /\
    write_samples isfile pickle reg_w [t] = Ok d /\ read_samples unpickle reg_r d = Err e.
Proof.
  exists (Node (NDict [KTuple [KInt 0; KInt 1]]) [Leaf (LInt 5)]). do 2 eexists.
  split; [repeat split|]. split; [repeat constructor; cbn; lia|].
  split; run.
Qed.
Print Assumptions C83_tuple_keys_refuted.

(** ... a defaultdict with a lambda as well, *)
Theorem C83_lambda_refuted isfile pickle unpickle reg_w reg_r :
  exists t d e, tree_valid t /\ good_values t /\
    write_samples isfile pickle reg_w [t] = Ok d /\ read_samples unpickle reg_r d = Err e.
Proof.
  exists (Node (NDefault (FacLocal 0) [KInt 0]) [Leaf (LInt 5)]). do 2 eexists.
  split; [repeat split|]. split; [repeat constructor; cbn; lia|].
  split; run.
Qed.
Print Assumptions C83_lambda_refuted.

(** ... and for an unregistered namedtuple all samples are serialized before the
    index fails. *)
Theorem C83_namedtuple_refuted isfile pickle reg_w c :
  reg_w c = false ->
  exists ts r e, Forall good_values ts /\ length ts = 2 /\ serialize_all isfile pickle fresh ts = Ok r /\
    write_samples isfile pickle reg_w ts = Err e.
Proof.
  intros H. set (t := Node (NNamed c) [Leaf (LInt 5)] : tree leaf).
  exists [t; t]. do 2 eexists. split; [repeat constructor; cbn; lia|]. split; [reflexivity|].
  split; [run|].
  unfold write_samples. replace (serialize_all isfile pickle fresh [t; t]) with
    (@Ok (list bytes * fstate) ([[8; 0; 0; 0; 5; 0; 0; 0; 0; 0; 0; 0]; [8; 0; 0; 0; 5; 0; 0; 0; 0; 0; 0; 0]]%N,
       FState (Some [Fmt SInt None]) (Some (SNode (NNamed c) [SLeaf])))) by (vm_compute; reflexivity).
  cbn. rewrite H. reflexivity.
Qed.
Print Assumptions C83_namedtuple_refuted.

(** C83 is also false of a namedtuple whose class is registered in the process that writes but not in the one that reads: the samples
    are written, and a RuntimeError is raised when they are read. *)
Theorem C83_reader_refuted isfile pickle unpickle reg_w reg_r c :
  reg_w c = true -> reg_r c = false ->
  exists ts d, Forall tree_valid ts /\ Forall good_values ts /\ write_samples isfile pickle reg_w ts = Ok d /\
    read_samples unpickle reg_r d = Err RuntimeError.
Proof.
  intros Hw Hr. set (t := Node (NNamed c) [Leaf (LInt 5)] : tree leaf).
  exists [t]. eexists. split; [repeat constructor|]. split; [repeat constructor; cbn; lia|].
  assert (E : serialize_all isfile pickle fresh [t] =
    @Ok (list bytes * fstate) ([[8; 0; 0; 0; 5; 0; 0; 0; 0; 0; 0; 0]]%N, FState (Some [Fmt SInt None]) (Some (SNode (NNamed c) [SLeaf])))) by (vm_compute; reflexivity).
  split; [unfold write_samples; rewrite E; cbn; rewrite Hw; reflexivity|].
  unfold read_samples, open_config. cbn [snd]. cbn [spec_of_json kind_of_json]. rewrite Hr. reflexivity.
Qed.
Print Assumptions C83_reader_refuted.

(** C82: samples that look like the first one are read back as they were written. *)
Theorem C82_samples_partial isfile pickle unpickle reg_w reg_r t0 ts :
  (forall x, unpickle (pickle x) = Ok x) ->
  tree_valid t0 -> tree_plain reg_w reg_r t0 -> leaves t0 <> [] ->
  good_values t0 -> Forall (fun t => like t0 t /\ good_values t) ts ->
  exists bs c, write_samples isfile pickle reg_w (t0 :: ts) = Ok (bs, c) /\ length bs = S (length ts) /\
    (Forall (fun b => (blen b < two32)%N) bs -> read_samples unpickle reg_r (bs, c) = Ok (t0 :: ts)).
Proof. intros H. exact (samples_round isfile pickle unpickle reg_w reg_r H t0 ts). Qed.
Print Assumptions C82_samples_partial.

Definition written_and_read (ts : list (tree leaf)) : res (list (tree leaf)) :=
  bind (write_samples no_file no_pickle (fun _ => false) ts) (read_samples no_unpickle (fun _ => false)).
Definition ka := str [97]%N. Definition kb := str [98]%N.
Definition int (z : Z) : tree leaf := Leaf (LInt z).
Definition sample (z : Z) (s : list N) : tree leaf := Node (NDict [ka; kb]) [int z; Node NTuple [Leaf (LStr s)]].
Example C82_case :
  let ts := [sample 1 [120]%N; sample (-7) []; sample 3 [8364]%N] in
  good_values (sample 1 [120]%N) /\ Forall (fun t => like (sample 1 [120]%N) t /\ good_values t) (tl ts) /\
  written_and_read ts = Ok ts.
Proof.
  cbv zeta. split; [repeat constructor; cbn; try lia; intros []; lia|]. split.
  - repeat constructor; cbn; try lia; intros []; lia.
  - vm_compute. reflexivity.
Qed.

(** Samples of other shapes are silently changed: keys in another order swap values, *)
Theorem C82_key_order_refuted isfile pickle unpickle reg_w reg_r :
  exists t0 t d t', good_values t0 /\ good_values t /\
    write_samples isfile pickle reg_w [t0; t] = Ok d /\ read_samples unpickle reg_r d = Ok [t0; t'] /\
    t = Node (NDict [kb; ka]) [int 2; int 1] /\ t' = Node (NDict [ka; kb]) [int 2; int 1].
Proof.
  exists (Node (NDict [ka; kb]) [int 1; int 2]), (Node (NDict [kb; ka]) [int 2; int 1]). do 2 eexists.
  do 2 (split; [good|]). split; [run|]. split; [run|].
  split; reflexivity.
Qed.
Print Assumptions C82_key_order_refuted.

(** longer lists are cut to the length of the first, *)
Theorem C82_longer_list_refuted isfile pickle unpickle reg_w reg_r :
  exists t0 t d t', good_values t0 /\ good_values t /\
    write_samples isfile pickle reg_w [t0; t] = Ok d /\ read_samples unpickle reg_r d = Ok [t0; t'] /\
    t = Node NList [int 1; int 2; int 3] /\ t' = Node NList [int 1; int 2].
Proof.
  exists (Node NList [int 8; int 9]), (Node NList [int 1; int 2; int 3]). do 2 eexists.
  do 2 (split; [good|]). split; [run|]. split; [run|].
  split; reflexivity.
Qed.
Print Assumptions C82_longer_list_refuted.

(** a shorter list is read back as garbage (bytes [1, 0, 0, 0, 97, 98] as [97, 98] and an empty string), *)
Theorem C82_shorter_list_refuted isfile pickle unpickle reg_w reg_r :
  exists t0 t d t', good_values t0 /\ good_values t /\
    write_samples isfile pickle reg_w [t0; t] = Ok d /\ read_samples unpickle reg_r d = Ok [t0; t'] /\
    t = Node NList [Leaf (LBytes [1; 0; 0; 0; 97; 98]%N)] /\ t' = Node NList [Leaf (LBytes [97; 98]%N); Leaf (LBytes [])].
Proof.
  exists (Node NList [Leaf (LBytes [97]%N); Leaf (LBytes [98]%N)]), (Node NList [Leaf (LBytes [1; 0; 0; 0; 97; 98]%N)]). do 2 eexists.
  do 2 (split; [good|]). split; [run|]. split; [run|].
  split; reflexivity.
Qed.
Print Assumptions C82_shorter_list_refuted.

(** a float in a column of integers loses its fraction (2.5 becomes 2), *)
Theorem C82_float_in_int_column_refuted isfile pickle unpickle reg_w reg_r :
  exists t0 t d t', good_values t0 /\ good_values t /\
    write_samples isfile pickle reg_w [t0; t] = Ok d /\ read_samples unpickle reg_r d = Ok [t0; t'] /\
    t = Leaf (LFloat 4612811918334230528) /\ t' = int 2.
Proof.
  exists (int 1), (Leaf (LFloat 4612811918334230528)). do 2 eexists.
  do 2 (split; [good|]). split; [run|]. split; [run|].
  split; reflexivity.
Qed.
Print Assumptions C82_float_in_int_column_refuted.

(** None in a column of floats becomes NaN, *)
Theorem C82_none_in_float_column_refuted isfile pickle unpickle reg_w reg_r :
  exists t0 t d t', good_values t0 /\ good_values t /\
    write_samples isfile pickle reg_w [t0; t] = Ok d /\ read_samples unpickle reg_r d = Ok [t0; t'] /\
    t = Leaf LNone /\ t' = Leaf (LFloat 9221120237041090560).
Proof.
  exists (Leaf (LFloat 0)), (Leaf LNone). do 2 eexists.
  do 2 (split; [good|]). split; [run|]. split; [run|].
  split; reflexivity.
Qed.
Print Assumptions C82_none_in_float_column_refuted.

(** an integer in a column of booleans becomes a boolean, *)
Theorem C82_int_in_bool_column_refuted isfile pickle unpickle reg_w reg_r :
  exists t0 t d t', good_values t0 /\ good_values t /\
    write_samples isfile pickle reg_w [t0; t] = Ok d /\ read_samples unpickle reg_r d = Ok [t0; t'] /\
    t = int 7 /\ t' = Leaf (LBool true).
Proof.
  exists (Leaf (LBool false)), (int 7). do 2 eexists.
  do 2 (split; [good|]). split; [run|]. split; [run|].
  split; reflexivity.
Qed.
Print Assumptions C82_int_in_bool_column_refuted.

(** a matrix in a column of vectors loses its shape, *)
Theorem C82_shape_refuted isfile pickle unpickle reg_w reg_r :
  exists t0 t d t', good_values t0 /\ good_values t /\
    write_samples isfile pickle reg_w [t0; t] = Ok d /\ read_samples unpickle reg_r d = Ok [t0; t'] /\
    t = Leaf (LTensor U8 [2; 1]%N [3; 4]%N) /\ t' = Leaf (LTensor U8 [2]%N [3; 4]%N).
Proof.
  exists (Leaf (LTensor U8 [2]%N [1; 2]%N)), (Leaf (LTensor U8 [2; 1]%N [3; 4]%N)). do 2 eexists.
  do 2 (split; [good|]). split; [run|]. split; [run|].
  split; reflexivity.
Qed.
Print Assumptions C82_shape_refuted.

(** and a vector of another dtype is reinterpreted (two bytes [1, 2] become one 16-bit number). *)
Theorem C82_dtype_refuted isfile pickle unpickle reg_w reg_r :
  exists t0 t d t', good_values t0 /\ good_values t /\
    write_samples isfile pickle reg_w [t0; t] = Ok d /\ read_samples unpickle reg_r d = Ok [t0; t'] /\
    t = Leaf (LArr 0 [2]%N [1; 2]%N) /\ t' = Leaf (LArr 1 [1]%N [1; 2]%N).
Proof.
  exists (Leaf (LArr 1 [1]%N [1; 0]%N)), (Leaf (LArr 0 [2]%N [1; 2]%N)). do 2 eexists.
  do 2 (split; [good|]). split; [run|]. split; [run|].
  split; reflexivity.
Qed.
Print Assumptions C82_dtype_refuted.

(** A second sample without leaves is refused although the first was accepted. *)
Theorem C82_no_leaves_refuted isfile pickle reg_w :
  exists t r, serialize_all isfile pickle fresh [t] = Ok r /\ tree_valid t /\ good_values t /\
    write_samples isfile pickle reg_w [t; t] = Err AssertionError.
Proof.
  exists (Node NList []). eexists. split; [run|]. split; [repeat split|]. split; [constructor|].
  vm_compute. reflexivity.
Qed.
Print Assumptions C82_no_leaves_refuted.

(** What becomes of numbers of the other kind in general: integers below 2^53 keep
    their value in a column of floats, *)
Theorem C82_ints_in_float_column pickle unpickle z :
  (Z.abs z < 2 ^ 53)%Z ->
  exists b f x, serialize pickle SFloat (LInt z) = Ok (b, f) /\
    deserialize unpickle (Fmt SFloat None) b = Ok (LFloat x) /\
    finite x /\ double_scaled x = (z * Z.of_N (2 ^ 1075))%Z.
Proof. exact (ints_in_float_column pickle unpickle z). Qed.
Print Assumptions C82_ints_in_float_column.

Theorem C82_large_ints_refuted pickle unpickle :
  exists z z' b b' f f' x, z <> z' /\ serialize pickle SFloat (LInt z) = Ok (b, f) /\
    serialize pickle SFloat (LInt z') = Ok (b', f') /\
    deserialize unpickle (Fmt SFloat None) b = Ok (LFloat x) /\ deserialize unpickle (Fmt SFloat None) b' = Ok (LFloat x).
Proof.
  exists (2 ^ 53)%Z, (2 ^ 53 + 1)%Z. do 5 eexists. split; [discriminate|].
  split; [run|]. split; [run|]. split; run.
Qed.
Print Assumptions C82_large_ints_refuted.

(** and floats in a column of integers are rounded towards zero. *)
Theorem C82_floats_in_int_column pickle unpickle bits b f :
  finite bits -> serialize pickle SInt (LFloat bits) = Ok (b, f) ->
  deserialize unpickle (Fmt SInt None) b = Ok (LInt (Z.quot (double_scaled bits) (Z.of_N (2 ^ 1075)))).
Proof. exact (floats_in_int_column pickle unpickle bits b f). Qed.
Print Assumptions C82_floats_in_int_column.

(** An integer that a double cannot hold is replaced by the nearest double (ties
    to even), as [np.float64] does. *)
Example C82_rounding_case :
  int_to_float (2 ^ 53 + 1) = int_to_float (2 ^ 53) /\ int_to_float (2 ^ 53 + 3) = int_to_float (2 ^ 53 + 4) /\
  int_to_float (2 ^ 54 + 3) = int_to_float (2 ^ 54 + 4) /\ int_to_float (2 ^ 54 + 2) = int_to_float (2 ^ 54).
Proof. repeat split; vm_compute; reflexivity. Qed.

Example C82_numbers_case :
  int_to_float (-5) = Ok 13840687554816376832%N /\ float_to_int 13840687554816376832 = Ok (-5)%Z /\
  float_to_int 13835621005235585024 = Ok (-2)%Z.
Proof. repeat split; vm_compute; reflexivity. Qed.
