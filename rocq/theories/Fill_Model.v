(** Model of a cache that is filled while a map-style dataset is read: CacheDataLoader.
    Source: src/litdata/streaming/dataloader.py 52-68, 71-109, 137-152, 209-244, 256-344,
    src/litdata/streaming/cache.py 35-151. *)
From Coq Require Import String NArith ZArith.
From Verif Require Import Base Names_Model Format_Model Writer_Model Assign_Model Config_Model Sampler_Model Merge_Model.
Local Open Scope list_scope.
Local Open Scope nat_scope.

(** ** Comparison of two samples *)

(** The leaves of a sample.  Simplifications: of the floats only whole numbers and nan ([None]); tensors and arrays have
    one dimension and whole numbers. *)
Inductive value := VBool (b : bool) | VInt (z : Z) | VFloat (f : option Z) | VStr (s : str) | VTensor (l : list Z) | VArray (l : list Z).

(** Elementwise equality in one dimension followed by [all()]; one element is compared with all others; other lengths
    that differ make torch raise. *)
Definition tensor_equal (a b : list Z) : res bool :=
  match a, b with
  | [x], _ => Ok (forallb (Z.eqb x) b)
  | _, [y] => Ok (forallb (Z.eqb y) a)
  | _, _ => if length a =? length b then Ok (forallb (fun p => (fst p =? snd p)%Z) (combine a b)) else Err RuntimeError
  end.

(** dataloader.py 62-68: [_equal_item].  A bool is an int; [==] of arrays is an array, which is not [True]; of arrays whose
    shapes do not fit together it raises ValueError, as the caller does. *)
Definition equal_item (d1 d2 : value) : res bool :=
  match d1, d2 with
  | VBool a, VBool b => Ok (Bool.eqb a b)
  | VBool a, VInt b => Ok (Z.b2z a =? b)%Z
  | VInt a, VInt b => Ok (a =? b)%Z
  | VFloat (Some a), VFloat (Some b) => Ok (a =? b)%Z
  | VStr a, VStr b => Ok (if list_eq_dec N.eq_dec a b then true else false)
  | VTensor a, VTensor b => tensor_equal a b
  | _, _ => Ok false
  end.

(** dataloader.py 52-59: [_equal_items]; [all] stops at the first difference. *)
Fixpoint equal_all (l : list (value * value)) : res bool :=
  match l with
  | [] => Ok true
  | (d1, d2) :: l' => bind (equal_item d1 d2) (fun e => if e then equal_all l' else Ok false)
  end.
Definition equal_items (data_1 data_2 : list value) : res bool :=
  if length data_1 =? length data_2 then equal_all (combine data_1 data_2) else Ok false.

(** ** Filling *)
Section Fill.
  (** The writer's settings; how a sample becomes an item of a chunk (writer.py 144-206); the dataset of each process: what it
      gives at its [t]-th access, for index [i]. *)
  Context (c : wcfg) (ser : list value -> item) (ds : nat -> nat -> nat -> list value).

  (** dataloader.py 97-109: [CacheDataset.__getitem__] while the cache is not filled, in process [p].  The state: number of accesses to
      the dataset, [_is_deterministic], the writer. *)
  Definition fetch (p : nat) (st : nat * bool * wstate) (i : nat) : res (list value * (nat * bool * wstate)) :=
    let '(t, det, w) := st in
    let data_1 := ds p t i in
    if det then bind (add_item c w i (ser data_1)) (fun w => Ok (data_1, (S t, true, w)))
    else
      bind (equal_items data_1 (ds p (S t) i)) (fun same =>
      if same then bind (add_item c w i (ser data_1)) (fun w => Ok (data_1, (S (S t), true, w)))
      else Err ValueError).

  Fixpoint fetches (p : nat) (st : nat * bool * wstate) (is : list nat) : res (list (list value) * (nat * bool * wstate)) :=
    match is with
    | [] => Ok ([], st)
    | i :: is' => bind (fetch p st i) (fun r => bind (fetches p (snd r) is') (fun r' => Ok (fst r :: fst r', snd r')))
    end.

  (** dataloader.py 209-226 (a worker), 140-152 (without workers): the samples, then [done].  No index file of a
      former run is in the directory ([filled] of the writer is false). *)
  Definition run_worker (p : nat) (is : list nat) : res (list (list value) * wstate) :=
    bind (fetches p (0, false, new_writer 0) is) (fun r =>
    bind (done c false (snd (snd r))) (fun w => Ok (fst r, w))).

  (** A pass over a dataset of [n] samples in [replicas] processes with [nw] workers each; worker [w] of process [r] gets to
      [taken r w] of its batches ([None]: all of them).  The processes in the order of their ranks (cache.py 102-107): rank,
      delivered samples, writer. *)
  Definition indices_of (n replicas nw b : nat) (taken : nat -> nat -> option nat) (r w : nat) : res (list nat) :=
    bind (if replicas =? 1 then iter_non_distributed n nw b else iter_distributed n replicas r nw b) (fun batches =>
    let mine := deal nw w batches in
    Ok (concat (match taken r w with None => mine | Some k => firstn k mine end))).
  Definition run_rank (n replicas nw b : nat) (taken : nat -> nat -> option nat) (p : nat) : res (nat * (list (list value) * wstate)) :=
    bind (indices_of n replicas nw b taken (p / nw) (p mod nw)) (fun is => bind (run_worker p is) (fun r => Ok (p, r))).
  Definition fill (n replicas nw b : nat) (taken : nat -> nat -> option nat) : res (list (nat * (list (list value) * wstate))) :=
    map_res (run_rank n replicas nw b taken) (seq 0 (replicas * nw)).
End Fill.

(** The index file that a worker writes; an entry is the rank of the writer and the chunk.  [conf]: the
    configuration, the same for all. *)
Definition worker_file {conf : Type} (k : conf) (x : nat * (list (list value) * wstate)) : list (str * index (nat * chunk) conf) :=
  index_file (fst x) (Index (map (pair (fst x)) (Writer_Model.w_chunks (snd (snd x)))) (Some k)).

(** Reading: config.py 227-269, item_loader.py 132-221: sample [i] of the cache; a sample of which the chunk is known. *)
Definition cache_intervals (chunks : list (nat * chunk)) : res (list interval) := generate_intervals (map (fun x => ch_size (snd x)) chunks) None.
Definition read_at (decompress : bytes -> bytes) (chunks : list (nat * chunk)) (ivs : list interval) (index chunk_index : nat) : res bytes :=
  match nth_error chunks chunk_index, nth_error ivs chunk_index with
  | Some x, Some iv => load_item (decompress (ch_file (snd x))) index (iv_start iv)
  | _, _ => Err IndexError
  end.
Definition cache_get (decompress : bytes -> bytes) (chunks : list (nat * chunk)) (i : Z) : res bytes :=
  bind (cache_intervals chunks) (fun ivs => bind (get_chunk_index ivs i) (fun rc => read_at decompress chunks ivs (fst rc) (snd rc))).

(** dataloader.py 315-337 with sampler.py 107-121: the samples of process [r] in a pass over the filled cache. *)
Definition read_pass (decompress : bytes -> bytes) (chunks : list (nat * chunk)) cp sp (replicas r nw b : nat) : res (list bytes) :=
  bind (cache_intervals chunks) (fun ivs =>
  bind (if replicas =? 1 then iter_chunks_non_distributed cp sp nw b (map (fun iv => (iv_rs iv, iv_re iv)) ivs)
        else iter_chunks_distributed cp sp replicas r nw b (map (fun iv => (iv_rs iv, iv_re iv)) ivs)) (fun batches =>
  map_res (fun s => read_at decompress chunks ivs (ci_index s) (ci_chunk s)) (concat batches))).

(** ** The constructor *)

(** dataloader.py 259-313, 72-92 and writer.py 81-82: [CacheDataLoader(dataset, cache_dir=..., batch_size=..., chunk_bytes=...)] for a
    dataset without a cache of its own; the batch size is the chunk size of the writer.  [chunk_bytes]: [None]: not
    given, then 64 MB (constants.py 23). *)
Definition default_chunk_bytes : N := 67108864%N.
Definition loader_accepts (batch_size : option nat) (chunk_bytes : option (option N)) : res unit :=
  let bytes := match chunk_bytes with None => Some default_chunk_bytes | Some x => x end in
  let has_size := truthy batch_size in
  let has_bytes := match bytes with Some n => negb (n =? 0)%N | None => false end in
  if (is_none batch_size && is_none bytes) || (has_size && has_bytes) then Err ValueError else Ok tt.
