(** Model of merging index files and datasets.
    Source: src/litdata/streaming/writer.py 415-423 and 445-517,
    src/litdata/processing/data_processor.py 897-981,
    src/litdata/processing/functions.py 584-659. *)
From Coq Require Import String.
From Verif Require Import Base Names_Model.
From Coq Require Import NArith.
Local Open Scope list_scope.
Local Open Scope nat_scope.

Section Merge.
(** A chunk entry and a configuration of the index; configurations can be compared. *)
Context {chunk config : Type} (same : config -> config -> bool).

(** A parsed index file.  [None] as configuration is JSON's null. *)
Record index := Index { i_chunks : list chunk; i_config : option config }.

Definition same_opt (a b : option config) : bool :=
  match a, b with Some x, Some y => same x y | None, None => true | _, _ => false end.

(** The order of Python strings: by code points. *)
Fixpoint str_le (a b : str) : bool :=
  match a, b with
  | [], _ => true
  | _ :: _, [] => false
  | x :: a', y :: b' => if (x <? y)%N then true else if (y <? x)%N then false else str_le a' b'
  end.

(** [sorted]: stable, as an insertion sort.  The names in a directory are distinct. *)
Fixpoint insert_file (f : str * index) (l : list (str * index)) : list (str * index) :=
  match l with
  | [] => [f]
  | g :: l' => if str_le (fst f) (fst g) then f :: l else g :: insert_file f l'
  end.
Definition sort_files (l : list (str * index)) : list (str * index) := fold_right insert_file [] l.

Definition index_json : str := codes "index.json".
(** writer.py 419: the index of one writer. *)
Definition worker_index (rank : nat) : str := dec rank ++ codes ".index.json".
(** writer.py 516: the index of one node. *)
Definition node_index (node : nat) : str := dec node ++ codes "-index.json".

Fixpoint merge_loop (files : list (str * index)) (chunks : list chunk) (conf : option config)
  : res (list chunk * option config) :=
  match files with
  | [] => Ok (chunks, conf)
  | (_, data) :: files' =>
      match conf with
      | None => merge_loop files' (chunks ++ i_chunks data) (i_config data)
      | Some _ => if same_opt conf (i_config data) then merge_loop files' (chunks ++ i_chunks data) conf
                  else Err GenericException
      end
  end.

(** writer.py 474-517: [_merge_no_wait]; [files] are the index files in the cache
    directory in the order of [os.listdir].  The returned file is the only index file
    that is left in the directory. *)
Definition merge_no_wait (files : list (str * index)) (node_rank : option nat) (existing : option index)
  : res (list (str * index)) :=
  let start := match existing with Some e => (i_chunks e, i_config e) | None => ([], None) end in
  bind (merge_loop (sort_files files) (fst start) (snd start)) (fun r =>
  let name := match node_rank with None => index_json | Some n => node_index n end in
  Ok [(name, Index (fst r) (snd r))]).

(** writer.py 445-472: [merge] of rank 0; [looks] are the successive contents of the
    directory.  [None]: still waiting. *)
Fixpoint merge_wait (expected : nat) (looks : list (list (str * index))) : option (res (list (str * index))) :=
  match looks with
  | [] => None
  | files :: looks' =>
      if existsb (fun f => if list_eq_dec N.eq_dec (fst f) index_json then true else false) files then Some (Ok files)
      else if length files =? expected then Some (merge_no_wait files None None)
      else merge_wait expected looks'
  end.

(** writer.py 415-423: [write_chunks_index]: a writer without chunks writes no index. *)
Definition index_file (rank : nat) (i : index) : list (str * index) :=
  match i_chunks i with [] => [] | _ => [(worker_index rank, i)] end.

(** data_processor.py 897-981: [_done] and [_upload_index] with an output directory that
    all nodes share.  [nodes] are the index files in the cache directory of each node.
    On one node: merge.  On several nodes each merges its own files, all with the
    existing index of the output directory, and the last one merges the results.
    Simplification: the last node comes last (see [C85] for the waiting). *)
Fixpoint node_merges (n : nat) (nodes : list (list (str * index))) (existing : option index) : res (list (str * index)) :=
  match nodes with
  | [] => Ok []
  | files :: nodes' =>
      bind (merge_no_wait files (Some n) existing) (fun f =>
      bind (node_merges (S n) nodes' existing) (fun fs => Ok (f ++ fs)))
  end.
Definition finish (nodes : list (list (str * index))) (existing : option index) : res (list (str * index)) :=
  match nodes with
  | [files] => merge_no_wait files None existing
  | _ => bind (node_merges 0 nodes existing) (fun fs => merge_no_wait fs None None)
  end.
End Merge.
Arguments index : clear implicits.
Arguments Index {chunk config}.

(** functions.py 584-659: [merge_datasets].  A dataset: data format, compression, the
    rest of its configuration, the chunk entries (file name and the rest), and its
    files.  Not modelled: resolving directories, threads (the copies may be done in
    any order, see the theorem), mixing local and remote directories. *)
Section Datasets.
Context {format rest info : Type} (same_format : format -> format -> bool).
Record dataset := Dataset {
  d_format : format; d_compression : option str; d_rest : rest;
  d_chunks : list (str * info);
  d_files : str -> option (list N)
}.
Definition same_name (a b : str) : bool := if list_eq_dec N.eq_dec a b then true else false.
Definition same_comp (a b : option str) : bool :=
  match a, b with Some x, Some y => same_name x y | None, None => true | _, _ => false end.

(** functions.py 631-633; the compression is tested with [is not None]. *)
Definition merged_name (compression : option str) (counter : nat) : str :=
  match compression with
  | Some c => codes "chunk-0-" ++ dec counter ++ [dot] ++ c ++ codes ".bin"
  | None => codes "chunk-0-" ++ dec counter ++ codes ".bin"
  end.

(** functions.py 622-638: the new entries and the copies (source file, new name). *)
Fixpoint rename_chunks (ds : dataset) (chunks : list (str * info)) (counter : nat)
  : list (str * info) * list (option (list N) * str) * nat :=
  match chunks with
  | [] => ([], [], counter)
  | (old, i) :: chunks' =>
      let new := merged_name (d_compression ds) counter in
      let r := rename_chunks ds chunks' (S counter) in
      ((new, i) :: fst (fst r), (d_files ds old, new) :: snd (fst r), snd r)
  end.
Fixpoint rename_all (dss : list dataset) (counter : nat) : list (str * info) * list (option (list N) * str) :=
  match dss with
  | [] => ([], [])
  | ds :: dss' =>
      let r := rename_chunks ds (d_chunks ds) counter in
      let q := rename_all dss' (snd r) in
      (fst (fst r) ++ fst q, snd (fst r) ++ snd q)
  end.

(** functions.py 662-682: one copy; a missing source raises. *)
Definition copy_one (out : str -> option (list N)) (c : option (list N) * str) : res (str -> option (list N)) :=
  match fst c with
  | Some b => Ok (fun n => if same_name n (snd c) then Some b else out n)
  | None => Err FileNotFoundError
  end.
Fixpoint copy_all (out : str -> option (list N)) (cs : list (option (list N) * str)) : res (str -> option (list N)) :=
  match cs with
  | [] => Ok out
  | c :: cs' => bind (copy_one out c) (fun out => copy_all out cs')
  end.

(** The checks of 605-619 that do not concern directories, and the merged dataset;
    [order] is the order in which the thread pool does the copies, [out] the files
    of the output directory. *)
Definition merge_datasets (dss : list dataset) (out : str -> option (list N))
    (order : list (option (list N) * str) -> list (option (list N) * str)) : res dataset :=
  match dss with
  | [] => Err ValueError
  | [_] => Err ValueError
  | d0 :: rest =>
      if existsb (fun d => negb (same_format (d_format d0) (d_format d)) || negb (same_comp (d_compression d0) (d_compression d))) rest
      then Err ValueError
      else
        let r := rename_all dss 0 in
        bind (copy_all out (order (snd r))) (fun files =>
        Ok (Dataset (d_format d0) (d_compression d0) (d_rest d0) (fst r) files))
  end.
End Datasets.
Arguments dataset : clear implicits.
