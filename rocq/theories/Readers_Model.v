(** Model of the readers of map and optimize: the resharding of Parquet files and the
    batches of a StreamingDataLoader.
    Source: src/litdata/processing/readers.py 59-152, src/litdata/processing/data_processor.py
    750-800, 1112-1145, src/litdata/streaming/dataloader.py 669-677, src/litdata/utilities/env.py 77-82. *)
From Coq Require Import String NArith.
From Verif Require Import Base Names_Model Paths_Model Tree_Model Assign_Model Assign_Spec Distrib_Model.
Local Open Scope list_scope.
Local Open Scope nat_scope.

Section Parquet.
  Context {R : Type}.

  (** A Parquet file: its rows, or a file that a dying process left unfinished.
      Simplification: columns, row groups and metadata are not modelled. *)
  Inductive content := Table (rows : list R) | Torn.
  Definition pdisk := str -> option content.
  Definition pput (d : pdisk) (p : str) (c : content) : pdisk :=
    fun q => if list_eq_dec N.eq_dec q p then Some c else d q.

  (** readers.py 72-76, 78-93: the rows of a file. *)
  Definition read_rows (d : pdisk) (p : str) : res (list R) :=
    match d p with
    | None => Err FileNotFoundError
    | Some Torn => Err GenericException
    | Some (Table rows) => Ok rows
    end.

  (** readers.py 117-118: [range(0, n, num_rows)] and the end of each piece. *)
  Definition ranges (num_rows n : nat) : res (list (nat * nat)) :=
    if num_rows =? 0 then Err ValueError
    else Ok (map (fun k => (k * num_rows, Nat.min (k * num_rows + num_rows) n))
                 (seq 0 ((n + num_rows - 1) / num_rows))).

  (** readers.py 107, 115, 119: the file of a piece. *)
  Definition underscore : N := 95%N.
  Definition piece_path (cache_folder : str) (num_rows : nat) (filepath : str) (se : nat * nat) : str :=
    join (join cache_folder (dec num_rows))
         (dec (fst se) ++ underscore :: dec (snd se) ++ underscore :: basename filepath).

  (** readers.py 117-128: the pieces of one file.  [table[start:end]].  The table is read
      once, when the first piece is missing; nothing overwrites an existing file here, so
      reading it for each piece gives the same rows.  [budget]: how many pieces the
      process writes before it is killed in the middle of the next one ([None]: it is not
      killed). *)
  Fixpoint write_pieces (cache_folder : str) (num_rows : nat) (filepath : str) (ps : list (nat * nat))
           (d : pdisk) (budget : option nat) : pdisk * option nat * res (list str) :=
    match ps with
    | [] => (d, budget, Ok [])
    | se :: ps' =>
        let p := piece_path cache_folder num_rows filepath se in
        let rest d budget :=
          match write_pieces cache_folder num_rows filepath ps' d budget with
          | (d, budget, r) => (d, budget, bind r (fun items => Ok (p :: items)))
          end in
        match d p with
        | Some _ => rest d budget
        | None =>
            match read_rows d filepath with
            | Err e => (d, budget, Err e)
            | Ok rows =>
                match budget with
                | Some 0 => (pput d p Torn, budget, Err GenericException)
                | _ => rest (pput d p (Table (firstn (snd se - fst se) (skipn (fst se) rows)))) (option_map pred budget)
                end
            end
        end
    end.

  (** readers.py 95-133: [remap_items]. *)
  Fixpoint remap_files (cache_folder : str) (num_rows : nat) (filepaths : list str)
           (d : pdisk) (budget : option nat) : pdisk * res (list str) :=
    match filepaths with
    | [] => (d, Ok [])
    | f :: fs =>
        match bind (read_rows d f) (fun rows => ranges num_rows (length rows)) with
        | Err e => (d, Err e)
        | Ok ps =>
            match write_pieces cache_folder num_rows f ps d budget with
            | (d, _, Err e) => (d, Err e)
            | (d, budget, Ok items) =>
                match remap_files cache_folder num_rows fs d budget with
                | (d, r) => (d, bind r (fun items' => Ok (items ++ items')))
                end
            end
        end
    end.
End Parquet.
Arguments content : clear implicits.
Arguments pdisk : clear implicits.

(** dataloader.py 669-677: the length of a loader of [n] samples ([drop_last] false). *)
Definition ceil_div (n B : nat) : nat := (n + B - 1) / B.

(** readers.py 142-146 with data_processor.py 756, 797: a worker of the job that got [n]
    items reads one batch of its own loader for each of them; when there is none,
    [StopIteration] ends the worker with an error and so the job. *)
Definition take_batches {A} (n : nat) (stream : list (list A)) : res (list (list A)) :=
  if length stream <? n then Err StopIteration else Ok (firstn n stream).

(** data_processor.py 1115-1120, readers.py 148-152: the items are the positions of the
    batches in the loader of the parent process, which sees the whole dataset; 1142-1145:
    they are spread over the [W] workers of the job.  Each worker iterates a loader
    with [L] worker processes whose dataset is distributed over [W] ranks (env.py 77-82:
    DATA_OPTIMIZER_GLOBAL_RANK and DATA_OPTIMIZER_NUM_WORKERS).  [indexes], [ivs]: the
    chunks in the order of the epoch, with their intervals.
    Simplifications: one node, [drop_last] is false and [L >= 1]; the order in which the
    worker processes of a loader take turns is left out, [stream] lists the batches of
    one after the other (all batches are in it once and only their number decides
    whether one is missing), each cut into batches of [B] samples (the last may be shorter). *)
Definition loader_stream (L B r : nat) (a : list (list nat) * list (list interval)) : list (list sample) :=
  flat_map (fun w => pieces B (worker_samples w)) (rank_workers L r a).
Definition loader_job (W L B : nat) (indexes : list nat) (ivs : list interval) : res (list (list (list sample))) :=
  bind (map_sequentially 1 0 W (seq 0 (ceil_div (sum (map iv_size ivs)) B))) (fun items =>
  bind (assign W L B false indexes ivs) (fun a =>
  mapM (fun r => take_batches (length (nth r items [])) (loader_stream L B r a)) (seq 0 W))).
