(** How a process finds out which part of a job it is.
    Source: src/litdata/utilities/env.py 35-82, 110-123, 169-192, 209-212,
    src/litdata/processing/data_processor.py 600-603, src/litdata/streaming/dataset.py 138, 275-291.

    Simplification: environment variables hold numbers (other values make [int] raise ValueError);
    [torch.distributed.get_world_size] does not give -1 (a process outside of the group). *)
From Verif Require Import Base Assign_Model.
From Coq Require Import String.
Local Open Scope list_scope.
Local Open Scope nat_scope.

(** What a process sees: the process group of torch, if it is initialised (world size and rank); the number of GPUs, if CUDA is
    available (then at least 1); the environment variables. *)
Record process := Process {
  r_group : option (nat * nat);
  r_gpus : option nat;
  r_vars : string -> option nat
}.
Definition getenv (p : process) (name : string) (default : nat) : nat :=
  match r_vars p name with Some v => v | None => default end.

(** env.py 52-66: from the process group. *)
Definition from_group (p : process) : res denv :=
  match r_group p with
  | Some (W, rank) =>
      match r_gpus p with
      | Some g =>
          let nodes := if 1 <=? W / g then W / g else 1 in
          if (1 <? nodes) && negb (W mod g =? 0) then Err RuntimeError else Ok (Env W rank nodes)
      | None => Ok (Env W rank 1)
      end
  | None => Ok (Env 1 0 1)
  end.
(** env.py 36-75: [_DistributedEnv.detect]; 77-82: in a worker of [map] or [optimize]. *)
Definition detect (p : process) : res denv :=
  match r_vars p "DATA_OPTIMIZER_GLOBAL_RANK" with
  | Some rank =>
      let nodes := getenv p "DATA_OPTIMIZER_NUM_NODES" 1 in
      Ok (Env (getenv p "DATA_OPTIMIZER_NUM_WORKERS" 0 * nodes) rank nodes)
  | None =>
      bind (from_group p) (fun e =>
      Ok (Env (getenv p "WORLD_SIZE" (world_size e)) (getenv p "GLOBAL_RANK" (global_rank e)) (getenv p "NNODES" (num_nodes e))))
  end.

(** data_processor.py 600-603 with the variables of the parent: what worker [w] of node [node] of [map] or [optimize] sees. *)
Definition optimizer_worker (parent : process) (num_workers node w : nat) : process :=
  Process None (r_gpus parent) (fun name =>
    if String.eqb name "DATA_OPTIMIZER_GLOBAL_RANK" then Some (node * num_workers + w)
    else if String.eqb name "DATA_OPTIMIZER_NUM_WORKERS" then Some num_workers else r_vars parent name).

(** env.py 110-123: [_WorkerEnv.detect] of a dataloader worker (number of workers, id), or elsewhere. *)
Definition worker_env (info : option (nat * nat)) : nat * nat := match info with Some (n, id) => (n, id) | None => (1, 0) end.
(** env.py 169-192: [num_shards] and [shard_rank]; also writer.py 137-146, cache.py 100-108. *)
Definition num_shards (e : denv) (we : nat * nat) : nat := fst we * world_size e.
Definition shard_rank (e : denv) (we : nat * nat) : nat := global_rank e * fst we + snd we.
