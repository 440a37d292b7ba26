(** Model of what [map] and [optimize] tell the platform about the dataset they made.
    Source: src/litdata/processing/data_processor.py 820-828, 862-863, 897-939 (the result of [_done]), 1246-1262 (the end of [run]),
    src/litdata/processing/utilities.py 30-95 ([_create_dataset]).

    The merging of the index files is modelled in Merge_Model.v: here the index that the last node holds after it is given.
    Entries of it: name, number of samples and "dim", and "chunk_bytes".  The platform is a list of
    registered datasets and a test whether it calls a new one a dataset that exists already.
    Left out: the format and the identifiers of user, studio and cluster, which are passed on. *)
From Verif Require Import Base Config_Model.

Definition entry := (cinfo * nat)%type.
(** data_processor.py 820-828. *)
Record result := Result {
  r_size : nat; r_bytes : option nat; r_chunks : option nat; r_per_chunk : option (list nat)
}.
(** data_processor.py 862-863: the result of a [map]; [size]: the number of inputs of all nodes (1244), also with [fast_dev_run]. *)
Definition map_done (size : nat) : result := Result size None None None.
(** data_processor.py 897-939: the result of an [optimize]. *)
Definition optimize_done (num_nodes rank size : nat) (index : list entry) : result :=
  if num_nodes =? rank + 1 then
    Result (sum (map (fun c => match k_dim (fst c) with Some d => d | None => k_size (fst c) end) index))
           (Some (sum (map snd index)))
           (Some (length index))
           (Some (if length index <? 1024 then map (fun c => k_size (fst c)) index else []))
  else Result size None None None.

Section Platform.
Context {dir : Type}.
Inductive dataset_type := Chunked | Transformed.
Record registered := Registered { g_dir : dir; g_type : dataset_type; g_result : result }.
(** What the platform says to a new dataset: it is taken, it exists already, or another exception. *)
Inductive answer := Taken | Exists | Refused.
Context (says : list registered -> registered -> answer).

(** utilities.py 30-95.  [project]: LIGHTNING_CLOUD_PROJECT_ID is set.  ApiException is GenericException here. *)
Definition create_dataset (project : bool) (g : registered) (known : list registered) : list registered * res unit :=
  if project then
    match says known g with
    | Taken => (known ++ [g], Ok tt)
    | Exists => (known, Ok tt)
    | Refused => (known, Err GenericException)
    end
  else (known, Ok tt).

(** data_processor.py 1246-1262: the end of a run on one node.  [url]: the output directory has a url; [path]: its path. *)
Definition finish_node (num_nodes rank : nat) (studio project url : bool) (path : option dir) (t : dataset_type) (r : result)
    (known : list registered) : list registered * res unit :=
  match path with
  | Some d => if (num_nodes =? rank + 1) && url && studio then create_dataset project (Registered d t r) known else (known, Ok tt)
  | None => (known, Ok tt)
  end.

(** The nodes of a job end one after the other, in any order: [nodes] their ranks, [results] what they found.  One that raises does
    not keep the others from ending. *)
Fixpoint finish_nodes (num_nodes : nat) (studio project url : bool) (path : option dir) (t : dataset_type) (results : nat -> result)
    (nodes : list nat) (known : list registered) : list registered :=
  match nodes with
  | [] => known
  | rank :: nodes => finish_nodes num_nodes studio project url path t results nodes
                       (fst (finish_node num_nodes rank studio project url path t (results rank) known))
  end.
End Platform.
Arguments registered : clear implicits.
