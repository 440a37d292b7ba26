(** [optimize] from the inputs to the dataset in the output directory: the models of the distribution of the inputs,
    the workers, the writers and the merging of the index files put together.
    Source: src/litdata/processing/functions.py 418-530, src/litdata/processing/data_processor.py 540-598 ([_loop]),
    600-603, 749-785 ([_handle_data_chunk_recipe] and its end), 897-981 ([_done]), 1092-1190 ([run]),
    src/litdata/streaming/writer.py 299-302, 415-443, 474-517.

    Simplifications: no [mode], no checkpoints, no [batch_size] (see C49, C86, C44); all chunk files arrive in the output directory
    (C94); an exception in a worker makes [optimize] raise (C88), which of several is not specified: the first is taken;
    the entries of the configuration that are arguments of [optimize] (compression, limits) are the same for all
    writers and left out. *)
From Verif Require Import Base Assign_Model Distrib_Model Config_Model Format_Model Codec_Model Tree_Model Sample_Model
  Writer_Model Encrypt_Model Dataset_Model Names_Model Merge_Model.
From Coq Require Import NArith Cantor.

(** Equality of two configurations of index files, as Python compares what [json.load] gives (writer.py 500). *)
Definition json_eq_dec : forall a b : json, {a = b} + {a <> b}.
Proof.
  fix rec 1. decide equality.
  - apply (list_eq_dec N.eq_dec).
  - apply Z.eq_dec.
  - apply Bool.bool_dec.
  - apply N.eq_dec.
  - apply (list_eq_dec rec).
Defined.
Definition kind_eq_dec : forall a b : kind json, {a = b} + {a <> b}.
Proof.
  decide equality; try apply (list_eq_dec json_eq_dec); try apply Nat.eq_dec.
  - decide equality; apply Nat.eq_dec.
  - decide equality; apply Nat.eq_dec.
Defined.
Definition spec_eq_dec : forall a b : spec json, {a = b} + {a <> b}.
Proof. fix rec 1. decide equality; [apply (list_eq_dec rec)|apply kind_eq_dec]. Defined.
Definition fmt_eq_dec (a b : fmt) : {a = b} + {a <> b}.
Proof. decide equality; [decide equality; apply N.eq_dec|decide equality]. Defined.
Definition config := ((option (list fmt) * option (spec json)) * option (nat * level))%type.
Definition config_eq_dec (a b : config) : {a = b} + {a <> b}.
Proof.
  decide equality.
  - decide equality. decide equality; [decide equality|apply Nat.eq_dec].
  - decide equality; [decide equality; apply spec_eq_dec|decide equality; apply (list_eq_dec fmt_eq_dec)].
Defined.
Definition same_config (a b : config) : bool := if config_eq_dec a b then true else false.

(** writer.py 299-302: the file name of a chunk is made of the rank of the writer and the number of the chunk; file
    names are represented by numbers, different names (C42) by different numbers. *)
Definition file_id (rank index : nat) : nat := to_nat (rank, index).

Section Optimize.
Context {A : Type} (isfile : list N -> bool) (pickle : leaf -> bytes) (registered_w : nat -> bool).
(** The user's function: what it returns (a list of one) or yields; [None] is not stored. *)
Context (fn : A -> res (list (option (tree leaf)))).

(** data_processor.py 749-771: the samples that a worker adds to its writer for the inputs in the order in which it
    gets them. *)
Definition stored_outputs (outs : list (option (tree leaf))) : list (tree leaf) :=
  flat_map (fun o => match o with Some t => [t] | None => [] end) outs.
Fixpoint run_inputs (inputs : list A) : res (list (tree leaf)) :=
  match inputs with
  | [] => Ok []
  | a :: inputs' => bind (fn a) (fun outs => bind (run_inputs inputs') (fun r => Ok (stored_outputs outs ++ r)))
  end.

(** What a worker leaves: its index (writer.py 415-423) and its chunk files. *)
Record produced := Produced { p_index : index (cinfo * nat) config; p_files : list (nat * bytes) }.
Definition rename (rank : nat) (c : cinfo * nat) : cinfo * nat :=
  (Ci (file_id rank (k_file (fst c))) (k_size (fst c)) (k_dim (fst c)), snd c).

(** Arguments of [optimize]: limits of the chunks, compression, encryption, numbers of nodes and workers, [fast_dev_run];
    the sizes of the files of the inputs if they are reordered. *)
Record args := Args {
  g_bytes : option nat; g_size : option nat; g_compress : bytes -> bytes; g_cipher : option cipher;
  g_nodes : nat; g_workers : nat; g_fast : fdr; g_sizes : option (list Z)
}.
Context (g : args).

Definition write_outputs (rank : nat) (ts : list (tree leaf)) : res produced :=
  match ts with
  | [] => bind (create_writer (WCfg (g_bytes g) (g_size g) (chunk_seal (g_cipher g)) (g_compress g)) 0) (fun _ => Ok (Produced (Index [] None) []))
  | _ =>
      bind (write_dataset isfile pickle registered_w (g_bytes g) (g_size g) (g_compress g) (g_cipher g) ts) (fun x =>
      Ok (Produced (Index (map (rename rank) (x_chunks x)) (Some (x_format x, x_enc x)))
                   (map (fun f => (file_id rank (fst f), snd f)) (x_files x))))
  end.

(** [order rank n]: the order in which the inputs of a worker become ready (C45): 0, 1, ... without downloaders. *)
Context (perm : nat -> nat -> nat -> list nat) (order : nat -> nat -> list nat).
Definition run_worker (rank : nat) (share : list A) : res produced :=
  bind (run_inputs (permute (order rank (length share)) share)) (write_outputs rank).
(** data_processor.py 600-603: the rank of a worker. *)
Definition rank_of (node worker : nat) : nat := node * g_workers g + worker.
Definition run_node (node : nat) (inputs : list A) : res (list (nat * produced)) :=
  bind (distribute (perm node) (g_nodes g) node (g_workers g) inputs None (g_sizes g)) (fun shares =>
  mapM (fun ws => bind (run_worker (rank_of node (fst ws)) (snd ws)) (fun p => Ok (rank_of node (fst ws), p)))
       (combine (seq 0 (length (limit_items (g_fast g) shares))) (limit_items (g_fast g) shares))).

(** The index files of a node, in the order of [os.listdir]; then the merging.  The result: the output directory. *)
Context (listdir : list (str * index (cinfo * nat) config) -> list (str * index (cinfo * nat) config)).
Definition node_files (ws : list (nat * produced)) : list (str * index (cinfo * nat) config) :=
  listdir (flat_map (fun w => index_file (fst w) (p_index (snd w))) ws).
Definition optimize (inputs : list A) : res written :=
  bind (mapM (fun node => run_node node inputs) (seq 0 (g_nodes g))) (fun nodes =>
  bind (finish same_config (map node_files nodes) None) (fun merged =>
  match merged with
  | [(_, i)] =>
      Ok (Written (i_chunks i)
            (match i_config i with Some c => fst c | None => (None, None) end)
            (match i_config i with Some c => snd c | None => None end)
            (flat_map (fun w => p_files (snd w)) (concat nodes)))
  | _ => Err RuntimeError
  end)).
End Optimize.
