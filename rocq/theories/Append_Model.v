(** [optimize] with [mode="append"]: runs of [optimize] into one directory, one after the other.
    Source: src/litdata/processing/functions.py 460-520, src/litdata/processing/data_processor.py 600-618, 897-981, 1275-1308,
    src/litdata/streaming/writer.py 147-157, 299-302, 415-443, 474-517, src/litdata/streaming/resolver.py 259-270.

    Simplifications: those of Optimize_Model.v, but the settings that are compared with the existing index are kept (not the item loader); the index is
    replaced in one step (it is copied in place). *)
From Verif Require Import Base Config_Model Format_Model Codec_Model Tree_Model Sample_Model Encrypt_Model
  Dataset_Model Distrib_Model Names_Model Merge_Model Optimize_Model.
From Coq Require Import NArith Cantor.
Local Open Scope nat_scope.

(** writer.py 147-157: chunk_bytes, chunk_size and the name of the compression, which are also in the configuration of an index. *)
Definition settings := (option nat * option nat * option nat)%type.
Definition aconfig := (config * settings)%type.
Definition aconfig_eq_dec (a b : aconfig) : {a = b} + {a <> b}.
Proof. decide equality; [repeat decide equality|apply config_eq_dec]. Defined.
Definition same_aconfig (a b : aconfig) : bool := if aconfig_eq_dec a b then true else false.

(** The output directory: the index, if there is one, and the chunk files. *)
Record store := Store { st_index : option (index (cinfo * nat) aconfig); st_files : list (nat * bytes) }.
Definition empty_store : store := Store None [].
Definition entries_of (d : store) : list (cinfo * nat) := match st_index d with Some i => i_chunks i | None => [] end.
(** A file replaces the one of the same name. *)
Definition put_files (new old : list (nat * bytes)) : list (nat * bytes) :=
  new ++ filter (fun f => negb (existsb (Nat.eqb (fst f)) (map fst new))) old.

(** functions.py 476-490: [state_dict[w]], from the ranks and numbers in the names of the existing chunks. *)
Definition start_of (chunks : list (cinfo * nat)) (w : nat) : nat :=
  fold_left (fun s c => let (rank, index) := of_nat (k_file (fst c)) in if (rank =? w) && (s <=? index) then index + 1 else s) chunks 0.

(** A run: the function and the inputs, the arguments, the name of the compression; what the environment contributes: permutations, the
    orders of the inputs and of the directory, and, if a worker raises or all are killed, the chunk files that had arrived (node, worker, number). *)
Record job (A : Type) := Job {
  u_fn : A -> res (list (option (tree leaf)));
  u_inputs : list A;
  u_args : args;
  u_codec : option nat;
  u_perm : nat -> nat -> nat -> list nat;
  u_order : nat -> nat -> list nat;
  u_listdir : list (str * index (cinfo * nat) aconfig) -> list (str * index (cinfo * nat) aconfig);
  u_killed : bool;
  u_left : list ((nat * nat) * (nat * bytes))
}.
Arguments u_fn {A}. Arguments u_inputs {A}. Arguments u_args {A}. Arguments u_codec {A}. Arguments u_perm {A}. Arguments u_order {A}.
Arguments u_listdir {A}. Arguments u_killed {A}. Arguments u_left {A}.

Section Append.
Context {A : Type} (isfile : list N -> bool) (pickle : leaf -> bytes) (registered_w : nat -> bool).
Definition settings_of (u : job A) : settings := (g_bytes (u_args u), g_size (u_args u), u_codec u).

(** data_processor.py 1296, 618 and writer.py 299-302: a writer that starts with chunk number [s] instead of 0. *)
Definition shift_id (s file : nat) : nat := let (rank, index) := of_nat file in file_id rank (s + index).
Definition shift (s : nat) (c : cinfo * nat) : cinfo * nat := (Ci (shift_id s (k_file (fst c))) (k_size (fst c)) (k_dim (fst c)), snd c).
Record output := Output { q_rank : nat; q_index : index (cinfo * nat) aconfig; q_files : list (nat * bytes) }.
Definition output_of (u : job A) (s : nat) (rp : nat * produced) : output :=
  Output (fst rp)
    (Index (map (shift s) (i_chunks (p_index (snd rp)))) (option_map (fun c => (c, settings_of u)) (i_config (p_index (snd rp)))))
    (map (fun f => (shift_id s (fst f), snd f)) (p_files (snd rp))).
(** The workers of a node; worker [w] starts with [state_dict[w]] on every node. *)
Definition node_outputs (u : job A) (d : store) (node : nat) : res (list output) :=
  bind (run_node isfile pickle registered_w (u_fn u) (u_args u) (u_perm u) (u_order u) node (u_inputs u)) (fun ws =>
  Ok (map (fun wr => output_of u (start_of (entries_of d) (fst wr)) (snd wr)) (combine (seq 0 (length ws)) ws))).
Definition left_files (u : job A) (d : store) : list (nat * bytes) :=
  map (fun l => (file_id (rank_of (u_args u) (fst (fst l)) (snd (fst l))) (start_of (entries_of d) (snd (fst l)) + fst (snd l)), snd (snd l))) (u_left u).

(** The directory after the run, and whether it raised.  An exception of a worker, or the end of all processes, may leave some chunk files. *)
Definition append (u : job A) (d : store) : store * res unit :=
  if u_killed u then (Store (st_index d) (put_files (left_files u d) (st_files d)), Err GenericException)
  else match mapM (node_outputs u d) (seq 0 (g_nodes (u_args u))) with
  | Err e => (Store (st_index d) (put_files (left_files u d) (st_files d)), Err e)
  | Ok nodes =>
      let files := put_files (flat_map q_files (concat nodes)) (st_files d) in
      match finish same_aconfig (map (fun os => u_listdir u (flat_map (fun o => index_file (q_rank o) (q_index o)) os)) nodes) (st_index d) with
      | Ok [(_, i)] => (Store (Some i) files, Ok tt)
      | Ok _ => (Store (st_index d) files, Err RuntimeError)
      | Err e => (Store (st_index d) files, Err e)
      end
  end.
End Append.

(** A dataset opened on the directory. *)
Definition written_of (d : store) : written :=
  match st_index d with
  | Some i => Written (i_chunks i) (match i_config i with Some c => fst (fst c) | None => (None, None) end)
                (match i_config i with Some c => snd (fst c) | None => None end) (st_files d)
  | None => Written [] (None, None) None (st_files d)
  end.
Definition open_store (registered_r : nat -> bool) (decompress : bytes -> res bytes) (d : store) : res opened :=
  match st_index d with Some _ => open_dataset registered_r decompress (written_of d) | None => Err FileNotFoundError end.
