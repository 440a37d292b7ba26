(** What the properties about the cache dataloader say. *)
From Coq Require Import String NArith ZArith Permutation.
From Verif Require Import Base Names_Model Format_Model Writer_Model Fill_Model.
Local Open Scope list_scope.
Local Open Scope nat_scope.

(** Every access, in every process, gives the same sample. *)
Definition deterministic (ds : nat -> nat -> nat -> list value) (data : nat -> list value) : Prop := forall p t i, ds p t i = data i.

(** No array, no nan. *)
Definition plain (v : value) : Prop := match v with VArray _ | VFloat None => False | _ => True end.

(** The chunks of the writer are not encrypted and can be decompressed. *)
Definition readable (c : wcfg) (decompress : bytes -> bytes) : Prop :=
  (forall k d, c_seal c k d = d) /\ (forall d, decompress (c_compress c d) = d).

(** All batches. *)
Definition complete_pass : nat -> nat -> option nat := fun _ _ => None.

(** The chunk offsets of the format have four bytes. *)
Definition small_chunks (chunks : list (nat * chunk)) : Prop := Forall (fun x => (N.of_nat (ch_bytes (snd x)) < two32)%N) chunks.

(** A cache is a list: it has as many samples as the list and each at its place. *)
Definition holds (decompress : bytes -> bytes) (chunks : list (nat * chunk)) (l : list bytes) : Prop :=
  sum (map (fun x => ch_size (snd x)) chunks) = length l /\
  (forall i x, nth_error l i = Some x -> cache_get decompress chunks (Z.of_nat i) = Ok x) /\
  (forall i, (i < 0 \/ Z.of_nat (length l) <= i)%Z -> cache_get decompress chunks i = Err ValueError).

(** Leaves that the comparison can tell apart: not a bool and an int, not tensors of different lengths. *)
Definition distinguishable (v1 v2 : value) : Prop :=
  match v1, v2 with
  | VBool _, VInt _ => False
  | VTensor a, VTensor b => length a = length b
  | _, _ => True
  end.
