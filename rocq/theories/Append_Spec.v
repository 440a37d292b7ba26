(** What the properties about repeated runs of [optimize] into one directory say. *)
From Verif Require Import Base Assign_Model Format_Model Writer_Model Codec_Model Tree_Model Sample_Model Encrypt_Model Encrypt_Spec Distrib_Model Optimize_Model Optimize_Spec Append_Model.
From Coq Require Import NArith.
Local Open Scope nat_scope.

(** What every run of [optimize] has in common here: the limits, the compression and the encryption. *)
Record terms := Terms { m_bytes : option nat; m_size : option nat; m_compress : bytes -> bytes; m_codec : option nat; m_cipher : option cipher }.
Definition on_terms {A} (m : terms) (u : job A) : Prop :=
  g_bytes (u_args u) = m_bytes m /\ g_size (u_args u) = m_size m /\ g_compress (u_args u) = m_compress m /\
  u_codec u = m_codec m /\ g_cipher (u_args u) = m_cipher m.

(** A run on one machine that is not interrupted; the environment permutes and does not lose. *)
Definition sound {A} (u : job A) : Prop :=
  g_nodes (u_args u) = 1 /\ 1 <= g_workers (u_args u) /\ g_fast (u_args u) = FdrBool false /\ u_killed u = false /\
  (forall r w n, Permutation (u_perm u r w n) (seq 0 n)) /\ (forall r n, Permutation (u_order u r n) (seq 0 n)) /\
  (forall l, Permutation (u_listdir u l) l) /\
  match g_sizes (u_args u) with None => True | Some sz => length (u_inputs u) = length sz /\ Forall (fun w => (0 < w)%Z) sz end.
(** Inputs are not reordered, there are no downloaders and at most ten workers. *)
Definition in_sequence {A} (u : job A) : Prop :=
  g_sizes (u_args u) = None /\ (forall k n, u_order u k n = seq 0 n) /\ g_workers (u_args u) <= 10.

(** The runs into a directory that was empty: the ones that succeeded, with the samples that their functions gave.  In between, any other runs
    on one machine that raised or were killed: other limits, other samples, functions that raise. *)
Inductive appended {A} isfile pickle rw (m : terms) : store -> list (job A * list (tree leaf)) -> Prop :=
| appended_new : appended isfile pickle rw m empty_store []
| appended_run d h u ts d' : appended isfile pickle rw m d h -> on_terms m u -> sound u -> outputs (u_fn u) (u_inputs u) ts ->
    append isfile pickle rw u d = (d', Ok tt) -> appended isfile pickle rw m d' (h ++ [(u, ts)])
| appended_failed d h (B : Type) (u : job B) e d' : appended isfile pickle rw m d h ->
    g_nodes (u_args u) = 1 -> Forall (fun l => fst (fst l) = 0) (u_left u) ->
    append isfile pickle rw u d = (d', Err e) -> appended isfile pickle rw m d' h.
