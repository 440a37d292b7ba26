(** Vocabulary for the properties about repeated use of a dataloader. *)
From Verif Require Import Base Assign_Model Assign_Spec Iter_Model Loader_Order_Model Passes_Model.

(** The samples of the batches delivered, in order. *)
Definition delivered (out : list (nat * list sample)) : list sample := concat (map snd out).

(** With [num_workers=0] there is one worker; the shuffled distribution over
    several nodes (Assign_Model.v) is left out. *)
Definition cfg_ok (k : pcfg) : Prop :=
  rng_ok (k_rng k) /\ 1 <= k_nw k /\ 1 <= k_B k /\ global_rank (k_env k) < world_size (k_env k) /\
  (k_shuffle k = false \/ num_nodes (k_env k) = 1) /\ (k_mode k = InProcess -> k_nw k = 1).

(** A history that persistent workers follow: with persistent workers every
    earlier loop ran to its end. *)
Definition history_ok (k : pcfg) (vs : list visit) : Prop :=
  k_mode k = PersistentWorkers -> Forall (eq Whole) vs.

(** The same dataset and loader arguments, apart from how the workers are run. *)
Definition same_data (k k' : pcfg) : Prop :=
  k_rng k' = k_rng k /\ k_shuffle k' = k_shuffle k /\ k_env k' = k_env k /\ k_seed k' = k_seed k /\
  k_drop k' = k_drop k /\ k_nw k' = k_nw k /\ k_B k' = k_B k /\ k_ivs k' = k_ivs k.

(** A training run that is stopped again and again: every time a new loader
    loads the last saved state, delivers some batches and saves its state; the
    final one runs to the end.  All batches delivered. *)
Fixpoint relay (k : pcfg) (len : nat) (ms : list nat) (lv : lsaved) (d : sdict) : res (list (nat * list sample)) :=
  match ms with
  | [] => bind (p_visit k Whole (p_load len lv d p_init)) (fun r => Ok (fst r))
  | m :: ms' =>
      bind (p_visit k (Part m) (p_load len lv d p_init)) (fun r =>
      match p_save k (snd r) with
      | ((lv', h), st) =>
          match h_read h st with
          | Some d' => bind (relay k len ms' lv' d') (fun rest => Ok (fst r ++ rest))
          | None => Err KeyError
          end
      end)
  end.
