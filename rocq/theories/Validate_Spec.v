(** Vocabulary for the validation of a state dict. *)
From Verif Require Import Base Validate_Model.

(** The path recorded in the state, after resolving it to its cache directory. *)
Definition resolved (replace : token -> bool) (cache_dir : token -> token -> token) (st : vstate) : token :=
  if replace (v_path st)
  then cache_dir (match v_path st with Some p => Some p | None => v_url st end) (v_cache st)
  else v_path st.

(** The configuration values on which the state and the dataset agree. *)
Definition agrees replace cache_dir (cur : vcur) (st : vstate) : Prop :=
  v_shuffle st = c_shuffle cur /\ v_workers st = c_workers cur /\
  resolved replace cache_dir st = c_path cur /\ v_url st = c_url cur /\ v_seed st = c_seed cur /\
  (forall t, c_loader cur = Some t -> v_loader st = t) /\ v_drop st = c_drop cur.
