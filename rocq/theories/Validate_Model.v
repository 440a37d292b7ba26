(** Model of the check of a loaded state dict.
    Source: src/litdata/streaming/dataset.py 475-620.

    Simplification: paths, URLs and item-loader states are only compared for
    equality and are represented by numbers; [None] by [None]. *)
From Verif Require Import Base.

Definition token := option nat.
Definition token_eqb (a b : token) : bool :=
  match a, b with
  | None, None => true
  | Some x, Some y => x =? y
  | _, _ => false
  end.

(** dataset.py 483-498: the recorded values. *)
Record vstate := VS {
  v_samples : nat; v_workers : nat; v_batch : nat; v_path : token; v_url : token;
  v_cache : token; v_loader : token; v_drop : bool; v_seed : nat; v_world : nat; v_shuffle : bool }.

(** The dataset's own values. [c_loader = None]: no item loader was given;
    [Some t]: its [state_dict()] is [t]. *)
Record vcur := VC {
  c_workers : nat; c_batch : nat; c_path : token; c_url : token; c_loader : option token;
  c_drop : bool; c_seed : nat; c_world : nat; c_shuffle : bool; c_len : nat }.

(** One check: if the values differ, raise unless [force], else store the current value. *)
Definition check (force differ : bool) (st st' : vstate) : res vstate :=
  if differ then (if force then Ok st' else Err ValueError) else Ok st.

(** dataset.py 508-620: [_validate_state_dict].  [replace p] is
    [_should_replace_path(p)]; [cache_dir d c] is [_try_create_cache_dir(d, c)]. *)
Definition validate (force : bool) (replace : token -> bool) (cache_dir : token -> token -> token)
           (cur : vcur) (st : vstate) : res vstate :=
  let set_shuffle s := VS (v_samples s) (v_workers s) (v_batch s) (v_path s) (v_url s) (v_cache s)
                          (v_loader s) (v_drop s) (v_seed s) (v_world s) (c_shuffle cur) in
  let set_workers s := VS (v_samples s) (c_workers cur) (v_batch s) (v_path s) (v_url s) (v_cache s)
                          (v_loader s) (v_drop s) (v_seed s) (v_world s) (v_shuffle s) in
  let set_path s := VS (v_samples s) (v_workers s) (v_batch s) (c_path cur) (v_url s) (v_cache s)
                       (v_loader s) (v_drop s) (v_seed s) (v_world s) (v_shuffle s) in
  let set_url s := VS (v_samples s) (v_workers s) (v_batch s) (v_path s) (c_url cur) (v_cache s)
                      (v_loader s) (v_drop s) (v_seed s) (v_world s) (v_shuffle s) in
  let set_seed s := VS (v_samples s) (v_workers s) (v_batch s) (v_path s) (v_url s) (v_cache s)
                       (v_loader s) (v_drop s) (c_seed cur) (v_world s) (v_shuffle s) in
  let set_loader t s := VS (v_samples s) (v_workers s) (v_batch s) (v_path s) (v_url s) (v_cache s)
                         t (v_drop s) (v_seed s) (v_world s) (v_shuffle s) in
  let set_drop s := VS (v_samples s) (v_workers s) (v_batch s) (v_path s) (v_url s) (v_cache s)
                       (v_loader s) (c_drop cur) (v_seed s) (v_world s) (v_shuffle s) in
  bind (check force (negb (Bool.eqb (v_shuffle st) (c_shuffle cur))) st (set_shuffle st)) (fun st =>
  bind (check force (negb (v_workers st =? c_workers cur)) st (set_workers st)) (fun st =>
  bind (if replace (v_path st)
        then let cache_path := cache_dir (match v_path st with Some p => Some p | None => v_url st end) (v_cache st) in
             check force (negb (token_eqb cache_path (c_path cur))) st (set_path st)
        else check force (negb (token_eqb (v_path st) (c_path cur))) st (set_path st)) (fun st =>
  bind (check force (negb (token_eqb (v_url st) (c_url cur))) st (set_url st)) (fun st =>
  bind (check force (negb (v_seed st =? c_seed cur)) st (set_seed st)) (fun st =>
  bind (match c_loader cur with
        | None => Ok st
        | Some t => check force (negb (token_eqb (v_loader st) t)) st (set_loader t st)
        end) (fun st =>
  bind (check force (negb (Bool.eqb (v_drop st) (c_drop cur))) st (set_drop st)) (fun st =>
  if c_len cur <? v_samples st then Err ValueError else Ok st))))))).
