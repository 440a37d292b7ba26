(** Property theorems on using one dataloader again and again. *)
From Verif Require Import Base Assign_Model Assign_Spec Iter_Model Iter_Spec Loader_Order_Model Passes_Model Passes_Spec.
From Verif Require Import Passes_Proofs.

(** A random generator that turns the order round in every other epoch. *)
Definition ep_rng : rng_t := fun key n => if Nat.even (sum key) then seq 0 n else rev (seq 0 n).
Lemma ep_rng_ok : rng_ok ep_rng.
Proof. intros key n. unfold ep_rng. destruct (Nat.even (sum key)); [apply Permutation_refl|apply Permutation_sym, Permutation_rev]. Qed.

(** Four samples in two chunks for two workers; six samples in two chunks for one. *)
Definition ex4 (md : mode) : pcfg := Cfg ep_rng true (Env 1 0 1) 0 false 2 1 [Iv 0 0 2 2; Iv 2 2 4 4] md 2.
Definition ex6 (md : mode) : pcfg := Cfg ep_rng true (Env 1 0 1) 0 false 1 1 [Iv 0 0 3 3; Iv 3 3 6 6] md 2.
Lemma ex4_ok md : md <> InProcess -> cfg_ok (ex4 md).
Proof. intros H. unfold cfg_ok; cbn. repeat split; auto using ep_rng_ok. intros ->; congruence. Qed.
Lemma ex6_ok md : cfg_ok (ex6 md).
Proof. unfold cfg_ok; cbn. repeat split; auto using ep_rng_ok. Qed.

(** C133: a complete loop delivers the whole dataset exactly once over all
    ranks, after any history of loops, of which any number was left early
    (with persistent workers: none was). *)
Theorem C133_partial rng shuffle W nodes seed nw B ivs md pf n (hist : nat -> list visit) :
  rng_ok rng -> 1 <= W -> 1 <= nw -> 1 <= B -> (shuffle = false \/ nodes = 1) -> (md = InProcess -> nw = 1) ->
  let k r := Cfg rng shuffle (Env W r nodes) seed false nw B ivs md pf in
  (forall r, r < W -> length (hist r) = n /\ history_ok (k r) (hist r)) ->
  exists out,
    (forall r, r < W -> exists outs st st', p_visits (k r) (hist r) p_init = Ok (outs, st) /\
                                            p_visit (k r) Whole st = Ok (out r, st')) /\
    Permutation (flat_map (fun r => delivered (out r)) (seq 0 W)) (dataset_samples (seq 0 (length ivs)) ivs).
Proof. exact (complete_loop rng shuffle W nodes seed nw B ivs md pf n hist). Qed.
Print Assumptions C133_partial.

Example C133_case : history_ok (ex4 FreshWorkers) [Part 1; Part 3; Whole] /\
  exists outs st st', p_visits (ex4 FreshWorkers) [Part 1; Part 3; Whole] p_init = Ok (outs, st) /\
    p_visit (ex4 FreshWorkers) Whole st =
    Ok ([(0, [(0, 1)]); (1, [(1, 3)]); (0, [(0, 0)]); (1, [(1, 2)])], st').
Proof. split; [discriminate|]. do 3 eexists. split; vm_compute; reflexivity. Qed.

(** C133 with loaded states: once a loop has run to its end, the next one
    delivers the whole dataset, whatever states were loaded into the loaders,
    saved and left before (any states [st] at all), if the ranks are in the same
    epoch. *)
Theorem C133_after_loads_partial rng shuffle W nodes seed nw B ivs md pf e (st st1 : nat -> pstate) (out1 : nat -> list (nat * list sample)) :
  rng_ok rng -> 1 <= W -> 1 <= nw -> 1 <= B -> (shuffle = false \/ nodes = 1) -> (md = InProcess -> nw = 1) ->
  md <> PersistentWorkers ->
  let k r := Cfg rng shuffle (Env W r nodes) seed false nw B ivs md pf in
  (forall r, r < W -> p_visit (k r) Whole (st r) = Ok (out1 r, st1 r) /\ s_epoch (l_save (p_loader (st1 r))) = e) ->
  exists out,
    (forall r, r < W -> exists st', p_visit (k r) Whole (st1 r) = Ok (out r, st')) /\
    Permutation (flat_map (fun r => delivered (out r)) (seq 0 W)) (dataset_samples (seq 0 (length ivs)) ivs).
Proof. exact (loop_after_loop rng shuffle W nodes seed nw B ivs md pf e st st1 out1). Qed.
Print Assumptions C133_after_loads_partial.

Example C133_after_loads_case : exists out st', 
  p_visit (ex6 InProcess) Whole (p_load 6 (LSaved 4 2 0) (SD 2 1 1 4) p_init) = Ok (out, st') /\
  length out = 4 /\ s_epoch (l_save (p_loader st')) = 4.
Proof. do 2 eexists. repeat (apply conj; [vm_compute; reflexivity|]). vm_compute. reflexivity. Qed.

(** C133 (violated): persistent workers and one loop left early.  One worker
    had run to its end while its batches were fetched ahead, the other had not;
    from then on they are in different epochs. *)
Theorem C133_refuted : exists k vs outs st out st' s,
  cfg_ok k /\ k_mode k = PersistentWorkers /\ k_drop k = false /\ k_prefetch k = 2 /\
  p_visits k vs p_init = Ok (outs, st) /\ p_visit k Whole st = Ok (out, st') /\
  In s (dataset_samples (seq 0 (length (k_ivs k))) (k_ivs k)) /\ ~ In s (delivered out) /\ ~ NoDup (delivered out).
Proof.
  exists (ex4 PersistentWorkers), [Part 1]. do 4 eexists. exists (1, 2).
  split; [apply ex4_ok; discriminate|]. split; [reflexivity|]. split; [reflexivity|]. split; [reflexivity|].
  split; [vm_compute; reflexivity|]. split; [vm_compute; reflexivity|].
  split; [vm_compute; tauto|]. split.
  - vm_compute. intuition discriminate.
  - vm_compute. intros H. inversion H as [|x l H1 H2]; subst. apply H1. cbn. tauto.
Qed.
Print Assumptions C133_refuted.

(** C134: after any history of loops (with persistent workers: complete ones), a
    run that is stopped any number of times, each time resumed in a new loader
    from the last saved state, delivers the batches of the uninterrupted loop.
    (As long as no worker has delivered all it has, see C11.) *)
Theorem C134_partial k k' len vs outs st full stf part stp m ms :
  cfg_ok k -> cfg_ok k' -> same_data k k' -> history_ok k vs ->
  p_visits k vs p_init = Ok (outs, st) -> p_visit k Whole st = Ok (full, stf) ->
  p_visit k (Part (m + sum ms)) st = Ok (part, stp) ->
  1 <= m -> Forall (fun m => 1 <= m) ms -> (m + sum ms) * k_B k < len ->
  (forall w, w < k_nw k -> length (concat (from_worker w part)) < length (concat (from_worker w full))) ->
  exists first st1 lv d rest, p_visit k (Part m) st = Ok (first, st1) /\ p_save k st1 = ((lv, Copy d), st1) /\
    relay k' len ms lv d = Ok rest /\ first ++ rest = full.
Proof. exact (interrupted k k' len vs outs st full stf part stp m ms). Qed.
Print Assumptions C134_partial.

Example C134_case : exists outs st full stf part stp,
  p_visits (ex6 InProcess) [Part 2; Whole] p_init = Ok (outs, st) /\ p_visit (ex6 InProcess) Whole st = Ok (full, stf) /\
  p_visit (ex6 InProcess) (Part (1 + sum [2; 1])) st = Ok (part, stp) /\
  length (concat (from_worker 0 part)) = 4 /\ length (concat (from_worker 0 full)) = 6 /\
  relay (ex6 PersistentWorkers) 6 [2; 1] (LSaved 3 1 0) (SD 1 1 1 3) = Ok (tl full).
Proof. do 6 eexists. repeat (apply conj; [vm_compute; reflexivity|]). vm_compute. reflexivity. Qed.

(** C134 (violated): with persistent workers and an earlier loop left early the
    saved epoch is not that of the order being delivered: the resumed loop
    repeats samples and leaves others out. *)
Theorem C134_refuted : exists k vs outs st first st1 lv d st2 rest st' s,
  cfg_ok k /\ k_mode k = PersistentWorkers /\ k_drop k = false /\
  p_visits k vs p_init = Ok (outs, st) /\ p_visit k (Part 2) st = Ok (first, st1) /\
  p_save k st1 = ((lv, Copy d), st2) /\ p_visit k Whole (p_load 6 lv d p_init) = Ok (rest, st') /\
  In s (dataset_samples (seq 0 (length (k_ivs k))) (k_ivs k)) /\ ~ In s (delivered first) /\ ~ In s (delivered rest) /\
  forall x, In x (delivered first) -> In x (delivered rest).
Proof.
  exists (ex6 PersistentWorkers), [Part 1]. do 9 eexists. exists (0, 0).
  split; [apply ex6_ok|]. split; [reflexivity|]. split; [reflexivity|].
  split; [vm_compute; reflexivity|]. split; [vm_compute; reflexivity|]. split; [vm_compute; reflexivity|].
  split; [vm_compute; reflexivity|].
  split; [vm_compute; tauto|]. split; [vm_compute; intuition discriminate|]. split; [vm_compute; intuition discriminate|].
  intros x Hx. vm_compute in Hx. vm_compute. destruct Hx as [<-|[<-|[]]]; tauto.
Qed.
Print Assumptions C134_refuted.

(** C135: loading a state into a loader that was used before, whatever it was
    used for, continues the loop the state was saved in (unless the loader has
    started persistent workers). *)
Theorem C135_partial k k' len vs outs st full stf m part stp used :
  cfg_ok k -> cfg_ok k' -> same_data k k' -> history_ok k vs -> (k_mode k' = PersistentWorkers -> p_live used = None) ->
  p_visits k vs p_init = Ok (outs, st) -> p_visit k Whole st = Ok (full, stf) ->
  p_visit k (Part m) st = Ok (part, stp) -> 1 <= m -> m * k_B k < len ->
  (forall w, w < k_nw k -> length (concat (from_worker w part)) < length (concat (from_worker w full))) ->
  exists lv d rest st', p_save k stp = ((lv, Copy d), stp) /\
    p_visit k' Whole (p_load len lv d used) = Ok (rest, st') /\ part ++ rest = full.
Proof. exact (load_into_used k k' len vs outs st full stf m part stp used). Qed.
Print Assumptions C135_partial.

Example C135_case : exists outs st part stp full stf,
  p_visits (ex6 FreshWorkers) [Whole] p_init = Ok (outs, st) /\ p_visit (ex6 FreshWorkers) (Part 3) st = Ok (part, stp) /\
  p_visit (ex6 FreshWorkers) Whole st = Ok (full, stf) /\
  length (concat (from_worker 0 part)) = 3 /\ length (concat (from_worker 0 full)) = 6 /\
  exists st', p_visit (ex6 FreshWorkers) Whole (p_load 6 (LSaved 2 3 0) (SD 3 1 1 2) stf) = Ok (skipn 3 full, st').
Proof. do 6 eexists. repeat (apply conj; [vm_compute; reflexivity|]). eexists. vm_compute. reflexivity. Qed.

(** C135 (violated): persistent workers do not notice the state: the loop after
    loading it delivers everything again. *)
Theorem C135_refuted : exists k vs outs used first st1 lv d st2 rest st',
  cfg_ok k /\ k_mode k = PersistentWorkers /\
  p_visit k (Part 2) p_init = Ok (first, st1) /\ p_save k st1 = ((lv, Copy d), st2) /\
  Forall (eq Whole) vs /\ p_visits k vs p_init = Ok (outs, used) /\
  p_visit k Whole (p_load 6 lv d used) = Ok (rest, st') /\
  length (delivered first) = 2 /\
  Permutation (delivered rest) (dataset_samples (seq 0 (length (k_ivs k))) (k_ivs k)).
Proof.
  exists (ex6 PersistentWorkers), [Whole]. do 9 eexists.
  split; [apply ex6_ok|]. split; [reflexivity|].
  split; [vm_compute; reflexivity|]. split; [vm_compute; reflexivity|]. split; [repeat constructor|].
  split; [vm_compute; reflexivity|]. split; [vm_compute; reflexivity|]. split; [vm_compute; reflexivity|].
  vm_compute. apply Permutation_app_head with (l := [(0, 0); (0, 1); (0, 2)]).
  apply Permutation_sym, (Permutation_rev [(1, 3); (1, 4); (1, 5)]).
Qed.
Print Assumptions C135_refuted.

(** C136: a resumed loop that is left early and begun again starts at the loaded
    state again: every worker delivers what the state had left. *)
Theorem C136_partial k k' len vs outs st full stf m n part stp :
  cfg_ok k -> cfg_ok k' -> same_data k k' -> history_ok k vs -> k_mode k' = FreshWorkers ->
  p_visits k vs p_init = Ok (outs, st) -> p_visit k Whole st = Ok (full, stf) ->
  p_visit k (Part (m + n)) st = Ok (part, stp) -> 1 <= m -> 1 <= n -> m * k_B k < len ->
  (forall w, w < k_nw k -> length (concat (from_worker w part)) < length (concat (from_worker w full))) ->
  forall used, exists first st1 lv d again st2 st3 more,
    p_visit k (Part m) st = Ok (first, st1) /\ p_save k st1 = ((lv, Copy d), st1) /\
    p_visit k' (Part n) (p_load len lv d used) = Ok (more, st2) /\ p_visit k' Whole st2 = Ok (again, st3) /\
    (forall w, w < k_nw k -> concat (from_worker w first) ++ concat (from_worker w again) = concat (from_worker w full)).
Proof. exact (left_and_begun_again k k' len vs outs st full stf m n part stp). Qed.
Print Assumptions C136_partial.

Example C136_case : exists full stf part stp,
  p_visit (ex6 FreshWorkers) Whole p_init = Ok (full, stf) /\ p_visit (ex6 FreshWorkers) (Part (2 + 1)) p_init = Ok (part, stp) /\
  length (concat (from_worker 0 part)) = 3 /\ length (concat (from_worker 0 full)) = 6.
Proof. do 4 eexists. repeat (apply conj; [vm_compute; reflexivity|]). vm_compute. reflexivity. Qed.

(** C136 (violated): the count of delivered samples goes on counting: a state
    saved in the second loop skips a sample that was never delivered. *)
Theorem C136_refuted : exists k first st1 lv d sta more st2 again st3 lv' st4 d' rest st5 s,
  cfg_ok k /\ k_mode k = FreshWorkers /\ k_drop k = false /\
  p_visit k (Part 2) p_init = Ok (first, st1) /\ p_save k st1 = ((lv, Copy d), sta) /\
  p_visit k (Part 1) (p_load 6 lv d p_init) = Ok (more, st2) /\
  p_visit k (Part 1) st2 = Ok (again, st3) /\ again = more /\
  p_save k st3 = ((lv', Held), st4) /\ h_read Held st4 = Some d' /\
  p_visit k Whole (p_load 6 lv' d' p_init) = Ok (rest, st5) /\
  In s (dataset_samples (seq 0 (length (k_ivs k))) (k_ivs k)) /\
  ~ In s (delivered first ++ delivered more ++ delivered again ++ delivered rest).
Proof.
  exists (ex6 FreshWorkers). do 14 eexists. exists (0, 0).
  split; [apply ex6_ok|]. split; [reflexivity|]. split; [reflexivity|].
  split; [vm_compute; reflexivity|]. split; [vm_compute; reflexivity|]. split; [vm_compute; reflexivity|].
  split; [vm_compute; reflexivity|]. split; [reflexivity|]. split; [vm_compute; reflexivity|]. split; [vm_compute; reflexivity|].
  split; [vm_compute; reflexivity|]. split; [vm_compute; tauto|]. vm_compute. intuition discriminate.
Qed.
Print Assumptions C136_refuted.

(** C137: while nothing has been loaded, [state_dict] returns a dict of its own
    and leaves the loader as it is; it records the epoch and the number of
    samples delivered. *)
Theorem C137_partial k vs outs st m out st1 :
  cfg_ok k -> history_ok k vs -> p_visits k vs p_init = Ok (outs, st) -> p_visit k (Part m) st = Ok (out, st1) ->
  exists lv d, p_save k st1 = ((lv, Copy d), st1) /\ s_samples lv = length out * k_B k /\ sd_samples d = length out * k_B k /\
    s_epoch lv = length vs + 1 /\ (k_mode k <> InProcess -> sd_epoch d = length vs + 1) /\
    forall vs2 outs2 st2, p_visits k vs2 st1 = Ok (outs2, st2) -> h_read (Copy d) st2 = Some d.
Proof. exact (save_is_copy k vs outs st m out st1). Qed.
Print Assumptions C137_partial.

Example C137_case : exists outs st out st1,
  p_visits (ex4 FreshWorkers) [Part 1; Whole] p_init = Ok (outs, st) /\ p_visit (ex4 FreshWorkers) (Part 3) st = Ok (out, st1) /\
  fst (p_save (ex4 FreshWorkers) st1) = (LSaved 3 3 0, Copy (SD 3 2 1 3)).
Proof. do 4 eexists. repeat (apply conj; [vm_compute; reflexivity|]). vm_compute. reflexivity. Qed.

(** C137 (violated): after loading a state, a state saved and kept is changed
    when the next one is saved; loading it then skips samples. *)
Theorem C137_refuted : exists k len lv0 d0 more st1 lv1 h1 st2 d1 more2 st3 lv2 h2 st4 d2 rest st5 s,
  cfg_ok k /\
  p_visit k (Part 1) (p_load len lv0 d0 p_init) = Ok (more, st1) /\
  p_save k st1 = ((lv1, h1), st2) /\ h_read h1 st2 = Some d1 /\ sd_samples d1 = s_samples lv1 /\
  p_visits k [Part 2] st2 = Ok (more2, st3) /\ p_save k st3 = ((lv2, h2), st4) /\
  h_read h1 st4 = Some d2 /\ sd_samples d2 <> s_samples lv1 /\
  p_visit k Whole (p_load len lv1 d2 p_init) = Ok (rest, st5) /\
  (exists st6 rest', p_visit k Whole (p_load len lv1 d1 p_init) = Ok (rest', st6) /\ In s (delivered rest')) /\
  ~ In s (delivered rest).
Proof.
  exists (ex6 FreshWorkers), 6, (LSaved 1 2 0), (SD 2 1 1 1). do 14 eexists. exists (0, 0).
  split; [apply ex6_ok|].
  split; [vm_compute; reflexivity|]. split; [vm_compute; reflexivity|]. split; [vm_compute; reflexivity|].
  split; [reflexivity|]. split; [vm_compute; reflexivity|]. split; [vm_compute; reflexivity|].
  split; [vm_compute; reflexivity|]. split; [vm_compute; discriminate|]. split; [vm_compute; reflexivity|].
  split; [do 2 eexists; split; [vm_compute; reflexivity|vm_compute; tauto]|]. vm_compute. intuition discriminate.
Qed.
Print Assumptions C137_refuted.
