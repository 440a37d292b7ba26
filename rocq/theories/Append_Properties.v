(** Property C184: runs of [optimize] with [mode="append"] into one directory, one after the other. *)
From Verif Require Import Base Assign_Model Assign_Spec Config_Model Iter_Model Iter_Spec Iter_Properties
  Format_Model Codec_Model Codec_Spec Tree_Model Tree_Spec Sample_Model Sample_Spec Sample_Properties
  Writer_Model Encrypt_Model Encrypt_Spec Dataset_Model Dataset_Spec Dataset_Proofs2 Dataset_Properties
  Distrib_Model Names_Model Merge_Model Optimize_Model Optimize_Spec Optimize_Properties Append_Model Append_Spec Append_Proofs.
From Coq Require Import NArith.
Local Open Scope nat_scope.

(** After any runs into one directory the dataset holds the samples of the runs that succeeded, run by run and each once: in random access and in
    an epoch; nothing of the runs that raised or were killed.  Partial: one machine, the same limits, compression and encryption
    in all successful runs (see the refutations), samples of one form (C174), chunks below 4 GiB (C19). *)
Theorem C184_runs_partial {A} isfile pickle unpickle rw rr m decompress d (h : list (job A * list (tree leaf))) :
  (forall x, unpickle (pickle x) = Ok x) ->
  key_ok (m_cipher m) -> match m_cipher m with Some c => e_limit c = None | None => True end -> codec_ok (m_compress m) decompress ->
  (is_none (m_bytes m) && is_none (m_size m)) || (truthy (m_bytes m) && truthy (m_size m)) = false ->
  appended isfile pickle rw m d h -> uniform isfile rw rr (flat_map snd h) -> flat_map snd h <> [] ->
  small_chunks (written_of d) ->
  exists o uss, open_store rr decompress d = Ok o /\
    Forall2 (fun ut us => Permutation us (snd ut) /\ (in_sequence (fst ut) -> us = snd ut)) h uss /\
    (forall is, Forall (fun i => i < length (concat uss)) is ->
       exists r st, get_items unpickle o (m_cipher m) new_loader (map Z.of_nat is) = Ok (r, st) /\ at_positions (concat uss) is r) /\
    (forall st i, (i < 0 \/ Z.of_nat (length (concat uss)) <= i)%Z -> get_item unpickle o (m_cipher m) st i = Err ValueError) /\
    (forall rng shuffle W seed nw B epoch, rng_ok rng -> 1 <= W -> 1 <= nw -> 1 <= B ->
       exists a parts,
         (forall r, shuffle_assign rng shuffle (Env W r 1) seed false nw B epoch (o_ivs o) = Ok a) /\
         length parts = W * nw /\
         (forall r i, r < W -> i < nw ->
            exists part reqs s0 s', nth_error parts (r * nw + i) = Some part /\
              iter_fresh (Env W r 1) nw i epoch a = Ok s0 /\ Run (shuffle_call rng shuffle seed) s0 reqs s' /\
              yielded unpickle o (m_cipher m) reqs = Ok part) /\
         Permutation (concat parts) (concat uss) /\ (shuffle = false -> concat parts = concat uss)).
Proof.
  intros Hp Hk Hl Hc Hs Ha Hu Hne Hsm.
  destruct (append_reads isfile pickle unpickle rw rr m decompress d h Hp Hk Hl Hc Hs Ha Hu Hne Hsm) as (o & uss & Ho & Hr & HF).
  exists o, uss. split; [exact Ho|]. split; [exact HF|]. destruct (reads_access _ _ _ _ _ Hr) as [R1 R2].
  split; [exact R1|]. split; [exact R2|]. intros rng shuffle W seed nw B epoch.
  exact (reads_epoch unpickle o (m_cipher m) (written_of d) (concat uss) rng shuffle W seed nw B epoch Hr).
Qed.
Print Assumptions C184_runs_partial.

(** The next such run succeeds, whatever runs were before. *)
Theorem C184_next_run {A} isfile pickle unpickle rw rr m d (h : list (job A * list (tree leaf))) u ts :
  (forall x, unpickle (pickle x) = Ok x) ->
  key_ok (m_cipher m) -> match m_cipher m with Some c => e_limit c = None | None => True end ->
  (is_none (m_bytes m) && is_none (m_size m)) || (truthy (m_bytes m) && truthy (m_size m)) = false ->
  appended isfile pickle rw m d h -> on_terms m u -> sound u -> outputs (u_fn u) (u_inputs u) ts ->
  uniform isfile rw rr (flat_map snd h ++ ts) -> flat_map snd h ++ ts <> [] ->
  exists d', append isfile pickle rw u d = (d', Ok tt) /\ appended isfile pickle rw m d' (h ++ [(u, ts)]).
Proof. exact (append_succeeds isfile pickle unpickle rw rr m d h u ts). Qed.
Print Assumptions C184_next_run.

(** A run on one machine that raises or is killed, at any point before the index is copied, leaves the index and every chunk file of the
    index as they were, in any directory. *)
Theorem C184_failed_run {A} isfile pickle rw (u : job A) d d' e :
  g_nodes (u_args u) = 1 -> Forall (fun l => fst (fst l) = 0) (u_left u) ->
  append isfile pickle rw u d = (d', Err e) ->
  st_index d' = st_index d /\
  forall c, In c (entries_of d) -> find (fun f => fst f =? k_file (fst c)) (st_files d') = find (fun f => fst f =? k_file (fst c)) (st_files d).
Proof. exact (failed_same isfile pickle rw u d d' e). Qed.
Print Assumptions C184_failed_run.

(** If no run succeeded, there is no dataset. *)
Theorem C184_only_failed_runs {A} isfile pickle rw rr m decompress d :
  appended (A := A) isfile pickle rw m d [] -> open_store rr decompress d = Err FileNotFoundError.
Proof. intros H. unfold open_store. rewrite (only_failures isfile pickle rw m d [] H eq_refl). reflexivity. Qed.
Print Assumptions C184_only_failed_runs.
(** ** A case: two runs, then one that is killed, one that raises, and a third run with other numbers of workers. *)
Definition plain_job (fn : Z -> res (list (option (tree leaf)))) (g : args) (inputs : list Z) : job Z :=
  Job Z fn inputs g (Some 1) unmixed in_turn listed false [].
Definition killed_job : job Z := Job Z once [8; 9]%Z (opt_args 1 2) (Some 1) unmixed in_turn listed true [((0, 0), (0, [7; 7]%N)); ((0, 1), (3, [5]%N))].
Definition failing (z : Z) : res (list (option (tree leaf))) := Err ValueError.
Definition after (us : list (job Z)) (d : store) : store * list (res unit) :=
  fold_left (fun s u => let (d', r) := append no_file no_pickle nobody u (fst s) in (d', snd s ++ [r])) us (d, []).
Definition read_store (d : store) : res (list (tree leaf)) :=
  bind (open_store nobody toy_unzip d) (fun o =>
  bind (get_items no_unpickle o (Some (toy Sample_level None)) new_loader
    (map Z.of_nat (seq 0 (fold_right plus 0 (map (fun c => k_size (fst c)) (entries_of d)))))) (fun r => Ok (fst r))).
Definition show (us : list (job Z)) := let r := after us empty_store in (snd r, read_store (fst r)).
Definition toy_terms : terms := Terms None (Some 2) toy_zip (Some 1) (Some (toy Sample_level None)).
Definition first_job := plain_job twice (opt_args 1 2) [1; 2; 3]%Z.
Definition second_job := plain_job once (opt_args 1 3) [4; 5; 6; 7]%Z.
Definition third_job := plain_job once (opt_args 1 1) [10; 11; 12]%Z.
Definition sound_job fn nw inputs : 1 <= nw -> sound (plain_job fn (opt_args 1 nw) inputs).
Proof.
  intros H. split; [reflexivity|]. split; [exact H|]. split; [reflexivity|]. split; [reflexivity|]. split; [intros; reflexivity|].
  split; [intros; reflexivity|]. split; [intros l; apply Permutation_sym, Permutation_rev|exact I].
Qed.
Example C184_case :
  show [first_job; second_job; killed_job; plain_job failing (opt_args 1 2) [9]%Z; third_job] =
    ([Ok tt; Ok tt; Err GenericException; Err ValueError; Ok tt], Ok (map num [1; -1; 2; -2; 4; 5; 6; 7; 10; 11; 12]%Z)) /\
  on_terms toy_terms first_job /\ sound first_job /\ in_sequence first_job /\
  outputs (u_fn first_job) (u_inputs first_job) (map num [1; -1; 2; -2]%Z) /\
  uniform no_file nobody nobody (map num [1; -1; 2; -2; 4; 5; 6; 7; 10; 11; 12]%Z) /\
  exists d d', appended no_file no_pickle nobody toy_terms d [(first_job, map num [1; -1; 2; -2]%Z)] /\
    small_chunks (written_of d) /\
    append no_file no_pickle nobody killed_job d = (d', Err GenericException) /\ st_files d' <> st_files d /\
    appended no_file no_pickle nobody toy_terms d' [(first_job, map num [1; -1; 2; -2]%Z)].
Proof.
  assert (Hout : outputs twice [1; 2; 3]%Z (map num [1; -1; 2; -2]%Z)).
  { change (map num [1; -1; 2; -2]%Z) with ([num 1; num (-1)] ++ [num 2; num (-2)] ++ [] ++ []).
    repeat (eapply outputs_cons; [reflexivity|repeat constructor|]). constructor. }
  assert (Hm : on_terms toy_terms first_job) by (repeat split).
  assert (Hs : sound first_job) by (apply sound_job; lia).
  split; [vm_compute; reflexivity|]. split; [exact Hm|]. split; [exact Hs|].
  split; [split; [reflexivity|split; [reflexivity|cbn; lia]]|]. split; [exact Hout|].
  split; [apply nums_uniform; repeat constructor; lia|].
  destruct (append no_file no_pickle nobody first_job empty_store) as [d r] eqn:E.
  destruct (append no_file no_pickle nobody killed_job d) as [d' r'] eqn:E'. exists d, d'.
  assert (Hr : r = Ok tt /\ map snd (entries_of d) = [42; 42] /\ map fst (st_files d) = [0; 1]) by (vm_compute in E; injection E as <- <-; repeat split).
  destruct Hr as (-> & Hsz & Hids).
  assert (Ha : appended no_file no_pickle nobody toy_terms d [(first_job, map num [1; -1; 2; -2]%Z)]).
  { exact (appended_run no_file no_pickle nobody toy_terms empty_store [] first_job (map num [1; -1; 2; -2]%Z) d
      (appended_new no_file no_pickle nobody toy_terms) Hm Hs Hout E). }
  split; [exact Ha|].
  assert (Hr' : r' = Err GenericException /\ length (st_files d') = 4) by (vm_compute in E; injection E as <-; vm_compute in E'; injection E' as <- <-; split; reflexivity).
  destruct Hr' as [-> Hlen]. split.
  { assert (Ex : x_chunks (written_of d) = entries_of d) by (unfold written_of, entries_of; destruct (st_index d); reflexivity).
    apply small_sizes. rewrite Ex, Hsz. vm_compute. reflexivity. }
  split; [exact E'|]. split.
  { intros Eq. rewrite Eq in Hlen. rewrite <- (map_length fst), Hids in Hlen. discriminate. }
  apply (appended_failed no_file no_pickle nobody toy_terms d _ Z killed_job GenericException d' Ha eq_refl); [repeat constructor|exact E'].
Qed.

Example C184_only_failed_case : exists d, appended (A := Z) no_file no_pickle nobody toy_terms d [] /\ length (st_files d) = 2.
Proof.
  destruct (append no_file no_pickle nobody killed_job empty_store) as [d r] eqn:E. exists d.
  assert (H : r = Err GenericException /\ length (st_files d) = 2) by (vm_compute in E; injection E as <- <-; split; reflexivity). destruct H as [-> H].
  split; [|exact H]. apply (appended_failed no_file no_pickle nobody toy_terms empty_store [] Z killed_job GenericException d); [constructor|reflexivity|repeat constructor|exact E].
Qed.

(** On two machines a second run loses a sample of the first one and lists others twice: worker 0 of the second machine takes the number for
    worker 0 of the first one, and each machine puts all existing chunks into its index.  Both runs succeed. *)
Theorem C184_nodes_refuted : exists (a b : job Z) ts us r,
  outputs (u_fn a) (u_inputs a) ts /\ outputs (u_fn b) (u_inputs b) us /\
  g_nodes (u_args a) = 2 /\ g_nodes (u_args b) = 2 /\ on_terms toy_terms a /\ on_terms toy_terms b /\
  uniform no_file nobody nobody (ts ++ us) /\ show [a; b] = ([Ok tt; Ok tt], Ok r) /\
  ~ incl ts r /\ length (ts ++ us) < length r.
Proof.
  exists (plain_job once (opt_args 2 1) [1; 2; 3; 4; 5]%Z), (plain_job once (opt_args 2 1) [8; 9]%Z),
    (map num [1; 2; 3; 4; 5]%Z), (map num [8; 9]%Z), (map num [1; 2; 3; 4; 9; 8; 1; 2; 3; 4; 9; 9]%Z).
  assert (G : forall zs, outputs once zs (map num zs)).
  { induction zs as [|z zs IH]; [constructor|]. cbn [map]. change (num z :: map num zs) with ([num z] ++ map num zs). eapply outputs_cons; [reflexivity|repeat constructor|exact IH]. }
  split; [apply G|]. split; [apply G|]. split; [reflexivity|]. split; [reflexivity|]. split; [repeat split|]. split; [repeat split|].
  split; [rewrite <- map_app; apply nums_uniform; repeat constructor; lia|]. split; [vm_compute; reflexivity|]. split; [|cbn; lia].
  intros H. specialize (H (num 5)). cbn [map In] in H. assert (H' := H (or_intror (or_intror (or_intror (or_intror (or_introl eq_refl)))))).
  unfold num in H'. repeat (destruct H' as [H'|H']; [discriminate H'|]). exact H'.
Qed.
Print Assumptions C184_nodes_refuted.

(** Another chunk size: the second run raises, although its samples are of the same form, and although chunks of any sizes can be read. *)
Theorem C184_limits_refuted : exists (a b : job Z) ts us d e,
  outputs (u_fn a) (u_inputs a) ts /\ outputs (u_fn b) (u_inputs b) us /\ sound a /\ sound b /\ uniform no_file nobody nobody (ts ++ us) /\
  show [b] = ([Ok tt], Ok us) /\
  append no_file no_pickle nobody a empty_store = (d, Ok tt) /\ snd (append no_file no_pickle nobody b d) = Err e.
Proof.
  exists (plain_job once (opt_args 1 1) [1; 2; 3; 4; 5]%Z),
    (plain_job once (Args None (Some 3) toy_zip (Some (toy Sample_level None)) 1 1 (FdrBool false) None) [8; 9]%Z),
    (map num [1; 2; 3; 4; 5]%Z), (map num [8; 9]%Z).
  destruct (append no_file no_pickle nobody (plain_job once (opt_args 1 1) [1; 2; 3; 4; 5]%Z) empty_store) as [d r] eqn:E. exists d, GenericException.
  assert (G : forall zs, outputs once zs (map num zs)).
  { induction zs as [|z zs IH]; [constructor|]. cbn [map]. change (num z :: map num zs) with ([num z] ++ map num zs). eapply outputs_cons; [reflexivity|repeat constructor|exact IH]. }
  split; [apply G|]. split; [apply G|]. split; [apply sound_job; lia|]. split.
  { split; [reflexivity|]. split; [cbn; lia|]. split; [reflexivity|]. split; [reflexivity|]. split; [intros; reflexivity|].
    split; [intros; reflexivity|]. split; [intros l; apply Permutation_sym, Permutation_rev|exact I]. }
  split; [rewrite <- map_app; apply nums_uniform; repeat constructor; lia|]. split; [vm_compute; reflexivity|].
  vm_compute in E. injection E as <- <-. split; [reflexivity|vm_compute; reflexivity].
Qed.
Print Assumptions C184_limits_refuted.
