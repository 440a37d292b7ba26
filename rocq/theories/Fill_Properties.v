(** Properties of the cache dataloader. *)
From Coq Require Import String NArith ZArith Lia Permutation.
From Verif Require Import Base Names_Model Format_Model Writer_Model Writer_Spec Assign_Model Config_Model Sampler_Model Sampler_Spec
  Merge_Model Fill_Model Fill_Spec Fill_Proofs.
Local Open Scope list_scope.
Local Open Scope nat_scope.
Local Ltac Zify.zify_post_hook ::= idtac.

(** A dataset of numbers, chunks of two samples, no compression. *)
Definition two : wcfg := WCfg None (Some 2) (fun _ d => d) (fun d => d).
Definition one_byte (s : list value) : item := Item (flat_map (fun v => match v with VInt z => [Z.to_N z] | _ => [0%N] end) s) None.
Definition number (i : nat) : list value := [VInt (Z.of_nat i)].
Definition numbers (_ _ i : nat) : list value := number i.
Definition same_unit (_ _ : unit) : bool := true.

(** C128: after a complete pass over a deterministic dataset every sample was delivered once, the index files of the workers are merged
    whatever the order in which they are listed and however early the merging begins, and the cache then is the
    dataset.  Partial: at most ten workers, no more than samples. *)
Theorem C128_partial {conf} (same : conf -> conf -> bool) k c ser ds data decompress n replicas nw b :
  (forall a b, same a b = true <-> a = b) ->
  deterministic ds data -> readable c decompress ->
  (forall i, i < n -> Forall plain (data i) /\ 1 <= it_bytes (ser (data i))) ->
  1 <= replicas -> 1 <= nw -> 1 <= b -> replicas * nw <= 10 -> replicas * nw <= n ->
  exists procs, fill c ser ds n replicas nw b complete_pass = Ok procs /\
    flat_map (fun x => fst (snd x)) procs = map data (seq 0 n) /\
    forall files early later, Permutation files (flat_map (worker_file k) procs) ->
      Forall (fun look => length look < replicas * nw /\ ~ In index_json (map fst look)) early ->
      exists chunks, merge_wait same (replicas * nw) (early ++ files :: later) = Some (Ok [(index_json, Index chunks (Some k))]) /\
        (small_chunks chunks -> holds decompress chunks (map (fun i => it_data (ser (data i))) (seq 0 n))).
Proof.
  intros Hs Hd Hrd Hp Hr Hw Hb H10 Hn.
  destruct (fill_ok c ser ds data decompress Hd Hrd n replicas nw b complete_pass Hb Hw Hn Hp) as (procs & iss & E & E1 & F & G).
  assert (EI : iss = map (fun p => share n replicas nw (p / nw) (p mod nw)) (seq 0 (replicas * nw))).
  { clear -G. induction G as [|p is l iss (batches & _ & H1 & H2) _ IH]; [reflexivity|]. cbn [map]. f_equal; [|exact IH]. rewrite H2. exact H1. }
  assert (EC : concat iss = seq 0 n) by (rewrite EI, <- flat_map_concat_map; apply shares_all; assumption).
  exists procs. split; [exact E|]. split.
  { rewrite <- EC. clear -F. induction F as [|x is procs iss (H & _) _ IH]; [reflexivity|]. cbn [flat_map concat]. rewrite map_app, H, IH. reflexivity. }
  intros files early later P Fe. exists (chunks_in procs). split.
  - apply (merge_ok ser data decompress same k procs iss); try assumption; [nia|].
    rewrite EI. apply Forall_forall. intros is Hin. apply in_map_iff in Hin. destruct Hin as (p & <- & Hin). apply in_seq in Hin.
    pose proof (share_nonempty n replicas nw (p / nw) (p mod nw) ltac:(apply Nat.div_lt_upper_bound; lia) ltac:(apply Nat.mod_upper_bound; lia) Hn) as L.
    intros E0. rewrite E0 in L. cbn in L. lia.
  - intros S. destruct (chunks_ok ser data decompress procs iss F S) as [O EQ]. rewrite <- EC, <- EQ. apply holds_ok. exact O.
Qed.
Print Assumptions C128_partial.

(** Seven samples, two workers, batches of two; what is merged and read. *)
Definition merged (procs : list (nat * (list (list value) * wstate))) : option (list (nat * chunk)) :=
  match merge_wait same_unit (length procs) [flat_map (worker_file tt) procs] with
  | Some (Ok [(_, Index chunks _)]) => Some chunks
  | _ => None
  end.
Example C128_case : exists procs chunks,
  fill two one_byte numbers 7 1 2 2 complete_pass = Ok procs /\ merged procs = Some chunks /\
  map (fun x => fst (snd x)) procs = [map number [0; 1; 2]; map number [3; 4; 5; 6]] /\
  map (fun x => (fst x, map it_data (ch_items (snd x)))) chunks = [(0, [[0%N]; [1%N]]); (0, [[2%N]]); (1, [[3%N]; [4%N]]); (1, [[5%N]; [6%N]])] /\
  map (fun i => cache_get (fun d => d) chunks i) [0; 2; 6; 7]%Z = [Ok [0%N]; Ok [2%N]; Ok [6%N]; Err ValueError].
Proof. eexists. eexists. split; [vm_compute; reflexivity|]. split; [vm_compute; reflexivity|]. repeat split; vm_compute; reflexivity. Qed.
Example C128_hypotheses : deterministic numbers number /\ readable two (fun d => d) /\
  (forall i, i < 7 -> Forall plain (number i) /\ 1 <= it_bytes (one_byte (number i))).
Proof. repeat split; [constructor; [exact I|constructor]|cbn; lia]. Qed.

(** C128 fails with more workers than samples: a worker without samples writes no index file, and the merging, which waits for one of
    every worker, never ends. *)
Theorem C128_refuted : exists n nw procs,
  1 <= n /\ fill two one_byte numbers n 1 nw 1 complete_pass = Ok procs /\
  flat_map (fun x => fst (snd x)) procs = map number (seq 0 n) /\
  forall looks : list (list (str * index (nat * chunk) unit)), Forall (fun l => length l <= length (flat_map (worker_file tt) procs) /\ ~ In index_json (map fst l)) looks ->
    merge_wait same_unit nw looks = None.
Proof.
  exists 2, 3. eexists. split; [lia|]. split; [vm_compute; reflexivity|]. split; [vm_compute; reflexivity|].
  intros looks H. apply Merge_Proofs.merge_waits. eapply Forall_impl; [|exact H]. cbn beta. intros l [H1 H2]. split; [|exact H2].
  match type of H1 with _ <= ?x => assert (x = 1) as E by (vm_compute; reflexivity) end. rewrite E in H1. lia.
Qed.
Print Assumptions C128_refuted.

(** C128 fails with eleven workers: the index files are put in the order of their names, 10 before 2, and the
    cache has the samples in another order than the dataset. *)
Theorem C128_order_refuted : exists n nw procs chunks,
  fill two one_byte numbers n 1 nw 1 complete_pass = Ok procs /\ merged procs = Some chunks /\
  flat_map (fun x => fst (snd x)) procs = map number (seq 0 n) /\
  cache_get (fun d => d) chunks 2 = Ok (it_data (one_byte (number 10))) /\
  cache_get (fun d => d) chunks 3 = Ok (it_data (one_byte (number 2))).
Proof. exists 11, 11. eexists. eexists. split; [vm_compute; reflexivity|]. split; [vm_compute; reflexivity|]. repeat split; vm_compute; reflexivity. Qed.
Print Assumptions C128_order_refuted.

(** C129: a later pass, with any number of processes up to the number of workers of the first pass, any number of workers and any batch size,
    delivers every sample of the dataset exactly once.  Partial: all processes draw the same order of the chunks. *)
Theorem C129_partial {conf} (same : conf -> conf -> bool) k c ser ds data decompress n replicas nw b procs files early later chunks
    cp sp replicas' nw' b' :
  (forall a b, same a b = true <-> a = b) ->
  deterministic ds data -> readable c decompress ->
  (forall i, i < n -> Forall plain (data i) /\ 1 <= it_bytes (ser (data i))) ->
  1 <= replicas -> 1 <= nw -> 1 <= b -> replicas * nw <= 10 -> replicas * nw <= n ->
  fill c ser ds n replicas nw b complete_pass = Ok procs ->
  Permutation files (flat_map (worker_file k) procs) ->
  Forall (fun look => length look < replicas * nw /\ ~ In index_json (map fst look)) early ->
  merge_wait same (replicas * nw) (early ++ files :: later) = Some (Ok [(index_json, Index chunks (Some k))]) -> small_chunks chunks ->
  Permutation cp (seq 0 (length chunks)) -> (forall rank i n, Permutation (sp rank i n) (seq 0 n)) ->
  1 <= replicas' -> replicas' <= replicas * nw -> 1 <= nw' -> 1 <= b' ->
  exists out, (forall r, r < replicas' -> read_pass decompress chunks cp (sp r) replicas' r nw' b' = Ok (out r)) /\
    Permutation (flat_map out (seq 0 replicas')) (map (fun i => it_data (ser (data i))) (seq 0 n)).
Proof.
  intros Hs Hd Hrd Hp Hr Hw Hb H10 Hn E P Fe M S Hcp Hsp Hr' Hle Hw' Hb'.
  destruct (fill_ok c ser ds data decompress Hd Hrd n replicas nw b complete_pass Hb Hw Hn Hp) as (procs' & iss & E' & E1 & F & G).
  rewrite E in E'. injection E' as <-.
  assert (EI : iss = map (fun p => share n replicas nw (p / nw) (p mod nw)) (seq 0 (replicas * nw))).
  { clear -G. induction G as [|p is l iss (batches & _ & H1 & H2) _ IH]; [reflexivity|]. cbn [map]. f_equal; [|exact IH]. rewrite H2. exact H1. }
  assert (EC : concat iss = seq 0 n) by (rewrite EI, <- flat_map_concat_map; apply shares_all; assumption).
  assert (NE : Forall (fun is => is <> []) iss).
  { rewrite EI. apply Forall_forall. intros is Hin. apply in_map_iff in Hin. destruct Hin as (p & <- & Hin). apply in_seq in Hin.
    pose proof (share_nonempty n replicas nw (p / nw) (p mod nw) ltac:(apply Nat.div_lt_upper_bound; lia) ltac:(apply Nat.mod_upper_bound; lia) Hn) as L.
    intros E0. rewrite E0 in L. cbn in L. lia. }
  rewrite (merge_ok ser data decompress same k procs iss) in M; try assumption; [|nia]. injection M as <-.
  destruct (chunks_ok ser data decompress procs iss F S) as [O EQ]. rewrite <- EC, <- EQ.
  apply passes_ok; try assumption. pose proof (chunks_many ser data decompress procs iss F NE) as L.
  assert (length procs = replicas * nw) by (rewrite <- (map_length fst), E1; apply seq_length). lia.
Qed.
Print Assumptions C129_partial.

Example C129_case : exists procs chunks,
  fill two one_byte numbers 7 1 2 2 complete_pass = Ok procs /\ merged procs = Some chunks /\ length chunks = 4 /\
  read_pass (fun d => d) chunks [2; 0; 3; 1] (fun _ n => rev (seq 0 n)) 2 0 1 2 = Ok [[4%N]; [3%N]; [6%N]; [5%N]] /\
  read_pass (fun d => d) chunks [2; 0; 3; 1] (fun _ n => rev (seq 0 n)) 2 1 1 2 = Ok [[1%N]; [0%N]; [2%N]].
Proof. eexists. eexists. split; [vm_compute; reflexivity|]. split; [vm_compute; reflexivity|]. repeat split; vm_compute; reflexivity. Qed.

(** C129 fails if the processes draw different orders (see also C29): sample 0 twice, sample 2 never. *)
Theorem C129_refuted : exists n procs chunks cp cp' out out',
  fill two one_byte numbers n 2 1 1 complete_pass = Ok procs /\ merged procs = Some chunks /\
  Permutation cp (seq 0 (length chunks)) /\ Permutation cp' (seq 0 (length chunks)) /\
  read_pass (fun d => d) chunks cp (fun _ n => seq 0 n) 2 0 1 1 = Ok out /\
  read_pass (fun d => d) chunks cp' (fun _ n => seq 0 n) 2 1 1 1 = Ok out' /\
  ~ In (it_data (one_byte (number 2))) (out ++ out') /\ count_occ (list_eq_dec N.eq_dec) (out ++ out') (it_data (one_byte (number 0))) = 2.
Proof.
  exists 4. eexists. eexists. exists [0; 1], [1; 0]. eexists. eexists. split; [vm_compute; reflexivity|]. split; [vm_compute; reflexivity|].
  split; [apply Permutation_refl|]. split; [apply perm_swap|]. split; [vm_compute; reflexivity|]. split; [vm_compute; reflexivity|].
  split; [|vm_compute; reflexivity]. vm_compute. intros H. repeat (destruct H as [H|H]; [discriminate H|]). exact H.
Qed.
Print Assumptions C129_refuted.

(** C130: a pass that is not complete, of which every worker got at least one batch: the cache that is left holds what the workers delivered, worker
    by worker, each a beginning of what it delivers in a complete pass, and nothing else. *)
Theorem C130_partial {conf} (same : conf -> conf -> bool) k c ser ds data decompress n replicas nw b taken :
  (forall a b, same a b = true <-> a = b) ->
  deterministic ds data -> readable c decompress ->
  (forall i, i < n -> Forall plain (data i) /\ 1 <= it_bytes (ser (data i))) ->
  1 <= replicas -> 1 <= nw -> 1 <= b -> replicas * nw <= 10 -> replicas * nw <= n -> (forall r w, taken r w <> Some 0) ->
  exists procs delivered, fill c ser ds n replicas nw b taken = Ok procs /\
    map (fun x => fst (snd x)) procs = map (map data) delivered /\
    Forall2 (fun p is => exists rest, indices_of n replicas nw b complete_pass (p / nw) (p mod nw) = Ok (is ++ rest)) (seq 0 (replicas * nw)) delivered /\
    forall files early later, Permutation files (flat_map (worker_file k) procs) ->
      Forall (fun look => length look < replicas * nw /\ ~ In index_json (map fst look)) early ->
      exists chunks, merge_wait same (replicas * nw) (early ++ files :: later) = Some (Ok [(index_json, Index chunks (Some k))]) /\
        (small_chunks chunks -> holds decompress chunks (map (fun i => it_data (ser (data i))) (concat delivered))).
Proof.
  intros Hs Hd Hrd Hp Hr Hw Hb H10 Hn Ht.
  destruct (fill_ok c ser ds data decompress Hd Hrd n replicas nw b taken Hb Hw Hn Hp) as (procs & iss & E & E1 & F & G).
  exists procs, iss. split; [exact E|]. split.
  { clear -F. induction F as [|x is procs iss (H & _) _ IH]; [reflexivity|]. cbn [map]. rewrite H, IH. reflexivity. }
  assert (B : forall p, In p (seq 0 (replicas * nw)) -> p / nw < replicas /\ p mod nw < nw).
  { intros p Hin. apply in_seq in Hin. split; [apply Nat.div_lt_upper_bound; lia|apply Nat.mod_upper_bound; lia]. }
  split.
  { clear -G B Hb Hn. induction G as [|p is l iss (batches & _ & H1 & H2) _ IH]; [constructor|]. constructor; [|apply IH; intros; apply B; right; assumption].
    destruct (B p (or_introl eq_refl)) as [B1 B2]. destruct (indices_ok n replicas nw b complete_pass (p / nw) (p mod nw) Hb B1 B2 Hn) as (bs & E & Es & _).
    cbn [complete_pass] in E. rewrite E, Es, <- H1. destruct (taken (p / nw) (p mod nw)) as [m|].
    - exists (concat (skipn m batches)). rewrite H2, <- concat_app, firstn_skipn. reflexivity.
    - exists []. rewrite H2, app_nil_r. reflexivity. }
  intros files early later P Fe. exists (chunks_in procs). split.
  - apply (merge_ok ser data decompress same k procs iss); try assumption; [nia|].
    clear -G B Hn Ht Hb. induction G as [|p is l iss (batches & Hf & H1 & H2) _ IH]; [constructor|]. constructor; [|apply IH; intros; apply B; right; assumption].
    destruct (B p (or_introl eq_refl)) as [B1 B2]. pose proof (share_nonempty n replicas nw (p / nw) (p mod nw) B1 B2 Hn) as L. rewrite <- H1 in L.
    destruct (taken (p / nw) (p mod nw)) as [m|] eqn:Em; [|rewrite H2; intros E0; rewrite E0 in L; cbn in L; lia].
    assert (Hm : m <> 0) by (intros ->; exact (Ht _ _ Em)). destruct m as [|m]; [congruence|]. rewrite H2.
    destruct Hf as (full & last & j & -> & Ff & _ & Fl). destruct full as [|x full].
    + destruct last as [|y last]; cbn [app].
      * cbn [app] in L. rewrite Sampler_Proofs.concat_repeat_nil in L. cbn in L. lia.
      * inversion Fl as [|? ? [Hy _] _]; subst. cbn [firstn concat]. destruct y; [cbn in Hy; lia|discriminate].
    + inversion Ff as [|? ? Hx _]; subst. cbn [app firstn concat]. destruct x; [cbn in Hb; lia|discriminate].
  - intros S. destruct (chunks_ok ser data decompress procs iss F S) as [O EQ]. rewrite <- EQ. apply holds_ok. exact O.
Qed.
Print Assumptions C130_partial.

(** C130: the cache of an incomplete pass counts as complete.  Two workers for four samples; the loop is left after one batch of each: sample 1 of
    the cache is sample 2 of the dataset. *)
Definition one_each : nat -> nat -> option nat := fun _ _ => Some 1.
Example C130_case : exists procs, fill two one_byte numbers 7 1 2 2 one_each = Ok procs /\
  map (fun x => fst (snd x)) procs = map (map number) [[0; 1]; [3; 4]] /\
  map (fun w => indices_of 7 1 2 2 complete_pass 0 w) [0; 1] = [Ok ([0; 1] ++ [2]); Ok ([3; 4] ++ [5; 6])] /\
  deterministic numbers number /\ readable two (fun d => d) /\ (forall r w, one_each r w <> Some 0).
Proof.
  eexists. split; [vm_compute; reflexivity|]. split; [vm_compute; reflexivity|]. split; [vm_compute; reflexivity|].
  split; [exact (proj1 C128_hypotheses)|]. split; [exact (proj1 (proj2 C128_hypotheses))|]. discriminate.
Qed.
Theorem C130_refuted : exists n nw b procs chunks,
  fill two one_byte numbers n 1 nw b one_each = Ok procs /\ merged procs = Some chunks /\
  sum (map (fun x => ch_size (snd x)) chunks) < n /\
  cache_get (fun d => d) chunks 1 = Ok (it_data (one_byte (number 2))) /\ cache_get (fun d => d) chunks 2 = Err ValueError.
Proof. exists 4, 2, 1. eexists. eexists. split; [vm_compute; reflexivity|]. split; [vm_compute; reflexivity|]. vm_compute. repeat split; try reflexivity. lia. Qed.
Print Assumptions C130_refuted.

(** C130: without workers the loop can be left and begun again in the same process.  With samples that are not yet in a chunk the
    second pass raises; otherwise they are stored twice. *)
Theorem C130_retry_refuted : exists n left_after st,
  left_after < n /\
  (exists delivered, fetches two one_byte numbers 0 (0, false, new_writer 0) (seq 0 left_after) = Ok (delivered, st)) /\
  fetches two one_byte numbers 0 st (seq 0 n) = Err ValueError.
Proof. exists 3, 1. eexists. split; [lia|]. split; [eexists; vm_compute; reflexivity|]. vm_compute. reflexivity. Qed.
Print Assumptions C130_retry_refuted.

(** C131: every sample of a deterministic dataset without arrays and nan is accepted, at every access; and a
    dataset that gives two different samples at its first access in a process is refused, if the comparison can tell them apart; a sample that is delivered is the
    one that is written.  Partial: only the first sample of each process is compared. *)
Theorem C131_partial c ser ds p :
  (forall data t flag w i, deterministic ds data -> Forall plain (data i) ->
     exists t', fetch c ser ds p (t, flag, w) i = bind (add_item c w i (ser (data i))) (fun w' => Ok (data i, (t', true, w')))) /\
  (forall i is, ds p 0 i <> ds p 1 i -> Forall (fun x => distinguishable (fst x) (snd x)) (combine (ds p 0 i) (ds p 1 i)) ->
     exists e, run_worker c ser ds p (i :: is) = Err e) /\
  (forall st i d st', fetch c ser ds p st i = Ok (d, st') -> add_item c (snd st) i (ser d) = Ok (snd st')).
Proof.
  split; [|split].
  - intros data t flag w i D F. apply fetch_det; [exact D|right; exact F].
  - intros i is Hne F. unfold run_worker. cbn [fetches]. unfold fetch at 1.
    destruct (equal_items (ds p 0 i) (ds p 1 i)) as [[|]|e] eqn:E; cbn [bind].
    + exfalso. apply Hne. apply equal_items_eq; assumption.
    + exists ValueError. reflexivity.
    + exists e. reflexivity.
  - intros [[t flag] w] i d st' E. unfold fetch in E. cbn [snd]. destruct flag.
    + destruct (add_item c w i (ser (ds p t i))) as [w'|] eqn:Ew; [|discriminate]. injection E as <- <-. exact Ew.
    + destruct (equal_items (ds p t i) (ds p (S t) i)) as [[|]|]; try discriminate. cbn [bind] in E.
      destruct (add_item c w i (ser (ds p t i))) as [w'|] eqn:Ew; [|discriminate]. injection E as <- <-. exact Ew.
Qed.
Print Assumptions C131_partial.
Example C131_case :
  run_worker two one_byte (fun _ t i => [VStr [97%N]; VInt (Z.of_nat (t + i))]) 0 [5; 6] = Err ValueError /\
  distinguishable (VInt 5) (VInt 6) /\
  equal_items [VStr [97%N]; VTensor [1; 2]%Z; VFloat (Some 3%Z)] [VStr [97%N]; VTensor [1; 2]%Z; VFloat (Some 3%Z)] = Ok true /\
  equal_items [VTensor [1; 2; 3]%Z] [VTensor [1; 2]%Z] = Err RuntimeError /\ equal_items [VInt 1; VInt 2] [VInt 1] = Ok false.
Proof. repeat split. Qed.

(** C131: a deterministic dataset of arrays (or with a nan) is refused. *)
Theorem C131_refuted : exists data, (exists l, data 0 = [VArray l]) /\
  run_worker two one_byte (fun _ _ i => data i) 0 (seq 0 2) = Err ValueError /\
  run_worker two one_byte (fun _ _ _ => [VFloat None]) 0 (seq 0 2) = Err ValueError.
Proof. exists (fun _ => [VArray [1; 2]%Z]). repeat split; try (vm_compute; reflexivity). exists [1; 2]%Z. reflexivity. Qed.
Print Assumptions C131_refuted.

(** C131: a random dataset whose first sample happens to be the same twice is accepted, and so are tensors that differ in their length. *)
Theorem C131_later_refuted : exists ds r, ~ (exists data, deterministic ds data) /\ run_worker two one_byte ds 0 (seq 0 3) = Ok r.
Proof.
  exists (fun _ t i => match i with 0 => [VInt 0] | _ => [VInt (Z.of_nat t)] end). eexists. split; [|vm_compute; reflexivity].
  intros (data & D). pose proof (D 0 0 1) as D0. pose proof (D 0 1 1) as D1. cbn in D0, D1. rewrite <- D0 in D1. discriminate D1.
Qed.
Print Assumptions C131_later_refuted.
Theorem C131_shape_refuted : exists ds r, ds 0 0 0 <> ds 0 1 0 /\ run_worker two one_byte ds 0 [0] = Ok r.
Proof. exists (fun _ t _ => match t with 0 => [VTensor [7]%Z] | _ => [VTensor [7; 7]%Z] end). eexists. split; [discriminate|vm_compute; reflexivity]. Qed.
Print Assumptions C131_shape_refuted.

(** C132: a batch size is accepted if the chunk size in bytes is switched off, and without a batch size the default is accepted. *)
Theorem C132_partial : (forall b, loader_accepts (Some b) (Some None) = Ok tt) /\ loader_accepts None None = Ok tt /\
  (forall n, loader_accepts None (Some (Some n)) = Ok tt).
Proof. repeat split. intros b. destruct b; reflexivity. Qed.
Print Assumptions C132_partial.

(** C132: with the default chunk size every batch size is refused. *)
Theorem C132_refuted : exists b, 1 <= b /\ loader_accepts (Some b) None = Err ValueError.
Proof. exists 2. split; [lia|vm_compute; reflexivity]. Qed.
Print Assumptions C132_refuted.
Theorem C132_default : forall b, 1 <= b -> loader_accepts (Some b) None = Err ValueError.
Proof. intros [|b] H; [lia|]. vm_compute. reflexivity. Qed.
Print Assumptions C132_default.
Example C132_case : map (fun x => loader_accepts (fst x) (snd x)) [(Some 8, Some None); (None, Some (Some 100%N)); (Some 8, None)] = [Ok tt; Ok tt; Err ValueError].
Proof. vm_compute. reflexivity. Qed.
