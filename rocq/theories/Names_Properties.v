(** Properties C42 and C48: names of chunks and checkpoints, sizes given as strings. *)
From Coq Require Import String.
From Verif Require Import Base Names_Model Names_Spec Names_Proofs Size_Model Size_Proofs.
From Coq Require Import NArith ZArith.
Local Open Scope list_scope.
Local Open Scope nat_scope.
Local Open Scope string_scope.

(** C42: the name of a chunk parses back to its rank and index (compression
    algorithms have no dash in their name). *)
Theorem C42_parse_back comp r i : dashless comp -> parse_name (chunk_name comp r i) = Ok (r, i).
Proof. exact (parse_chunk comp r i). Qed.
Print Assumptions C42_parse_back.

(** Different chunks have different names, even with different compressions. *)
Theorem C42_distinct comp comp' r i r' i' :
  (r, i) <> (r', i') -> chunk_name comp r i <> chunk_name comp' r' i'.
Proof. intros H E. apply H. destruct (chunk_name_inj comp comp' r i r' i' E) as [-> ->]. reflexivity. Qed.
Print Assumptions C42_distinct.

Example C42_case :
  chunk_name (Some (codes "zstd")) 12 305 = codes "chunk-12-305.zstd.bin" /\
  chunk_name None 0 7 = codes "chunk-0-7.bin" /\
  parse_name (codes "chunk-12-305.zstd.bin") = Ok (12, 305) /\
  dashless (Some (codes "zstd")).
Proof.
  repeat split; try (vm_compute; reflexivity). cbn. intros H.
  repeat (destruct H as [H|H]; [discriminate H|]). exact H.
Qed.

(** Appending on one node: whatever chunks the dataset has, no worker ever writes a
    file with the name of an existing chunk, and no two new files have one name. *)
Theorem C42_append_fresh num_workers existing :
  Forall (fun e => dashless (fst e)) existing ->
  let names := map (fun e => chunk_name (fst e) (fst (snd e)) (snd (snd e))) existing in
  exists state, append_state num_workers names = Ok state /\
    (forall comp w j, w < num_workers -> ~ In (new_name comp state num_workers 0 w j) names) /\
    (forall comp w j w' j', w < num_workers -> w' < num_workers -> (w, j) <> (w', j') ->
       new_name comp state num_workers 0 w j <> new_name comp state num_workers 0 w' j') /\
    (forall w, w < num_workers -> nth w state 0 = 0 \/ exists i, In (w, i) (map snd existing) /\ nth w state 0 = i + 1).
Proof.
  intros Hd names. destruct (append_fresh num_workers existing Hd) as (st & E & L & F & S).
  exists st. split; [exact E|]. split; [intros comp w j Hw; apply F; exact Hw|]. split; [|exact S].
  intros comp w j w' j' Hw Hw' Hne Heq. apply Hne.
  destruct (new_names_distinct comp st num_workers 0 w j 0 w' j' Hw Hw' Heq) as (_ & -> & ->). reflexivity.
Qed.
Print Assumptions C42_append_fresh.

Example C42_append_case :
  append_state 2 [codes "chunk-0-0.bin"; codes "chunk-1-4.bin"; codes "chunk-5-9.bin"; codes "chunk-1-2.bin"] = Ok [1; 5] /\
  new_name None [1; 5] 2 0 1 0 = codes "chunk-1-5.bin".
Proof. split; vm_compute; reflexivity. Qed.

(** Appending to a dataset with a file that was not named by litdata raises before anything is
    written: without its first six and last four characters the name has no dash or several, or
    a letter in one of the two numbers. *)
Theorem C42_other_names num_workers comps name post :
  Forall dashless (map fst comps) ->
  let mine := map (fun e : option str * (nat * nat) => chunk_name (fst e) (fst (snd e)) (snd (snd e))) comps in
  let middle := firstn (List.length name - 10) (skipn 6 name) in
  (count_occ N.eq_dec middle 45%N <> 1 -> append_state num_workers (mine ++ name :: post)%list = Err AssertionError) /\
  (forall (r i t : str) c, (middle = r ++ 45%N :: i ++ t)%list -> ~ In 45%N (r ++ i ++ t)%list -> ~ In 46%N i -> (t = [] \/ exists t', t = 46%N :: t') ->
     In c (r ++ i)%list -> (65 <= c)%N -> append_state num_workers (mine ++ name :: post)%list = Err ValueError).
Proof.
  intros Hd mine middle.
  assert (F : Forall (fun n => exists p, parse_name n = Ok p) mine).
  { apply Forall_forall. intros n Hn. apply in_map_iff in Hn. destruct Hn as (e & <- & He). eexists. apply parse_chunk.
    rewrite Forall_forall in Hd. apply Hd. apply in_map. exact He. }
  assert (Hm : cut 6 4 name = middle) by (unfold cut, middle; f_equal; lia).
  split; [intros H|intros r i t c E Hn Hp Ht Hc H65]; apply next_indexes_refused; try exact F.
  - apply dashes_refused. rewrite Hm. exact H.
  - rewrite in_app_iff in Hn. apply (letters_refused name r i t c); try assumption; try (intros X; apply Hn; tauto); [rewrite Hm; exact E|lia].
Qed.
Print Assumptions C42_other_names.

Example C42_other_case :
  append_state 1 [codes "chunk-0-0.bin"; codes "shard.00001.mds"] = Err AssertionError /\
  append_state 1 [codes "chunk-0-0.bin"; codes "train-a-b-0-1.bin"] = Err AssertionError /\
  append_state 1 [codes "part1-a-1.bin"] = Err ValueError.
Proof. repeat (apply conj; [vm_compute; reflexivity|]). vm_compute; reflexivity. Qed.

(** On two nodes it does not hold: the numbers are kept for the workers of one node
    only, so a worker of the second node starts with the number of its peer. *)
Theorem C42_append_two_nodes_refuted :
  exists existing state node w j,
    append_state 1 existing = Ok state /\ node < 2 /\ w < 1 /\
    In (new_name None state 1 node w j) existing.
Proof.
  exists [codes "chunk-0-0.bin"; codes "chunk-1-0.bin"; codes "chunk-1-1.bin"], [1], 1, 0, 0.
  split; [vm_compute; reflexivity|]. split; [lia|]. split; [lia|]. right; right; left. vm_compute. reflexivity.
Qed.
Print Assumptions C42_append_two_nodes_refuted.

(** A dash in the name of the compression breaks the inverse. *)
Theorem C42_dash_refuted : exists comp r i, parse_name (chunk_name comp r i) <> Ok (r, i).
Proof. exists (Some (codes "a-b")), 0, 0. vm_compute. discriminate. Qed.
Print Assumptions C42_dash_refuted.

(** Checkpoints: the uploaded name is the one that a resumed run looks for. *)
Theorem C42_checkpoint_name dir rank uuid :
  length uuid = 32 -> contains (codes ".checkpoints") dir = true ->
  remove_uuid (dir ++ checkpoint_name rank uuid)%list = (dir ++ checkpoint_read rank)%list.
Proof. exact (remove_uuid_checkpoint dir rank uuid). Qed.
Print Assumptions C42_checkpoint_name.

Example C42_checkpoint_case :
  remove_uuid (codes "/out/.checkpoints/checkpoint-3-9fe2c4e93f654fdbb24c02b15259716c.json") =
  codes "/out/.checkpoints/checkpoint-3.json".
Proof. vm_compute. reflexivity. Qed.

(** C48: a size is a number, with blanks around it, and a unit in any case.  Whole
    numbers are multiplied exactly as long as the result is below 2^53. *)
Theorem C48_whole other pre s n mid u ratio post :
  Forall is_blank pre -> s <> [] -> Forall is_digit s -> value s = n -> Forall is_blank mid ->
  size_unit u ratio -> Forall is_blank post -> (n * ratio < 2 ^ 53)%N ->
  convert other (pre ++ s ++ mid ++ u ++ post)%list = Ok (Z.of_N (n * ratio)).
Proof.
  intros H1 Hs Hd Hv H3 Hu H5 Hb.
  assert (D : decimal s n 0).
  { exists s, []. rewrite app_nil_r. split; [exact Hd|]. split; [constructor|]. split; [exact Hs|]. split; [exact Hv|].
    split; [reflexivity|]. right. split; reflexivity. }
  rewrite (size_decimal other pre s n 0 mid u post ratio H1 D H3 Hu H5).
  change (10 ^ N.of_nat 0)%N with 1%N. rewrite size_exact; [reflexivity|exact Hb|].
  destruct Hu; lia.
Qed.
Print Assumptions C48_whole.

(** Decimal fractions m / 10^k are off by less than 1.6 bytes below 2^51. *)
Theorem C48_decimal other pre s m k mid u ratio post :
  Forall is_blank pre -> decimal s m k -> Forall is_blank mid -> size_unit u ratio -> Forall is_blank post ->
  (m * ratio < 2 ^ 51 * 10 ^ N.of_nat k)%N ->
  exists r, convert other (pre ++ s ++ mid ++ u ++ post)%list = Ok (Z.of_N r) /\
    (10 * r * 10 ^ N.of_nat k <= 10 * (m * ratio) + 6 * 10 ^ N.of_nat k)%N /\
    (10 * (m * ratio) < 10 * (r + 1) * 10 ^ N.of_nat k + 6 * 10 ^ N.of_nat k)%N.
Proof.
  intros H1 Hd H3 Hu H5 Hb. eexists. split; [apply (size_decimal other pre s m k mid u post ratio); assumption|].
  apply size_error; [|exact Hb]. apply N.neq_0_lt_0, N.pow_nonzero. discriminate.
Qed.
Print Assumptions C48_decimal.

(** Without one of the four units: ValueError. *)
Theorem C48_no_unit other s :
  (forall t u ratio post, size_unit u ratio -> Forall is_blank post -> s <> (t ++ u ++ post)%list) ->
  convert other s = Err ValueError.
Proof. exact (size_no_unit other s). Qed.
Print Assumptions C48_no_unit.

Definition no_other (s : str) (ratio : N) : res Z := Err ValueError.
Example C48_case :
  convert no_other (codes " 64 Mb") = Ok 64000000%Z /\ convert no_other (codes "1.5GB") = Ok 1500000000%Z /\
  convert no_other (codes "2TB") = Ok 2000000000000%Z /\ convert no_other (codes "1e3kb") = Err ValueError /\
  convert no_other (codes "12") = Err ValueError /\ convert no_other (codes "1kib") = Err ValueError.
Proof. repeat split; vm_compute; reflexivity. Qed.

Example C48_decimal_case : decimal (codes "1.5") 15 1 /\ size_unit (codes "gB") (10 ^ 9).
Proof.
  split.
  - exists (codes "1"), (codes "5"). repeat split; try (vm_compute; reflexivity); try discriminate;
      try (repeat constructor; discriminate); left; reflexivity.
  - apply GB; cbn; auto.
Qed.

(** The exact product does not hold for decimal fractions ... *)
Theorem C48_fraction_refuted :
  exists s m k u ratio r, decimal s m k /\ size_unit u ratio /\
    convert no_other (s ++ u)%list = Ok (Z.of_N r) /\ (m * ratio = (r + 1) * 10 ^ N.of_nat k)%N.
Proof.
  exists (codes "1.001"), 1001%N, 3, (codes "kb"), 1000%N, 1000%N. split; [|split; [|split]].
  - exists (codes "1"), (codes "001"). repeat split; try (vm_compute; reflexivity); try discriminate;
      try (repeat constructor; discriminate); left; reflexivity.
  - apply kB; cbn; auto.
  - vm_compute. reflexivity.
  - vm_compute. reflexivity.
Qed.
Print Assumptions C48_fraction_refuted.

(** ... nor for large whole numbers. *)
Theorem C48_large_refuted :
  exists s n u ratio r, Forall is_digit s /\ value s = n /\ size_unit u ratio /\
    convert no_other (s ++ u)%list = Ok r /\ r <> Z.of_N (n * ratio).
Proof.
  exists (codes "9007199254740993"), 9007199254740993%N, (codes "kb"), 1000%N, 9007199254740992000%Z.
  split; [repeat constructor; discriminate|]. split; [vm_compute; reflexivity|]. split; [apply kB; cbn; auto|].
  split; [vm_compute; reflexivity|]. vm_compute. discriminate.
Qed.
Print Assumptions C48_large_refuted.
