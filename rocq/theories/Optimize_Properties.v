(** Property C174: [optimize] over nodes and workers, then a dataset that reads the result. *)
From Verif Require Import Base Assign_Model Assign_Spec Config_Model Iter_Model Iter_Spec Iter_Properties
  Format_Model Codec_Model Codec_Spec Tree_Model Tree_Spec Sample_Model Sample_Spec Sample_Properties
  Writer_Model Encrypt_Model Encrypt_Spec Dataset_Model Dataset_Spec Dataset_Proofs2 Dataset_Properties
  Distrib_Model Names_Model Merge_Model Optimize_Model Optimize_Spec Optimize_Proofs2.
From Coq Require Import NArith.
Local Open Scope nat_scope.

(** [optimize] succeeds, and the dataset holds every sample that the function gave once: in random access and in
    an epoch.  If inputs are not reordered, the workers do not download, and there are at most ten of them, the
    samples come in the order of the inputs.  Partial: chunks below 4 GiB (C19); on several nodes at least as many inputs as
    workers and a sample for every input (see the refutations). *)
Theorem C174_optimize_partial {A} isfile pickle unpickle rw rr (fn : A -> res (list (option (tree leaf)))) g perm order listdir decompress inputs ts :
  (forall x, unpickle (pickle x) = Ok x) ->
  key_ok (g_cipher g) -> match g_cipher g with Some c => e_limit c = None | None => True end -> codec_ok (g_compress g) decompress ->
  (is_none (g_bytes g) && is_none (g_size g)) || (truthy (g_bytes g) && truthy (g_size g)) = false ->
  (forall r w n, Permutation (perm r w n) (seq 0 n)) -> (forall r n, Permutation (order r n) (seq 0 n)) ->
  (forall l, Permutation (listdir l) l) ->
  1 <= g_nodes g -> 1 <= g_workers g -> g_fast g = FdrBool false ->
  match g_sizes g with None => True | Some sz => length inputs = length sz /\ Forall (fun w => (0 < w)%Z) sz end ->
  outputs fn inputs ts -> ts <> [] -> uniform isfile rw rr ts ->
  g_nodes g = 1 \/ (g_nodes g * g_workers g <= length inputs /\ all_give fn inputs) ->
  exists x, optimize isfile pickle rw fn g perm order listdir inputs = Ok x /\
    (small_chunks x -> exists o us, open_dataset rr decompress x = Ok o /\ Permutation us ts /\
       (g_sizes g = None -> (forall k n, order k n = seq 0 n) -> g_nodes g * g_workers g <= 10 -> us = ts) /\
       (forall is, Forall (fun i => i < length us) is ->
          exists r st, get_items unpickle o (g_cipher g) new_loader (map Z.of_nat is) = Ok (r, st) /\ at_positions us is r) /\
       (forall st i, (i < 0 \/ Z.of_nat (length us) <= i)%Z -> get_item unpickle o (g_cipher g) st i = Err ValueError) /\
       (forall rng shuffle W seed nw B epoch, rng_ok rng -> 1 <= W -> 1 <= nw -> 1 <= B ->
          exists a parts,
            (forall r, shuffle_assign rng shuffle (Env W r 1) seed false nw B epoch (o_ivs o) = Ok a) /\
            length parts = W * nw /\
            (forall r i, r < W -> i < nw ->
               exists part reqs s0 s', nth_error parts (r * nw + i) = Some part /\
                 iter_fresh (Env W r 1) nw i epoch a = Ok s0 /\ Run (shuffle_call rng shuffle seed) s0 reqs s' /\
                 yielded unpickle o (g_cipher g) reqs = Ok part) /\
            Permutation (concat parts) us /\ (shuffle = false -> concat parts = us))).
Proof.
  intros Hp Hk Hl Hc Hs Hperm Hord Hlist Hn Hw Hf Hsz Hout Hne Hu Hb.
  destruct (optimize_dataset isfile pickle unpickle rw rr fn g perm order listdir decompress inputs ts
    Hp Hk Hl Hc Hs Hperm Hord Hlist Hn Hw Hf Hsz Hout Hne Hu Hb) as (x & Ex & Hx).
  exists x. split; [exact Ex|]. intros Hsm. destruct (Hx Hsm) as (o & us & Ho & Hr & HP & Hq). exists o, us.
  split; [exact Ho|]. split; [exact HP|]. split; [exact Hq|]. destruct (reads_access _ _ _ _ _ Hr) as [R1 R2].
  split; [exact R1|]. split; [exact R2|]. intros rng shuffle W seed nw B epoch. exact (reads_epoch unpickle o (g_cipher g) x us rng shuffle W seed nw B epoch Hr).
Qed.
Print Assumptions C174_optimize_partial.

(** ** A case: numbers, each given twice but for multiples of three, which give nothing. *)
Definition num (z : Z) : tree leaf := Leaf (LInt z).
Definition twice (z : Z) : res (list (option (tree leaf))) :=
  if (z mod 3 =? 0)%Z then Ok [None] else Ok [Some (num z); None; Some (num (- z))].
Definition once (z : Z) : res (list (option (tree leaf))) := Ok [Some (num z)].
Definition in_turn (r n : nat) : list nat := seq 0 n.
Definition backwards (r n : nat) : list nat := rev (seq 0 n).
Definition unmixed (r w n : nat) : list nat := seq 0 n.
Definition opt_args (nodes nw : nat) : args := Args None (Some 2) toy_zip (Some (toy Sample_level None)) nodes nw (FdrBool false) None.
Definition listed {A} (l : list A) : list A := rev l.
Definition content {A} (fn : A -> res (list (option (tree leaf)))) (g : args) (order : nat -> nat -> list nat) (inputs : list A) (is : list Z) : res (list (tree leaf)) :=
  bind (optimize no_file no_pickle nobody fn g unmixed order listed inputs) (fun x =>
  bind (open_dataset nobody toy_unzip x) (fun o =>
  bind (get_items no_unpickle o (g_cipher g) new_loader is) (fun r => Ok (fst r)))).
Lemma nums_uniform zs : Forall (fun z => - 2 ^ 63 <= z < 2 ^ 63)%Z zs -> uniform no_file nobody nobody (map num zs).
Proof.
  intros H. split.
  - apply Forall_map. eapply Forall_impl; [|exact H]. intros z Hz. cbn. repeat split; try discriminate. repeat constructor; apply Hz.
  - intros t u Ht Hu. apply in_map_iff in Ht, Hu. destruct Ht as (a & <- & _), Hu as (b & <- & _). split; [reflexivity|].
    cbn [num leaves]. constructor; [right; exact I|constructor].
Qed.
Example C174_case :
  outputs twice [1; 2; 3; 4; 5]%Z (map num [1; -1; 2; -2; 4; -4; 5; -5]%Z) /\
  uniform no_file nobody nobody (map num [1; -1; 2; -2; 4; -4; 5; -5]%Z) /\
  all_give once [1; 2; 3; 4; 5]%Z /\
  (forall A (l : list A), Permutation (listed l) l) /\
  (exists x, optimize no_file no_pickle nobody twice (opt_args 1 3) unmixed in_turn listed [1; 2; 3; 4; 5]%Z = Ok x /\ small_chunks x /\
     length (x_chunks x) = 4) /\
  content twice (opt_args 1 3) in_turn [1; 2; 3; 4; 5]%Z [0; 1; 2; 3; 4; 5; 6; 7]%Z = Ok (map num [1; -1; 2; -2; 4; -4; 5; -5]%Z) /\
  content twice (opt_args 1 3) backwards [1; 2; 3; 4; 5]%Z [0; 1; 2; 3; 4; 5; 6; 7]%Z = Ok (map num [1; -1; 2; -2; 5; -5; 4; -4]%Z) /\
  content once (opt_args 2 2) in_turn [1; 2; 3; 4; 5]%Z [0; 1; 2; 3; 4]%Z = Ok (map num [1; 2; 3; 4; 5]%Z).
Proof.
  split.
  { change (map num [1; -1; 2; -2; 4; -4; 5; -5]%Z) with ([num 1; num (-1)] ++ [num 2; num (-2)] ++ [] ++ [num 4; num (-4)] ++ [num 5; num (-5)] ++ []).
    repeat (eapply outputs_cons; [reflexivity|repeat constructor|]). constructor. }
  split; [apply nums_uniform; repeat constructor; lia|].
  split; [intros a _; exists [Some (num a)], (num a); split; [reflexivity|left; reflexivity]|].
  split; [intros A l; apply Permutation_sym, Permutation_rev|].
  split; [|repeat (apply conj; [vm_compute; reflexivity|]); vm_compute; reflexivity].
  destruct (optimize no_file no_pickle nobody twice (opt_args 1 3) unmixed in_turn listed [1; 2; 3; 4; 5]%Z) as [x|] eqn:E; [|vm_compute in E; discriminate].
  exists x. split; [reflexivity|].
  assert (Hx : map snd (x_chunks x) = [42; 42; 42; 42]) by (vm_compute in E; injection E as <-; reflexivity).
  split; [apply small_sizes; rewrite Hx; vm_compute; reflexivity|]. rewrite <- (map_length snd), Hx. reflexivity.
Qed.

(** Inputs of different sizes, reordered over the workers of two nodes. *)
Definition sized_args : args := Args None (Some 2) toy_zip (Some (toy Sample_level None)) 2 2 (FdrBool false) (Some [1; 9; 1; 8; 1; 1]%Z).
Example C174_sized_case :
  g_nodes sized_args * g_workers sized_args <= length [1; 2; 3; 4; 5; 6]%Z /\ all_give once [1; 2; 3; 4; 5; 6]%Z /\
  content once sized_args backwards [1; 2; 3; 4; 5; 6]%Z [0; 1; 2; 3; 4; 5]%Z = Ok (map num [2; 4; 5; 1; 6; 3]%Z).
Proof.
  split; [vm_compute; lia|]. split; [intros a _; exists [Some (num a)], (num a); split; [reflexivity|left; reflexivity]|].
  vm_compute. reflexivity.
Qed.

(** With eleven workers the samples do not come in the order of the inputs: the index files are sorted by their names,
    so the ones of worker 10 come before the ones of worker 2. *)
Theorem C174_order_refuted : exists inputs ts x o r st,
  outputs once inputs ts /\ uniform no_file nobody nobody ts /\ length inputs = 11 /\
  optimize no_file no_pickle nobody once (opt_args 1 11) unmixed in_turn listed inputs = Ok x /\
  open_dataset nobody toy_unzip x = Ok o /\
  get_items no_unpickle o (g_cipher (opt_args 1 11)) new_loader (map Z.of_nat (seq 0 11)) = Ok (r, st) /\ r <> ts.
Proof.
  set (zs := [0; 1; 2; 3; 4; 5; 6; 7; 8; 9; 10]%Z).
  destruct (optimize no_file no_pickle nobody once (opt_args 1 11) unmixed in_turn listed zs) as [x|] eqn:E; [|vm_compute in E; discriminate].
  destruct (open_dataset nobody toy_unzip x) as [o|] eqn:Eo; [|vm_compute in E; injection E as <-; vm_compute in Eo; discriminate].
  destruct (get_items no_unpickle o (g_cipher (opt_args 1 11)) new_loader (map Z.of_nat (seq 0 11))) as [[r st]|] eqn:Eg.
  2: { vm_compute in E; injection E as <-; vm_compute in Eo; injection Eo as <-; vm_compute in Eg; discriminate. }
  exists zs, (map num zs), x, o, r, st. split.
  { unfold zs. cbn [map]. repeat match goal with |- outputs _ _ (?t :: ?l) => change (t :: l) with ([t] ++ l); eapply outputs_cons; [reflexivity|repeat constructor|] end. constructor. }
  split; [apply nums_uniform; unfold zs; repeat constructor; lia|]. split; [reflexivity|]. split; [exact E|]. split; [exact Eo|]. split; [exact Eg|].
  assert (Hr : r = map num [0; 1; 10; 2; 3; 4; 5; 6; 7; 8; 9]%Z).
  { vm_compute in E; injection E as <-; vm_compute in Eo; injection Eo as <-; vm_compute in Eg; injection Eg as <- _. reflexivity. }
  rewrite Hr. vm_compute. discriminate.
Qed.
Print Assumptions C174_order_refuted.

(** Samples that one worker stores and that are read back: two workers make [optimize] raise, if the first values that
    they see are stored in different ways.  Here: an array of two dimensions, and one of one dimension. *)
Definition row (z : Z) : tree leaf := Leaf (LArr 0 (if (z =? 0)%Z then [1; 2]%N else [2]%N) [3; 4]%N).
Definition rows (z : Z) : res (list (option (tree leaf))) := Ok [Some (row z)].
Theorem C174_forms_refuted : exists inputs ts,
  outputs rows inputs ts /\ storable_samples nobody nobody ts /\
  content rows (opt_args 1 1) in_turn inputs [0; 1]%Z = Ok ts /\
  optimize no_file no_pickle nobody rows (opt_args 1 2) unmixed in_turn listed inputs = Err GenericException.
Proof.
  exists [0; 1]%Z, [row 0; row 1]. split.
  { change [row 0; row 1] with ([row 0] ++ [row 1] ++ []). repeat (eapply outputs_cons; [reflexivity|repeat constructor|]). constructor. }
  split; [|split; vm_compute; reflexivity].
  assert (G : forall z, good_values (row z)).
  { intros z. unfold good_values, row. cbn [leaves]. constructor; [|constructor]. split.
    - cbn [valid nth_error numpy_itemsizes]. destruct (z =? 0)%Z; (split; [repeat constructor; unfold small, two32; lia|split; [unfold small, two32; cbn; lia|reflexivity]]).
    - right. lia. }
  split; [exact I|]. split; [exact I|]. split; [discriminate|]. split; [apply G|]. constructor; [|constructor].
  split; [|apply G]. split; [reflexivity|]. constructor; [cbn; lia|constructor].
Qed.
Print Assumptions C174_forms_refuted.

(** Two nodes, and the second one gets no sample: its index has no configuration, and [optimize] raises.  If it is the
    first one, all is well. *)
Theorem C174_idle_node_refuted : exists inputs ts,
  outputs twice inputs ts /\ uniform no_file nobody nobody ts /\ ts <> [] /\
  content twice (opt_args 1 2) in_turn inputs [0; 1]%Z = Ok ts /\
  optimize no_file no_pickle nobody twice (opt_args 2 1) unmixed in_turn listed inputs = Err GenericException /\
  content twice (opt_args 2 1) in_turn (rev inputs) [0; 1]%Z = Ok ts.
Proof.
  exists [1; 3]%Z, (map num [1; -1]%Z). split.
  { change (map num [1; -1]%Z) with ([num 1; num (-1)] ++ [] ++ []). repeat (eapply outputs_cons; [reflexivity|repeat constructor|]). constructor. }
  split; [apply nums_uniform; repeat constructor; lia|]. split; [discriminate|].
  split; [vm_compute; reflexivity|]. split; vm_compute; reflexivity.
Qed.
Print Assumptions C174_idle_node_refuted.
