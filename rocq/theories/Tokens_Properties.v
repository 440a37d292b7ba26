(** Property C173: datasets of tokens. *)
From Verif Require Import Base Assign_Model Assign_Spec Config_Model Iter_Model Iter_Spec Iter_Properties
  Format_Model Codec_Model Codec_Spec Tree_Model Tree_Spec Sample_Model Sample_Properties
  Writer_Model Encrypt_Model Encrypt_Spec Dataset_Model Dataset_Spec Dataset_Properties Tokens_Model Tokens_Spec Tokens_Proofs Tokens_Proofs2.
From Coq Require Import NArith ZArith.
Local Open Scope nat_scope.

(** C173: documents of one dtype are written in chunks, the tokens of every chunk are cut into blocks, and
    [dataset[i]] is the i-th of these blocks, for every i; beyond them it raises a ValueError.
    Partial: no empty documents, one dtype, nothing else in a sample (see the refutations below); no encryption. *)
Theorem C173_blocks_partial isfile pickle rw rr k cb cs compress decompress block t0 ts docs :
  plain_kind k -> codec_ok compress decompress -> tree_plain rw rr t0 -> (is_none cb && is_none cs) || (truthy cb && truthy cs) = false -> 1 <= block ->
  Forall (document k) docs -> Forall2 (fun t doc => leaves t = [array k doc]) (t0 :: ts) docs ->
  exists x o groups blocks, write_tokens isfile pickle rw cb cs compress (t0 :: ts) = Ok x /\ open_tokens rr block decompress x = Ok o /\
    concat groups = docs /\ Forall (chunk_ok k cb cs) groups /\ Forall2 (fun g bs => cut block (concat g) bs) groups blocks /\
    (forall i, get_block o (Z.of_nat i) = match nth_error (concat blocks) i with Some b => Ok (array k b) | None => Err ValueError end) /\
    (forall i, (i < 0)%Z -> get_block o i = Err ValueError).
Proof.
  intros H1 H2 H3 H4 H5 H6 H7.
  destruct (tokens_read isfile pickle rw rr k cb cs compress decompress block t0 ts docs H1 H2 H3 H4 H5 H6 H7) as (x & o & groups & blocks & A & B & C & D & E & F & G).
  exists x, o, groups, blocks. repeat (apply conj; [assumption|]). split; [exact (get_block_ok o k (concat blocks) F G)|exact (get_block_neg o)].
Qed.
Print Assumptions C173_blocks_partial.

(** A pass over ranks and workers yields every block once, without shuffling in the order of the tokens. *)
Theorem C173_epoch_partial isfile pickle rw rr k cb cs compress decompress block t0 ts docs rng shuffle W seed nw B epoch :
  plain_kind k -> codec_ok compress decompress -> tree_plain rw rr t0 -> (is_none cb && is_none cs) || (truthy cb && truthy cs) = false -> 1 <= block ->
  Forall (document k) docs -> Forall2 (fun t doc => leaves t = [array k doc]) (t0 :: ts) docs ->
  rng_ok rng -> 1 <= W -> 1 <= nw -> 1 <= B ->
  exists x o groups blocks a parts, write_tokens isfile pickle rw cb cs compress (t0 :: ts) = Ok x /\ open_tokens rr block decompress x = Ok o /\
    concat groups = docs /\ Forall2 (fun g bs => cut block (concat g) bs) groups blocks /\
    (forall r, shuffle_assign rng shuffle (Env W r 1) seed false nw B epoch (t_ivs o) = Ok a) /\
    length parts = W * nw /\
    (forall r i, r < W -> i < nw ->
       exists part reqs s0 s', nth_error parts (r * nw + i) = Some part /\
         iter_fresh (Env W r 1) nw i epoch a = Ok s0 /\ Run (shuffle_call rng shuffle seed) s0 reqs s' /\
         blocks_yielded o reqs = Ok (map (array k) part)) /\
    Permutation (concat parts) (concat blocks) /\ (shuffle = false -> concat parts = concat blocks).
Proof.
  intros H1 H2 H3 H4 H5 H6 H7 R1 R2 R3 R4.
  destruct (tokens_read isfile pickle rw rr k cb cs compress decompress block t0 ts docs H1 H2 H3 H4 H5 H6 H7) as (x & o & groups & blocks & P1 & P2 & P3 & _ & P5 & P6 & P7).
  destruct (epoch_blocks o k (concat blocks) P6 P7 rng shuffle W seed nw B epoch R1 R2 R3 R4) as (a & parts & Q).
  exists x, o, groups, blocks, a, parts. repeat (apply conj; [assumption|]). exact Q.
Qed.
Print Assumptions C173_epoch_partial.

(** Four documents of 3, 1, 4 and 2 tokens of two bytes, chunks of at most 5 tokens, blocks of 2. *)
Definition i16 := Torch I16.
Definition tok (n : N) : token := [n; 0%N].
Definition four_docs : list (list token) := [map tok [1; 2; 3]; map tok [4]; map tok [5; 6; 7; 8]; map tok [9; 10]]%N.
Definition as_samples (k : tkind) (docs : list (list token)) : list (tree leaf) := map (fun d => Leaf (array k d)) docs.
Definition blocks_via (cs block : nat) (ts : list (tree leaf)) (is : list Z) : res (list leaf) :=
  bind (write_tokens no_file no_pickle nobody None (Some cs) plain ts) (fun x =>
  bind (open_tokens nobody block unplain x) (fun o => mapM (get_block o) is)).
Example C173_case :
  plain_kind i16 /\ codec_ok plain unplain /\ Forall (document i16) four_docs /\
  Forall2 (fun t doc => leaves t = [array i16 doc]) (as_samples i16 four_docs) four_docs /\
  tree_plain nobody nobody (hd (Leaf (LInt 0)) (as_samples i16 four_docs)) /\
  blocks_via 5 2 (as_samples i16 four_docs) [0; 1; 2; 3; 4]%Z =
    Ok (map (array i16) [map tok [1; 2]; map tok [3; 4]; map tok [5; 6]; map tok [7; 8]; map tok [9; 10]]%N) /\
  blocks_via 5 3 (as_samples i16 four_docs) [1; 0]%Z = Ok (map (array i16) [map tok [5; 6; 7]; map tok [1; 2; 3]]%N) /\
  blocks_via 5 2 (as_samples i16 four_docs) [5]%Z = Err ValueError.
Proof.
  split; [discriminate|]. split; [intros d; reflexivity|].
  split; [repeat constructor; discriminate|]. split; [repeat constructor|]. split; [repeat constructor|].
  repeat (apply conj; [vm_compute; reflexivity|]). vm_compute. reflexivity.
Qed.

(** Not for samples with more than the tokens: the rest is dropped without an error. *)
Theorem C173_fields_refuted : exists t u x, t <> u /\
  write_tokens no_file no_pickle nobody None (Some 5) plain [t] = Ok x /\ write_tokens no_file no_pickle nobody None (Some 5) plain [u] = Ok x /\
  exists o b, open_tokens nobody 2 unplain x = Ok o /\ get_block o 0 = Ok b.
Proof.
  exists (Node NTuple [Leaf (array i16 (map tok [1; 2; 3]%N)); Leaf (array i16 (map tok [4; 4]%N))]),
         (Node NTuple [Leaf (array i16 (map tok [1; 2; 3]%N)); Leaf (array i16 (map tok [5]%N))]).
  eexists. split; [discriminate|]. split; [vm_compute; reflexivity|]. split; [vm_compute; reflexivity|].
  do 2 eexists. split; vm_compute; reflexivity.
Qed.
Print Assumptions C173_fields_refuted.

(** Nor if the dtype of the documents changes: the bytes are read in the dtype of the first. *)
Theorem C173_dtypes_refuted : exists d1 d2,
  document (Torch I16) d1 /\ document (Torch I32) d2 /\ length d1 + length d2 = 4 /\
  blocks_via 10 2 [Leaf (array (Torch I16) d1); Leaf (array (Torch I32) d2)] [0; 1]%Z =
    Ok [array (Torch I16) d1; array (Torch I16) (map tok [7; 0]%N)] /\
  d2 = [[7; 0; 0; 0]; [8; 0; 0; 0]]%N.
Proof.
  exists (map tok [1; 2]%N), [[7; 0; 0; 0]; [8; 0; 0; 0]]%N.
  split; [split; [discriminate|repeat constructor]|]. split; [split; [discriminate|repeat constructor]|].
  repeat (apply conj; [vm_compute; reflexivity|]). reflexivity.
Qed.
Print Assumptions C173_dtypes_refuted.

(** Nor with empty documents: if one comes first the dataset is written and cannot be opened, if one comes later
    the chunks are not closed any more (C18) and the writer may fail. *)
Theorem C173_empty_refuted : exists docs docs',
  Forall (Forall (fun t => length t = width i16)) docs /\ Forall (Forall (fun t => length t = width i16)) docs' /\
  (exists x, write_tokens no_file no_pickle nobody None (Some 3) plain (as_samples i16 docs) = Ok x /\ open_tokens nobody 2 unplain x = Err TypeError) /\
  hd [] docs' <> [] /\ write_tokens no_file no_pickle nobody None (Some 3) plain (as_samples i16 docs') = Err AssertionError.
Proof.
  exists [[]; map tok [1; 2; 3]]%N, [map tok [1; 2; 3]; []; map tok [4; 5]; map tok [6; 7; 8]]%N.
  split; [repeat constructor|]. split; [repeat constructor|].
  split; [eexists; split; vm_compute; reflexivity|]. split; [discriminate|]. vm_compute; reflexivity.
Qed.
Print Assumptions C173_empty_refuted.

(** Nor for documents of two dimensions after a first of one: only as many tokens as they have rows are counted. *)
Theorem C173_shape_refuted : exists t,
  blocks_via 10 2 [Leaf (array i16 (map tok [1; 2]%N)); Leaf t; Leaf (array i16 (map tok [9; 10]%N))] [0; 1; 2]%Z =
    Ok (map (array i16) [map tok [1; 2]; map tok [3; 4]; map tok [5; 6]]%N) /\
  blocks_via 10 2 [Leaf (array i16 (map tok [1; 2]%N)); Leaf t; Leaf (array i16 (map tok [9; 10]%N))] [3]%Z = Err ValueError /\
  t = LTensor I16 [2; 4]%N (concat (map tok [3; 4; 5; 6; 7; 8; 7; 8]%N)).
Proof. eexists. split; [|split; [|reflexivity]]; vm_compute; reflexivity. Qed.
Print Assumptions C173_shape_refuted.
