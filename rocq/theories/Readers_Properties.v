(** Theorems about readers: Parquet files (C52), a StreamingDataLoader as input (C103). *)
From Coq Require Import String NArith Permutation Lia.
From Verif Require Import Base Names_Model Paths_Model Tree_Model Assign_Model Assign_Spec Distrib_Model
     Readers_Model Readers_Proofs.
Local Open Scope list_scope.
Local Open Scope nat_scope.

(** C52: reading the pieces in the order in which they are handed out gives the rows of all
    files in order; every piece holds rows of one file, at least one and at most [n] of
    them; no file that existed is changed.  Holds for files of different names (or of
    the same name and the same rows) and a cache that is fresh or holds, under the name
    of a piece, the rows that the name says. *)
Theorem C52_pieces_partial {R} cf n files (rows : str -> list R) d :
  1 <= n ->
  (forall f, In f files -> d f = Some (Table (rows f))) ->
  (forall f g, In f files -> In g files -> basename f = basename g -> rows f = rows g) ->
  (forall f s e c, In f files -> d (piece_path cf n f (s, e)) = Some c -> c = Table (firstn (e - s) (skipn s (rows f)))) ->
  exists d' items parts, remap_files cf n files d None = (d', Ok items) /\
    mapM (read_rows d') items = Ok parts /\
    concat parts = flat_map rows files /\
    Forall (fun part => 1 <= length part <= n /\ exists f before after, In f files /\ rows f = before ++ part ++ after) parts /\
    (forall p c, d p = Some c -> d' p = Some c).
Proof.
  intros Hn I N C.
  destruct (remap_ok cf n files rows Hn N files d (incl_refl _) I (fun f se c Hf => match se with (s, e) => C f s e c Hf end))
    as (d' & items & E & M & _ & _ & K).
  exists d', items, (flat_map (fun f => pieces n (rows f)) files).
  split; [exact E|]. split; [exact M|]. split; [apply concat_flat_pieces; exact Hn|]. split; [|exact K].
  apply Forall_forall. intros part H. apply in_flat_map in H. destruct H as (f & Hf & H).
  destruct (piece_in n (rows f) part Hn H) as (L & b & a & Ea). split; [exact L|]. exists f, b, a. auto.
Qed.
Print Assumptions C52_pieces_partial.

Example C52_case :
  let a := codes "/data/a.parquet" in let b := codes "/data/b.parquet" in
  let d := pput (pput (fun _ => None) a (Table [1; 2; 3; 4; 5])) b (Table [6; 7]) in
  exists d' items, remap_files (codes "/cache") 2 [a; b] d None = (d', Ok items) /\
    nth 2 items [] = codes "/cache/2/4_5_a.parquet" /\
    mapM (read_rows d') items = Ok [[1; 2]; [3; 4]; [5]; [6; 7]].
Proof.
  cbv zeta.
  exists (fst (remap_files (codes "/cache") 2 [codes "/data/a.parquet"; codes "/data/b.parquet"]
    (pput (pput (fun _ => None) (codes "/data/a.parquet") (Table [1; 2; 3; 4; 5])) (codes "/data/b.parquet") (Table [6; 7])) None)),
    (map codes ["/cache/2/0_2_a.parquet"; "/cache/2/2_4_a.parquet"; "/cache/2/4_5_a.parquet"; "/cache/2/0_2_b.parquet"]%string).
  split; [|split; vm_compute; reflexivity].
  rewrite (surjective_pairing (remap_files _ _ _ _ _)) at 1; f_equal; vm_compute; reflexivity.
Qed.

(** C52: a second run over the same files, even with more files on the disk, returns the same items and writes nothing. *)
Theorem C52_second_run {R} cf n files (rows : str -> list R) d d' items d2 :
  1 <= n ->
  (forall f, In f files -> d f = Some (Table (rows f))) ->
  (forall f g, In f files -> In g files -> basename f = basename g -> rows f = rows g) ->
  (forall f s e c, In f files -> d (piece_path cf n f (s, e)) = Some c -> c = Table (firstn (e - s) (skipn s (rows f)))) ->
  remap_files cf n files d None = (d', Ok items) ->
  (forall f, In f files -> d2 f = Some (Table (rows f))) ->
  (forall p c, d' p = Some c -> d2 p = Some c) ->
  remap_files cf n files d2 None = (d2, Ok items).
Proof.
  intros Hn I N C E I2 K.
  exact (remap_again cf n files rows Hn N files d d' items (incl_refl _) I (fun f se c Hf => match se with (s, e) => C f s e c Hf end) E d2 I2 K).
Qed.
Print Assumptions C52_second_run.

Example C52_second_case :
  let f := codes "/data/a.parquet" in
  let d := pput (fun _ => None) f (Table [1; 2; 3]) in
  let r := remap_files (codes "/cache") 2 [f] d None in
  d (codes "/cache/2/0_2_a.parquet") = None /\ fst r (codes "/cache/2/0_2_a.parquet") = Some (Table [1; 2]) /\
  snd r = Ok (map codes ["/cache/2/0_2_a.parquet"; "/cache/2/2_3_a.parquet"]%string) /\
  snd (remap_files (codes "/cache") 2 [f] (fst r) None) = snd r.
Proof. vm_compute. repeat split; reflexivity. Qed.

(** C52: with [num_rows = 0] a file makes the call fail, nothing is written. *)
Theorem C52_zero {R} cf f fs d (rows : list R) b : d f = Some (Table rows) -> remap_files cf 0 (f :: fs) d b = (d, Err ValueError).
Proof. intros E. cbn [remap_files]. unfold read_rows. rewrite E. reflexivity. Qed.
Print Assumptions C52_zero.

Example C52_zero_case : snd (remap_files (codes "/c") 0 [codes "/a"] (pput (fun _ => None) (codes "/a") (Table [1; 2])) None) = Err ValueError.
Proof. reflexivity. Qed.

(** C52: two files of the same name in different folders: the rows of the first are handed
    out twice, those of the second not at all. *)
Theorem C52_same_name_refuted : exists f g (ra rb : list nat) d, f <> g /\
  d f = Some (Table ra) /\ d g = Some (Table rb) /\ (forall p, starts (codes "/cache") p = true -> d p = None) /\
  exists d' items, remap_files (codes "/cache") 2 [f; g] d None = (d', Ok items) /\
    mapM (read_rows d') items = Ok [ra; ra] /\ ra <> rb.
Proof.
  exists (codes "/x/part.parquet"), (codes "/y/part.parquet"), [1; 2], [3; 4],
    (pput (pput (fun _ => None) (codes "/x/part.parquet") (Table [1; 2])) (codes "/y/part.parquet") (Table [3; 4])).
  split; [discriminate|]. split; [reflexivity|]. split; [reflexivity|]. split.
  { intros p H. unfold pput. destruct (list_eq_dec N.eq_dec p (codes "/y/part.parquet")) as [->|_]; [discriminate H|].
    destruct (list_eq_dec N.eq_dec p (codes "/x/part.parquet")) as [->|_]; [discriminate H|reflexivity]. }
  exists (fst (remap_files (codes "/cache") 2 [codes "/x/part.parquet"; codes "/y/part.parquet"]
    (pput (pput (fun _ => None) (codes "/x/part.parquet") (Table [1; 2])) (codes "/y/part.parquet") (Table [3; 4])) None)),
    [codes "/cache/2/0_2_part.parquet"; codes "/cache/2/0_2_part.parquet"].
  split; [rewrite (surjective_pairing (remap_files _ _ _ _ _)) at 1; f_equal; vm_compute; reflexivity|].
  split; [vm_compute; reflexivity|discriminate].
Qed.
Print Assumptions C52_same_name_refuted.

(** C52: the file gets new rows (as many as before) and the same cache is used again: the old rows are handed out. *)
Theorem C52_changed_file_refuted : exists f (old new : list nat) d d1 items1,
  d f = Some (Table old) /\ remap_files (codes "/cache") 2 [f] d None = (d1, Ok items1) /\
  exists d2 items, remap_files (codes "/cache") 2 [f] (pput d1 f (Table new)) None = (d2, Ok items) /\
    mapM (read_rows d2) items = Ok [old] /\ old <> new.
Proof.
  set (f := codes "/x/part.parquet"). set (d := pput (fun _ => None) f (Table [1; 2])).
  set (d1 := fst (remap_files (codes "/cache") 2 [f] d None)).
  exists f, [1; 2], [3; 4], d, d1, [codes "/cache/2/0_2_part.parquet"].
  split; [reflexivity|]. split; [rewrite (surjective_pairing (remap_files _ _ _ d None)) at 1; f_equal; vm_compute; reflexivity|].
  exists (fst (remap_files (codes "/cache") 2 [f] (pput d1 f (Table [3; 4])) None)), [codes "/cache/2/0_2_part.parquet"].
  split; [rewrite (surjective_pairing (remap_files _ _ _ (pput d1 _ _) None)) at 1; f_equal; vm_compute; reflexivity|].
  split; [vm_compute; reflexivity|discriminate].
Qed.
Print Assumptions C52_changed_file_refuted.

(** C52: the process is killed while it writes a piece: the next run, which is not
    disturbed, hands the unfinished file out and reading it fails. *)
Theorem C52_killed_refuted : exists f (rows : list nat) d d1 e,
  d f = Some (Table rows) /\ remap_files (codes "/cache") 2 [f] d (Some 1) = (d1, Err e) /\
  exists d2 items, remap_files (codes "/cache") 2 [f] d1 None = (d2, Ok items) /\
    mapM (read_rows d2) items = Err GenericException.
Proof.
  set (f := codes "/x/part.parquet"). set (d := pput (fun _ => None) f (Table [1; 2; 3; 4])).
  set (d1 := fst (remap_files (codes "/cache") 2 [f] d (Some 1))).
  exists f, [1; 2; 3; 4], d, d1, GenericException.
  split; [reflexivity|]. split; [rewrite (surjective_pairing (remap_files _ _ _ d (Some 1))) at 1; f_equal; vm_compute; reflexivity|].
  exists (fst (remap_files (codes "/cache") 2 [f] d1 None)), [codes "/cache/2/0_2_part.parquet"; codes "/cache/2/2_4_part.parquet"].
  split; [rewrite (surjective_pairing (remap_files _ _ _ d1 None)) at 1; f_equal; vm_compute; reflexivity|].
  vm_compute; reflexivity.
Qed.
Print Assumptions C52_killed_refuted.

(** Killed at the first, second and third of two pieces: the pieces before it are complete. *)
Example C52_killed_case :
  let f := codes "/x/part.parquet" in let d := pput (fun _ => None) f (Table [1; 2; 3; 4]) in
  let left k := let '(d1, r) := remap_files (codes "/cache") 2 [f] d (Some k) in
    (r, d1 (codes "/cache/2/0_2_part.parquet"), d1 (codes "/cache/2/2_4_part.parquet")) in
  left 0 = (Err GenericException, Some Torn, None) /\ left 1 = (Err GenericException, Some (Table [1; 2]), Some Torn) /\
  left 2 = (Ok [codes "/cache/2/0_2_part.parquet"; codes "/cache/2/2_4_part.parquet"], Some (Table [1; 2]), Some (Table [3; 4])).
Proof. cbv zeta. repeat (apply conj; [vm_compute; reflexivity|]). vm_compute. reflexivity. Qed.

(** C103: a job over a StreamingDataLoader either hands every sample of the dataset to the
    function exactly once or fails; with [K] batches over [W] workers of the job it
    succeeds exactly if there is one worker, or [K mod W = 1], or [W] divides [K]
    and all batches are full. *)
Theorem C103_loader_input_partial W L B indexes ivs :
  1 <= W -> 1 <= L -> 1 <= B -> length indexes = length ivs ->
  let N := length (dataset_samples indexes ivs) in
  let K := (N + B - 1) / B in
  (forall out, loader_job W L B indexes ivs = Ok out ->
     length out = W /\ Permutation (concat (concat out)) (dataset_samples indexes ivs)) /\
  ((exists out, loader_job W L B indexes ivs = Ok out) <-> W = 1 \/ K mod W = 1 \/ (K mod W = 0 /\ N mod B = 0)) /\
  (forall e, loader_job W L B indexes ivs = Err e -> e = StopIteration).
Proof. exact (loader_job_full W L B indexes ivs). Qed.
Print Assumptions C103_loader_input_partial.

Example C103_case : exists out, loader_job 2 2 2 [2; 0; 1] [Iv 0 0 4 4; Iv 4 4 9 9; Iv 9 9 12 12] = Ok out /\
  map (map (@length _)) out = [[2; 2; 2]; [2; 2; 2]] /\
  concat (nth 0 out []) = [(2, 0); (2, 1); (2, 2); (2, 3); (0, 4); (0, 5)].
Proof. eexists; split; [vm_compute; reflexivity|split; reflexivity]. Qed.

(** C103: 11 samples in batches of 2 over two workers: the job fails. *)
Theorem C103_fails_refuted : exists W L B indexes ivs, 1 <= W /\ 1 <= L /\ 1 <= B /\ length indexes = length ivs /\
  length (dataset_samples indexes ivs) = 11 /\ B = 2 /\ W = 2 /\ loader_job W L B indexes ivs = Err StopIteration.
Proof. exists 2, 1, 2, [0], [Iv 0 0 11 11]. repeat split; try lia; vm_compute; reflexivity. Qed.
Print Assumptions C103_fails_refuted.
