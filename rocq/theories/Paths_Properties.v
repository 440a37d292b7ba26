(** Theorems about input files, their cached copies and uploaded outputs (C92-C95). *)
From Coq Require Import String NArith Permutation Lia.
From Verif Require Import Base Names_Model Size_Model Paths_Model Paths_Spec Paths_Proofs.
Local Open Scope list_scope.
Local Open Scope nat_scope.

(** C92: if the files of all inputs, symbolic links resolved, are in the input directory,
    then whatever is fetched, removed and cleaned up, in whatever order, no file changes or
    disappears unless its path starts with the one of the cache directory. *)
Theorem C92_inputs_kept_partial input_dir cache_dir resolve isfile items es d f :
  input_dir <> [] ->
  (forall leaves e, In leaves items -> In e leaves -> isfile e = true -> starts input_dir (resolve e) = true) ->
  (forall e p, In e es -> path_of e = Some p ->
     exists leaves ps, In leaves items /\ item_paths resolve isfile leaves = Ok ps /\ In p ps) ->
  starts cache_dir f = false ->
  happens input_dir cache_dir d es f = d f.
Proof.
  intros Hin Hi He Hf. apply happens_outside; [exact Hin| |exact Hf].
  intros e p Ie Ep. destruct (He e p Ie Ep) as (leaves & ps & Il & Ek & Ip).
  unfold item_paths in Ek. destruct (filter isfile leaves) as [|x xs] eqn:F; [discriminate Ek|].
  injection Ek as Ek. rewrite <- Ek in Ip. change (In p (map resolve (x :: xs))) in Ip. apply in_map_iff in Ip. destruct Ip as (q & <- & Iq).
  rewrite <- F in Iq. apply filter_In in Iq. destruct Iq as (Iq & Fq). exact (Hi leaves q Il Iq Fq).
Qed.
Print Assumptions C92_inputs_kept_partial.

Definition only (p : str) (c : N) : disk := put (fun _ => None) p (Some c).
Example C92_case :
  let input_dir := codes "/data/raw" in let cache_dir := codes "/tmp/data" in
  let a := codes "/data/raw/a.jpg" in
  item_paths (fun p => p) (fun p => starts [slash] p) [a; codes "cat"] = Ok [a] /\
  item_given input_dir cache_dir (fun p => p) (fun p => starts [slash] p) [a; codes "cat"] = [codes "/tmp/data/a.jpg"; codes "cat"] /\
  let d1 := happens input_dir cache_dir (only a 7) [Cleanup; Fetch a None] in
  let d2 := happens input_dir cache_dir d1 [Drop a] in
  d1 (codes "/tmp/data/a.jpg") = Some 7%N /\ d2 (codes "/tmp/data/a.jpg") = None /\ d2 a = Some 7%N.
Proof. vm_compute. auto. Qed.

(** C92 is false when the input directory contains symbolic links to files outside of it:
    the files that they point to are deleted. *)
Theorem C92_symlink_refuted : exists input_dir cache_dir resolve isfile e ps es d c,
  starts (input_dir ++ [slash]) e = true /\ item_paths resolve isfile [e] = Ok ps /\
  (forall x p, In x es -> path_of x = Some p -> In p ps) /\
  starts cache_dir (resolve e) = false /\ d (resolve e) = Some c /\
  happens input_dir cache_dir d es (resolve e) = None.
Proof.
  exists (codes "/data/raw"), (codes "/tmp/data"), (fun _ => codes "/mnt/a.jpg"), (fun _ => true),
    (codes "/data/raw/a.jpg"), [codes "/mnt/a.jpg"], [Cleanup; Drop (codes "/mnt/a.jpg")], (only (codes "/mnt/a.jpg") 7), 7%N.
  split; [reflexivity|]. split; [reflexivity|]. split.
  - intros x p [<-|[<-|[]]]; cbn [path_of]; [discriminate|]. intros E. injection E as <-. left. reflexivity.
  - vm_compute. auto.
Qed.
Print Assumptions C92_symlink_refuted.

(** C92 is false when the name of the input directory merely starts like the one of the
    cache directory, by default /tmp/data: the inputs themselves are deleted. *)
Theorem C92_prefix_refuted : exists input_dir e es d c,
  under input_dir e = true /\ under (codes "/tmp/data") e = false /\
  (forall x p, In x es -> path_of x = Some p -> p = e) /\ d e = Some c /\
  happens input_dir (codes "/tmp/data") d es e = None.
Proof.
  exists (codes "/tmp/dataset"), (codes "/tmp/dataset/a.jpg"),
    [Cleanup; Fetch (codes "/tmp/dataset/a.jpg") None; Drop (codes "/tmp/dataset/a.jpg")], (only (codes "/tmp/dataset/a.jpg") 7), 7%N.
  split; [reflexivity|]. split; [reflexivity|]. split; [|vm_compute; auto].
  intros x p [<-|[<-|[<-|[]]]]; cbn [path_of]; intros E; [discriminate E|injection E as <-..]; reflexivity.
Qed.
Print Assumptions C92_prefix_refuted.

(** C92 is false when the input directory is in the cache directory. *)
Theorem C92_cleanup_refuted : exists input_dir cache_dir e d c,
  under input_dir e = true /\ d e = Some c /\ happens input_dir cache_dir d [Cleanup] e = None.
Proof.
  exists (codes "/tmp/data/raw"), (codes "/tmp/data"), (codes "/tmp/data/raw/a.jpg"), (only (codes "/tmp/data/raw/a.jpg") 7), 7%N.
  vm_compute. auto.
Qed.
Print Assumptions C92_cleanup_refuted.

(** C93: a file that the function given to map writes as [rel] into its directory is
    stored as [rel] in the output directory. *)
Theorem C93_relative_name_partial chunks_dir dir tmp rel :
  tmp <> [] -> starts [slash] tmp = true -> dir <> [] -> ends [slash] dir = false -> starts [slash] rel = false ->
  contains tmp (slash :: rel) = false ->
  contains (codes ".checkpoints") (tmp ++ slash :: rel) = false ->
  contains (codes ".checkpoints") (dir ++ slash :: rel) = false ->
  target chunks_dir dir (Some tmp) (tmp ++ slash :: rel) = dir ++ slash :: rel.
Proof. intros. apply target_map; assumption. Qed.
Print Assumptions C93_relative_name_partial.

Example C93_case :
  target (codes "/tmp/chunks") (codes "/out") (Some (codes "/tmp/tmpx1")) (codes "/tmp/tmpx1/train/a.jpg") = codes "/out/train/a.jpg".
Proof. reflexivity. Qed.

(** C93: a chunk that optimize writes is stored under its name. *)
Theorem C93_chunk_name chunks_dir dir sub name :
  dir <> [] -> ends [slash] dir = false -> (forall c, In c name -> c <> slash) ->
  contains (codes ".checkpoints") (chunks_dir ++ sub ++ slash :: name) = false ->
  contains (codes ".checkpoints") (dir ++ slash :: name) = false ->
  target chunks_dir dir None (chunks_dir ++ sub ++ slash :: name) = dir ++ slash :: name.
Proof. intros. apply target_chunk; assumption. Qed.
Print Assumptions C93_chunk_name.

Example C93_chunk_case :
  target (codes "/tmp/chunks") (codes "s3://b/out") None (codes "/tmp/chunks/x/chunk-0-1.bin") = codes "s3://b/out/chunk-0-1.bin".
Proof. reflexivity. Qed.

(** C93 is false when ".checkpoints" occurs in the name: two files are stored under the same
    other name, one of them is lost. *)
Theorem C93_checkpoints_refuted : exists chunks_dir dir tmp rel rel',
  rel <> rel' /\ starts [slash] rel = false /\ starts [slash] rel' = false /\
  contains tmp (slash :: rel) = false /\ contains tmp (slash :: rel') = false /\
  target chunks_dir dir (Some tmp) (tmp ++ slash :: rel) = target chunks_dir dir (Some tmp) (tmp ++ slash :: rel') /\
  target chunks_dir dir (Some tmp) (tmp ++ slash :: rel) <> dir ++ slash :: rel.
Proof.
  exists (codes "/tmp/chunks"), (codes "/out"), (codes "/tmp/tmpx1"),
    (codes "m.checkpoints/epoch-1-step-0000000000000000000100.ckpt"), (codes "m.checkpoints/epoch-2-step-0000000000000000000100.ckpt").
  split; [discriminate|]. split; [reflexivity|]. split; [reflexivity|]. split; [reflexivity|]. split; [reflexivity|].
  split; [vm_compute; reflexivity|vm_compute; discriminate].
Qed.
Print Assumptions C93_checkpoints_refuted.

(** C94: if no upload fails, all outputs are in the output directory with their contents
    when the worker ends, for every distribution of the files over the uploaders
    and every order of the uploads. *)
Theorem C94_uploaded_partial remote fails queues ws out p c :
  (forall u q, nth_error queues u = Some q -> forall j, j < length q -> fails u j = false) ->
  NoDup (map fst (concat queues)) ->
  Permutation ws (concat (map (fun u => uploader remote (fails u) 0 (nth u queues [])) (seq 0 (length queues)))) ->
  In (p, c) (concat queues) -> store ws out p = Some c.
Proof.
  intros Hf Hn Hp Hi.
  assert (E : map (fun u => uploader remote (fails u) 0 (nth u queues [])) (seq 0 (length queues)) = queues).
  { apply (nth_error_ext_map (fun u q => uploader remote (fails u) 0 q)). intros u q Hq. apply uploader_all. intros i Hi'. apply (Hf u q Hq). lia. }
  rewrite E in Hp. apply store_in.
  - apply (Permutation_NoDup (l := map fst (concat queues))); [|exact Hn]. apply Permutation_map, Permutation_sym, Hp.
  - eapply Permutation_in; [apply Permutation_sym; exact Hp|exact Hi].
Qed.
Print Assumptions C94_uploaded_partial.

Example C94_case :
  let a := codes "/out/a" in let b := codes "/out/b" in let c := codes "/out/c" in
  let d := store [(b, 2%N); (a, 1%N); (c, 3%N)] (fun _ => None) in
  Permutation [(b, 2%N); (a, 1%N); (c, 3%N)] (concat (map (fun u => uploader false (fun _ => false) 0 (nth u [[(a, 1%N); (c, 3%N)]; [(b, 2%N)]] [])) (seq 0 2))) /\
  d a = Some 1%N /\ d b = Some 2%N /\ d c = Some 3%N.
Proof. split; [|vm_compute; auto]. cbn. apply perm_trans with ((codes "/out/a", 1%N) :: (codes "/out/b", 2%N) :: [(codes "/out/c", 3%N)]); [apply perm_swap|apply perm_skip, perm_swap]. Qed.

(** C94 is false when an upload fails: to a remote directory that file is missing; to a local
    directory it and all later ones of that uploader.  The worker ends all the same. *)
Theorem C94_failed_upload_refuted : exists fails queue p c p' c',
  In (p, c) queue /\ In (p', c') queue /\ NoDup (map fst queue) /\
  store (uploader true fails 0 queue) (fun _ => None) p = None /\
  store (uploader true fails 0 queue) (fun _ => None) p' = Some c' /\
  store (uploader false fails 0 queue) (fun _ => None) p = None /\
  store (uploader false fails 0 queue) (fun _ => None) p' = None.
Proof.
  exists (fun j => j =? 0), [(codes "a", 1%N); (codes "b", 2%N)], (codes "a"), 1%N, (codes "b"), 2%N.
  split; [left; reflexivity|]. split; [right; left; reflexivity|]. split.
  - constructor; [intros [H|[]]; discriminate H|]. constructor; [intros []|constructor].
  - vm_compute. auto.
Qed.
Print Assumptions C94_failed_upload_refuted.

(** C95: the function gets, for each file of its input, a path in the cache directory;
    there it finds the content of that file, however many other files
    are fetched, before or after; as long as the path of the input directory
    occurs in the paths of the files only at the start. *)
Theorem C95_own_content_partial input_dir cache_dir resolve isfile d es leaves k e :
  input_dir <> [] ->
  (forall x, In x es -> exists q r, x = Fetch q None /\ q = input_dir ++ r /\ contains input_dir r = false /\ starts cache_dir q = false) ->
  nth_error leaves k = Some e -> isfile e = true -> In (Fetch (resolve e) None) es -> d (resolve e) <> None ->
  exists p, nth_error (item_given input_dir cache_dir resolve isfile leaves) k = Some p /\
            starts cache_dir p = true /\ happens input_dir cache_dir d es p = d (resolve e).
Proof.
  intros Hin Hes Hk Hf Hx Hd. destruct (Hes _ Hx) as (q & r & E & Eq & Hr & Hc). injection E as <-.
  exists (local_path input_dir cache_dir (resolve e)). split; [|split].
  - unfold item_given. rewrite (map_nth_error _ _ _ Hk), Hf. reflexivity.
  - apply local_start; [exact Hin|]. rewrite Eq. apply starts_app.
  - apply fetched; auto.
    + intros x Ix. destruct (Hes x Ix) as (q' & r' & -> & _). exists q'. reflexivity.
    + intros x q' Ix. destruct (Hes x Ix) as (q'' & r' & -> & E' & Hr' & Hc'). cbn [path_of]. intros E2. injection E2 as <-.
      split; [exists r'; auto|exact Hc'].
    + exists r. auto.
Qed.
Print Assumptions C95_own_content_partial.

Example C95_case :
  let a := codes "/data/raw/a" in let b := codes "/data/raw/b" in
  let d := happens (codes "/data/raw") (codes "/tmp/data") (put (only a 1) b (Some 2%N)) [Fetch b None; Fetch a None] in
  item_given (codes "/data/raw") (codes "/tmp/data") (fun p => p) (fun _ => true) [a; b] = [codes "/tmp/data/a"; codes "/tmp/data/b"] /\
  d (codes "/tmp/data/a") = Some 1%N /\ d (codes "/tmp/data/b") = Some 2%N.
Proof. vm_compute. auto. Qed.

(** C95: what is fetched for an input are its files, each, in their order; everything else of the input reaches the function as it is.
    An input without any file is refused. *)
Theorem C95_files_of_an_input input_dir cache_dir resolve isfile leaves :
  ((forall e, In e leaves -> isfile e = false) -> item_paths resolve isfile leaves = Err ValueError) /\
  ((exists e, In e leaves /\ isfile e = true) ->
     exists fs, item_paths resolve isfile leaves = Ok (map resolve fs) /\ (forall e, In e fs <-> In e leaves /\ isfile e = true) /\ sublist fs leaves) /\
  length (item_given input_dir cache_dir resolve isfile leaves) = length leaves /\
  (forall k e, nth_error leaves k = Some e -> isfile e = false -> nth_error (item_given input_dir cache_dir resolve isfile leaves) k = Some e).
Proof.
  split; [|split; [|split]].
  - intros H. unfold item_paths. destruct (filter isfile leaves) as [|x l] eqn:E; [reflexivity|]. exfalso.
    assert (Hx : In x (filter isfile leaves)) by (rewrite E; left; reflexivity). apply filter_In in Hx. destruct Hx as [H1 H2]. rewrite (H x H1) in H2. discriminate.
  - intros (e & He & Hf). exists (filter isfile leaves). split; [|split; [intros x; apply filter_In|apply filter_sublist]].
    unfold item_paths. destruct (filter isfile leaves) as [|x l] eqn:E; [|reflexivity]. exfalso.
    assert (Hx : In e (filter isfile leaves)) by (apply filter_In; auto). rewrite E in Hx. destruct Hx.
  - unfold item_given. apply map_length.
  - intros k e Hk Hf. unfold item_given. rewrite (map_nth_error _ _ _ Hk), Hf. reflexivity.
Qed.
Print Assumptions C95_files_of_an_input.

Example C95_files_case :
  let file := fun p => starts [slash] p in
  item_paths (fun p => p) file [codes "/d/a"; codes "cat"; codes "/d/b"] = Ok [codes "/d/a"; codes "/d/b"] /\
  item_given (codes "/d") (codes "/tmp") (fun p => p) file [codes "/d/a"; codes "cat"; codes "/d/b"] = [codes "/tmp/a"; codes "cat"; codes "/tmp/b"] /\
  item_paths (fun p => p) file [codes "cat"; codes "dog"] = Err ValueError.
Proof. vm_compute. auto. Qed.

(** C95 is false in general: the function finds the content of another input. *)
Theorem C95_collision_refuted : exists input_dir cache_dir d es a b,
  under input_dir a = true /\ under input_dir b = true /\ starts cache_dir a = false /\ starts cache_dir b = false /\
  es = [Fetch a None; Fetch b None] /\ d a <> d b /\ d a <> None /\
  happens input_dir cache_dir d es (local_path input_dir cache_dir a) = d b.
Proof.
  exists (codes "/d0"), (codes "/tmp/data"), (put (only (codes "/d0/x/d0/y") 1) (codes "/d0/x/tmp/data/y") (Some 2%N)),
    [Fetch (codes "/d0/x/d0/y") None; Fetch (codes "/d0/x/tmp/data/y") None], (codes "/d0/x/d0/y"), (codes "/d0/x/tmp/data/y").
  split; [reflexivity|]. split; [reflexivity|]. split; [reflexivity|]. split; [reflexivity|]. split; [reflexivity|].
  split; [|split]; vm_compute; [discriminate|discriminate|reflexivity].
Qed.
Print Assumptions C95_collision_refuted.
