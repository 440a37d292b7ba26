(** Properties C106 to C109: compressed chunks in the cache directory. *)
From Coq Require Import String NArith Lia.
From Verif Require Import Base Names_Model Size_Model Paths_Model Paths_Proofs Unzip_Model Unzip_Spec Unzip_Proofs Unzip_Proofs2.
Local Open Scope list_scope.
Local Open Scope nat_scope.

(** C106: after any history of requests and deletions a chunk that was requested and not deleted since is found
    under the path from which it is read, inside the cache directory; nothing outside is touched.  Partial:
    the path of the cache directory does not contain the extension of the compressed files. *)
Theorem C106_partial c chunk d0 es1 i es2 :
  dataset_ok c chunk -> (forall comp, u_comp c = Some comp -> contains (dot :: comp) (u_cache c) = false) ->
  u_remote c = true \/ u_comp c <> None -> cache_ok c d0 ->
  events_ok c (es1 ++ Request i :: es2) -> ~ In (Delete i) es2 ->
  exists d log, handle_all c (d0, []) (es1 ++ Request i :: es2) = Ok (d, log) /\
    d (read_path c i) = Some (chunk i) /\ inside (u_cache c) (read_path c i) /\
    (forall p, ~ inside (u_cache c) p -> d p = d0 p).
Proof. apply unzip_reads. Qed.
Print Assumptions C106_partial.

(** A remote dataset with two chunks; a compressed file starts with the byte 9. *)
Definition example_unzip (cache : str) (comp : option str) (dir : str -> bool) : unzip :=
  Unzip cache comp true [(0, 0); (0, 1)]
    (fun i => match comp with Some _ => [9; N.of_nat i; 7]%N | None => [N.of_nat i; 7]%N end)
    (fun data => match data with 9%N :: r => Ok r | _ => Err RuntimeError end) dir.
Definition example_chunk (i : nat) : list N := [N.of_nat i; 7]%N.

Lemma example_dataset_ok cache comp : dir_name cache -> (forall s, comp = Some s -> comp_ok s) ->
  dataset_ok (example_unzip cache comp (fun _ => true)) example_chunk.
Proof.
  intros H1 H2. repeat split; try apply H1.
  - cbn. repeat constructor; cbn; intuition discriminate.
  - destruct comp as [s|]; cbn [example_unzip u_comp]; [|reflexivity]. split; [apply H2; reflexivity|]. intros i _. reflexivity.
Qed.

Lemma zstd_ok : comp_ok (codes "zstd").
Proof. split; [cbn; intuition discriminate|reflexivity]. Qed.

Example C106_example :
  let c := example_unzip (codes "/d/a") (Some (codes "zstd")) (fun _ => true) in
  dataset_ok c example_chunk /\ contains (codes ".zstd") (u_cache c) = false /\
  cache_ok c (fun _ => None) /\ events_ok c [Request 0; Delete 0; Request 1; Request 0; Delete 1] /\
  match handle_all c (fun _ => None, []) [Request 0; Delete 0; Request 1; Request 0; Delete 1] with
  | Ok (d, log) => log = [0; 1; 0] /\ read_path c 0 = codes "/d/a/chunk-0-0.bin" /\ d (codes "/d/a/chunk-0-0.bin") = Some [0; 7]%N /\
      d (codes "/d/a/chunk-0-0.zstd.bin") = None /\ d (codes "/d/a/chunk-0-1.bin") = None
  | Err _ => False
  end.
Proof.
  intros c. split; [apply example_dataset_ok; [split; [discriminate|reflexivity]|intros s E; injection E as <-; apply zstd_ok]|].
  split; [reflexivity|]. split; [intros i _; cbn; auto|]. split; [repeat constructor|]. vm_compute. repeat split; reflexivity.
Qed.

(** If it does, the chunk is decompressed into another directory.  A file of another dataset that has the same name
    is then read in place of the chunk, *)
Theorem C106_other_dataset_refuted : exists c chunk d0 d log other,
  dataset_ok c chunk /\ cache_ok c (fun p => if list_eq_dec N.eq_dec p other then None else d0 p) /\
  ~ inside (u_cache c) other /\ handle_all c (d0, []) [Request 0] = Ok (d, log) /\
  read_path c 0 = other /\ d (read_path c 0) <> Some (chunk 0).
Proof.
  set (c := example_unzip (codes "/d/a.zstd") (Some (codes "zstd")) (fun _ => true)).
  set (other := codes "/d/a/chunk-0-0.bin").
  set (d0 := fun p => if list_eq_dec N.eq_dec p other then Some [5]%N else None).
  exists c, example_chunk, d0, (set_file d0 (chunk_file c 0) (Some (u_store c 0))), [0], other.
  split; [apply example_dataset_ok; [split; [discriminate|reflexivity]|intros s E; injection E as <-; apply zstd_ok]|].
  split. { intros i _. unfold d0. split; [|intros _]; destruct (list_eq_dec N.eq_dec _ other); reflexivity. }
  split; [intros [name E]; discriminate E|]. split; [vm_compute; reflexivity|]. split; [reflexivity|]. vm_compute. discriminate.
Qed.
Print Assumptions C106_other_dataset_refuted.

(** or, if there is no such directory, the request fails. *)
Theorem C106_refuted : exists c chunk,
  dir_name (u_cache c) /\ NoDup (u_chunks c) /\ (forall p, u_dir c p = true <-> inside (u_cache c) p) /\
  comp_ok (codes "zstd") /\ u_comp c = Some (codes "zstd") /\ u_decompress c (u_store c 0) = Ok (chunk 0) /\
  handle_all c (fun _ => None, []) [Request 0] = Err FileNotFoundError.
Proof.
  exists (example_unzip (codes "/d/a.zstd") (Some (codes "zstd")) (fun p => starts (codes "/d/a.zstd/") p)), example_chunk.
  split; [split; [discriminate|reflexivity]|]. split; [cbn; repeat constructor; cbn; intuition discriminate|].
  split; [|split; [apply zstd_ok|repeat split; vm_compute; reflexivity]].
  intros p. cbn [example_unzip u_dir u_cache]. rewrite starts_iff. split; intros [r ->]; exists r; reflexivity.
Qed.
Print Assumptions C106_refuted.

(** C107: without compression a chunk is downloaded at most once more than it is deleted. *)
Theorem C107_plain c chunk d0 es i :
  dataset_ok c chunk -> u_comp c = None -> u_remote c = true -> cache_ok c d0 -> events_ok c es -> i < length (u_chunks c) ->
  exists d log, handle_all c (d0, []) es = Ok (d, log) /\ count i log <= deletions i es + 1.
Proof.
  intros H Hn Hr Hc He Hi. pose proof (download_bound c chunk d0 es i H) as K. rewrite Hn in K. apply K; auto. discriminate.
Qed.
Print Assumptions C107_plain.

(** With compression at most twice more, however often it is requested. *)
Theorem C107_compressed_partial c chunk d0 es i :
  dataset_ok c chunk -> (forall comp, u_comp c = Some comp -> contains (dot :: comp) (u_cache c) = false) ->
  u_remote c = true -> cache_ok c d0 -> events_ok c es -> i < length (u_chunks c) ->
  exists d log, handle_all c (d0, []) es = Ok (d, log) /\ count i log <= deletions i es + 2.
Proof.
  intros H Hn Hr Hc He Hi. destruct (download_bound c chunk d0 es i H Hn Hr Hc He Hi) as (d & log & E & B).
  exists d, log. split; [exact E|]. destruct (u_comp c); lia.
Qed.
Print Assumptions C107_compressed_partial.

(** The second download happens: the chunk is in the cache, is requested again and downloaded again. *)
Theorem C107_refuted : exists c chunk d1 d2,
  dataset_ok c chunk /\ cache_ok c (fun _ => None) /\
  handle_all c (fun _ => None, []) [Request 0] = Ok (d1, [0]) /\ d1 (read_path c 0) = Some (chunk 0) /\
  handle_all c (fun _ => None, []) [Request 0; Request 0] = Ok (d2, [0; 0]).
Proof.
  set (c := example_unzip (codes "/d/a") (Some (codes "zstd")) (fun _ => true)).
  exists c, example_chunk,
    (set_file (set_file (set_file (fun _ => None) (chunk_file c 0) (Some (u_store c 0))) (chunk_file c 0) None) (read_path c 0) (Some (example_chunk 0))),
    (set_file (set_file (set_file (set_file (fun _ => None) (chunk_file c 0) (Some (u_store c 0))) (chunk_file c 0) None) (read_path c 0) (Some (example_chunk 0)))
       (chunk_file c 0) (Some (u_store c 0))).
  split; [apply example_dataset_ok; [split; [discriminate|reflexivity]|intros s E; injection E as <-; apply zstd_ok]|].
  split; [intros i _; cbn; auto|]. repeat split; vm_compute; reflexivity.
Qed.
Print Assumptions C107_refuted.

Example C107_example :
  let c := example_unzip (codes "/d/a") None (fun _ => true) in
  let es := [Request 0; Request 1; Request 0; Delete 0; Request 0; Request 0] in
  dataset_ok c example_chunk /\ cache_ok c (fun _ => None) /\ events_ok c es /\
  match handle_all c (fun _ => None, []) es with
  | Ok (d, log) => log = [0; 1; 0] /\ count 0 log = deletions 0 es + 1 /\ count 1 log = deletions 1 es + 1
  | Err _ => False
  end.
Proof.
  intros c es. split; [apply example_dataset_ok; [split; [discriminate|reflexivity]|discriminate]|].
  split; [intros i _; cbn; auto|]. split; [repeat constructor|]. vm_compute. repeat split; reflexivity.
Qed.

(** C108: a chunk that was deleted leaves no file, without compression after any history, *)
Theorem C108_plain c chunk d0 es1 i es2 :
  dataset_ok c chunk -> u_comp c = None -> u_remote c = true -> cache_ok c d0 ->
  events_ok c (es1 ++ Delete i :: es2) -> ~ In (Request i) es2 ->
  exists d log, handle_all c (d0, []) (es1 ++ Delete i :: es2) = Ok (d, log) /\
    d (read_path c i) = None /\ d (chunk_file c i) = None.
Proof. apply delete_plain. Qed.
Print Assumptions C108_plain.

(** with compression if it was requested once. *)
Theorem C108_compressed_partial c chunk d0 es1 i es2 es3 :
  dataset_ok c chunk -> (forall comp, u_comp c = Some comp -> contains (dot :: comp) (u_cache c) = false) ->
  u_remote c = true -> cache_ok c d0 ->
  events_ok c (es1 ++ Request i :: es2 ++ Delete i :: es3) ->
  Forall (fun e => about e <> i) es1 -> Forall (fun e => about e <> i) es2 -> Forall (fun e => about e <> i) es3 ->
  exists d log, handle_all c (d0, []) (es1 ++ Request i :: es2 ++ Delete i :: es3) = Ok (d, log) /\
    d (read_path c i) = None /\ d (chunk_file c i) = None.
Proof. apply delete_once. Qed.
Print Assumptions C108_compressed_partial.

(** If it was requested twice the compressed file stays. *)
Theorem C108_refuted : exists c chunk d log z,
  dataset_ok c chunk /\ cache_ok c (fun _ => None) /\
  handle_all c (fun _ => None, []) [Request 0; Request 0; Delete 0] = Ok (d, log) /\ d (chunk_file c 0) = Some z.
Proof.
  set (c := example_unzip (codes "/d/a") (Some (codes "zstd")) (fun _ => true)).
  exists c, example_chunk,
    (set_file (set_file (set_file (set_file (set_file (fun _ => None) (chunk_file c 0) (Some (u_store c 0))) (chunk_file c 0) None) (read_path c 0) (Some (example_chunk 0)))
       (chunk_file c 0) (Some (u_store c 0))) (read_path c 0) None), [0; 0], (u_store c 0).
  split; [apply example_dataset_ok; [split; [discriminate|reflexivity]|intros s E; injection E as <-; apply zstd_ok]|].
  split; [intros i _; cbn; auto|]. repeat split; vm_compute; reflexivity.
Qed.
Print Assumptions C108_refuted.

Example C108_example :
  let c := example_unzip (codes "/d/a") (Some (codes "zstd")) (fun _ => true) in
  let es := [Request 1] ++ Request 0 :: [Request 1; Delete 1] ++ Delete 0 :: [Request 1] in
  dataset_ok c example_chunk /\ contains (codes ".zstd") (u_cache c) = false /\ cache_ok c (fun _ => None) /\ events_ok c es /\
  match handle_all c (fun _ => None, []) es with
  | Ok (d, log) => d (codes "/d/a/chunk-0-0.bin") = None /\ d (codes "/d/a/chunk-0-0.zstd.bin") = None /\
      d (codes "/d/a/chunk-0-1.bin") = Some [1; 7]%N /\ d (codes "/d/a/chunk-0-1.zstd.bin") = None /\ log = [1; 0; 1]
  | Err _ => False
  end.
Proof.
  intros c es. split; [apply example_dataset_ok; [split; [discriminate|reflexivity]|intros s E; injection E as <-; apply zstd_ok]|].
  split; [reflexivity|]. split; [intros i _; cbn; auto|]. split; [repeat constructor|]. vm_compute. repeat split; reflexivity.
Qed.

(** C109: the size that is compared with [max_cache_size] is the size of the chunks in the cache, whatever
    part of each is on the disk already, and the size on the disk of other files of chunks (temporary ones and
    those of other datasets); counters, locks and the index do not count.  Partial: no files that end in .zstd.bin. *)
Theorem C109_partial comp chunks present temp aux :
  (forall s, comp = Some s -> comp_ok s) -> NoDup (map fst chunks) -> incl present chunks ->
  Forall (fun f => contains (codes ".bin") (fst f) = true /\
    existsb (fun x => ends (codes x) (fst f)) [".cnt"; ".lock"; ".json"; ".zstd.bin"]%string = false /\
    forall x, In x chunks -> fst f <> chunk_name None (fst (fst x)) (snd (fst x))) temp ->
  Forall (fun f => existsb (fun x => ends (codes x) (fst f)) [".cnt"; ".lock"; ".json"]%string = true) aux ->
  forall on_disk,
  folder_size (size_map comp chunks) (map (fun x => (chunk_name None (fst (fst x)) (snd (fst x)), on_disk x)) present ++ temp ++ aux) =
  sum (map snd present) + sum (map snd temp).
Proof. apply folder_exact. Qed.
Print Assumptions C109_partial.

(** Compressed files that stay (C108) are not counted, however large: the directory has any size while the size
    that is compared with the limit is 0. *)
Theorem C109_refuted : exists comp chunks (dir : nat -> list (str * nat)),
  comp_ok comp /\ NoDup (map fst chunks) /\
  forall n, (forall f, In f (dir n) -> exists x, In x chunks /\ fst f = chunk_name (Some comp) (fst (fst x)) (snd (fst x))) /\
    sum (map snd (dir n)) = n /\ folder_size (size_map (Some comp) chunks) (dir n) = 0.
Proof.
  exists (codes "zstd"), [((0, 0), 10); ((0, 1), 10)], (fun n => [(chunk_name (Some (codes "zstd")) 0 0, n)]).
  split; [apply zstd_ok|]. split; [repeat constructor; cbn; intuition discriminate|]. intros n.
  split. { intros f [<-|[]]. exists ((0, 0), 10). split; [left|]; reflexivity. }
  split; [cbn; lia|]. reflexivity.
Qed.
Print Assumptions C109_refuted.

Example C109_example :
  folder_size (size_map (Some (codes "zstd:4")) [((0, 0), 10); ((0, 1), 20); ((1, 0), 30)])
    [(codes "chunk-1-0.bin", 4); (codes "chunk-0-1.bin", 20); (codes "index.json", 99); (codes "chunk-0-1.bin.cnt", 1);
     (codes "chunk-0-1.bin.cnt.lock", 0)] = 50 /\
  folder_size (size_map None [((0, 0), 10); ((0, 1), 20); ((1, 0), 30)]) [(codes "chunk-1-0.bin", 4); (codes "chunk-7-0.bin", 3); (codes "chunk-0-0.bin.x7", 5)] = 38.
Proof. split; vm_compute; reflexivity. Qed.
