(** Properties C110 to C113: cache directories of remote datasets. *)
From Coq Require Import String NArith.
From Verif Require Import Base Names_Model Size_Model Paths_Model Paths_Proofs Fresh_Model Fresh_Spec Fresh_Proofs.
Local Open Scope list_scope.
Local Open Scope nat_scope.

(** C110: a dataset that is opened is read in the version that is stored at its url at this moment, whatever was published,
    opened and cached before, as long as no other version is published there.  Partial: every version has its own timestamp. *)
Theorem C110_partial hash updated_at st es1 root url es2 index files :
  ordinary hash url (es1 ++ Open root url None :: es2) -> stamps_differ updated_at (st url) (versions url es1) ->
  versions url es2 = [] ->
  store (steps hash updated_at (new_world st) es1) url = files -> files index_name = Some index ->
  let w1 := steps hash updated_at (new_world st) es1 in
  let w := steps hash updated_at (new_world st) (es1 ++ Open root url None :: es2) in
  exists h, nth_error (handles w) (length (handles w1)) = Some h /\ h_url h = url /\ h_index h = index /\
    forall name, result (read_file w h name) = file_of files name.
Proof. intros H1 H2. apply current; [exact H1|apply stamps_names, H2]. Qed.
Print Assumptions C110_partial.

(** Examples: a digest that marks its argument, indexes whose first byte tells whether a timestamp follows. *)
Definition example_hash (s : str) : str := codes "h" ++ s.
Definition example_stamp (index : list N) : option str := match index with 1%N :: s => Some s | _ => None end.
Definition example_version (index : list N) (data : list N) : folder :=
  fun name => if list_eq_dec N.eq_dec name index_name then Some index
              else if list_eq_dec N.eq_dec name (codes "chunk-0-0.bin") then Some data else None.
Definition u1 : str := codes "s3://b/x".
Definition chunk0 : str := codes "chunk-0-0.bin".

Example C110_example :
  let es1 := [Publish u1 (example_version (1%N :: codes "10") [1]%N); Open 0 u1 None; Read 0 chunk0;
              Publish u1 (example_version (1%N :: codes "20") [2]%N); Read 0 chunk0] in
  let es2 := [Open 0 u1 None; Read 0 chunk0; Read 1 chunk0] in
  let w := steps example_hash example_stamp (new_world (fun _ _ => None)) (es1 ++ Open 0 u1 None :: es2) in
  ordinary example_hash u1 (es1 ++ Open 0 u1 None :: es2) /\ stamps_differ example_stamp (fun _ => None) (versions u1 es1) /\
  versions u1 es2 = [] /\
  match nth_error (handles w) 1 with
  | Some h => h_index h = 1%N :: codes "20" /\ result (read_file w h chunk0) = Ok [2]%N
  | None => False
  end.
Proof.
  intros es1 es2 w. split.
  { split; [intros u Hu _; assert (H : Forall (fun u => u = u1) (flat_map url_of (es1 ++ Open 0 u1 None :: es2))) by repeat constructor; rewrite Forall_forall in H; apply H, Hu|]. intros root i H. cbn in H. intuition discriminate. }
  split.
  { split; [left; reflexivity|]. split.
    - repeat constructor; [exists (codes "10")|exists (codes "20")]; (split; [reflexivity|discriminate]).
    - vm_compute. repeat constructor; cbn; intuition discriminate. }
  split; [reflexivity|]. vm_compute. split; reflexivity.
Qed.

(** Without a timestamp the old version is read for ever: such an index is written by [merge_datasets]. *)
Theorem C110_refuted : exists hash updated_at url v1 v2,
  written_stamp updated_at v1 = None /\ written_stamp updated_at v2 = None /\
  let w := steps hash updated_at (new_world (fun _ _ => None))
             [Publish url v1; Open 0 url None; Read 0 chunk0; Publish url v2; Open 0 url None] in
  exists h, nth_error (handles w) 1 = Some h /\ h_url h = url /\ store w url = v2 /\
    v2 chunk0 = Some [2]%N /\ result (read_file w h chunk0) = Ok [1]%N.
Proof.
  exists example_hash, example_stamp, u1, (example_version [0]%N [1]%N), (example_version [0]%N [2]%N).
  split; [reflexivity|]. split; [reflexivity|]. eexists. split; [vm_compute; reflexivity|]. repeat split.
Qed.
Print Assumptions C110_refuted.

(** C111: an open dataset stays in its version if nothing is published at its url ([C110_partial]).  Otherwise
    chunks that were not cached yet come from the new version, while the index is the old one, *)
Theorem C111_refuted : exists hash updated_at url v1 v2,
  stamps_differ updated_at (fun _ => None) [v1; v2] /\
  let w := steps hash updated_at (new_world (fun _ _ => None)) [Publish url v1; Open 0 url None; Publish url v2] in
  exists h, nth_error (handles w) 0 = Some h /\ v1 index_name = Some (h_index h) /\ v2 index_name <> Some (h_index h) /\
    v1 chunk0 = Some [1]%N /\ result (read_file w h chunk0) = Ok [2]%N.
Proof.
  exists example_hash, example_stamp, u1, (example_version (1%N :: codes "10") [1]%N), (example_version (1%N :: codes "20") [2]%N).
  split.
  { split; [left; reflexivity|]. split.
    - repeat constructor; [exists (codes "10")|exists (codes "20")]; (split; [reflexivity|discriminate]).
    - vm_compute. repeat constructor; cbn; intuition discriminate. }
  eexists. split; [vm_compute; reflexivity|]. repeat split. discriminate.
Qed.
Print Assumptions C111_refuted.

(** and when anybody opens the new version, the chunks that were cached are gone too. *)
Theorem C111_removed_refuted : exists hash updated_at url v1 v2,
  stamps_differ updated_at (fun _ => None) [v1; v2] /\
  let es := [Publish url v1; Open 0 url None; Read 0 chunk0; Publish url v2] in
  let w1 := steps hash updated_at (new_world (fun _ _ => None)) es in
  let w2 := steps hash updated_at (new_world (fun _ _ => None)) (es ++ [Open 0 url None]) in
  exists h, nth_error (handles w1) 0 = Some h /\ result (read_file w1 h chunk0) = file_of v1 chunk0 /\
    result (read_file w2 h chunk0) = Err FileNotFoundError.
Proof.
  exists example_hash, example_stamp, u1, (example_version (1%N :: codes "10") [1]%N), (example_version (1%N :: codes "20") [2]%N).
  split.
  { split; [left; reflexivity|]. split.
    - repeat constructor; [exists (codes "10")|exists (codes "20")]; (split; [reflexivity|discriminate]).
    - vm_compute. repeat constructor; cbn; intuition discriminate. }
  eexists. split; [vm_compute; reflexivity|]. repeat split.
Qed.
Print Assumptions C111_removed_refuted.

(** C112: opening a dataset does not change what is read from another dataset that is open.  Partial: the other one has another
    url or another cache directory. *)
Theorem C112_partial hash updated_at st es root url given g name :
  let w := steps hash updated_at (new_world st) es in
  In g (handles w) -> h_root g <> root \/ hash (h_url g) <> hash url ->
  result (read_file (step hash updated_at w (Open root url given)) g name) = result (read_file w g name).
Proof. apply open_undisturbed. Qed.
Print Assumptions C112_partial.

Example C112_example :
  let w := steps example_hash example_stamp (new_world (fun _ => example_version (1%N :: codes "10") [1]%N))
             [Open 0 u1 None; Read 0 chunk0; Open 0 (codes "s3://b/y") None; Open 1 u1 None] in
  exists g, nth_error (handles w) 0 = Some g /\ h_root g = 0 /\ example_hash (h_url g) <> example_hash (codes "s3://b/z") /\
  result (read_file (step example_hash example_stamp w (Open 0 (codes "s3://b/z") None)) g chunk0) = Ok [1]%N.
Proof. eexists. split; [vm_compute; reflexivity|]. repeat split. discriminate. Qed.

(** Two datasets over the same url, each with an index of its own (say two selections of its Parquet files): opening the second
    one removes the files of the first. *)
Theorem C112_refuted : exists hash updated_at st url i1 i2,
  let w1 := steps hash updated_at (new_world st) [Open 0 url (Some i1); Read 0 chunk0] in
  let w2 := step hash updated_at w1 (Open 0 url (Some i2)) in
  exists h, nth_error (handles w1) 0 = Some h /\ result (read_file w1 h chunk0) = Ok [1]%N /\
    result (read_file w2 h chunk0) = Err FileNotFoundError.
Proof.
  exists example_hash, example_stamp, (fun _ => example_version [0]%N [1]%N), u1, (1%N :: codes "10"), (1%N :: codes "20").
  eexists. split; [vm_compute; reflexivity|]. split; reflexivity.
Qed.
Print Assumptions C112_refuted.

Lemma starts_false a b s : (exists r, a = b ++ r) -> starts b s = false -> starts a s = false.
Proof.
  intros [r ->] H. destruct (starts (b ++ r) s) eqn:E; [|reflexivity]. rewrite <- H. symmetry. apply starts_iff in E. destruct E as [t ->].
  rewrite <- app_assoc. apply starts_app.
Qed.
Lemma outside p path : starts (codes p) path = false -> in_folder p path = false.
Proof. intros H. unfold in_folder. rewrite H. reflexivity. Qed.

(** C113: a directory of this machine with a dataset can be opened.  Partial: outside of the mounted folders of the platform
    (and in its other folders only if the platform answers). *)
Theorem C113_partial platform local remote path index :
  path <> [] -> local path index_name = Some index ->
  existsb (fun p => starts (codes p) path)
    ["/teamspace/datasets/"; "/teamspace/s3_connections/"; "/teamspace/s3_folders/"; "/teamspace/gcs_folders/"; "/teamspace/gcs_connections/"]%string = false ->
  starts (codes "/teamspace/") path = false \/ path = codes "/teamspace/studios" \/ (exists url, platform path = Ok url) ->
  open_path platform local remote path = Ok index.
Proof.
  intros Hp Hl Hn Hpl. unfold open_path.
  assert (E : exists u, resolve_path platform path = Ok (path, u)).
  { unfold resolve_path. destruct (starts (codes "/teamspace/studios/this_studio") path); [eexists; reflexivity|]. destruct Hpl as [Hpl|[->|[u ->]]]; [|eexists; reflexivity|].
    - rewrite !outside by (apply starts_false with (b := codes "/teamspace/"); [eexists; reflexivity|exact Hpl]). eexists. reflexivity.
    - destruct (_ || _); eexists; reflexivity. }
  destruct E as [u ->]. cbn [bind fst snd]. unfold should_replace_path. destruct path as [|a path]; [congruence|]. rewrite Hn, Hl. reflexivity.
Qed.
Print Assumptions C113_partial.

Lemma split_some c s : split c s <> [].
Proof. destruct s as [|x s]; cbn; [discriminate|]. destruct (x =? c)%N; [discriminate|]. destruct (split c s); discriminate. Qed.

(** The mounted folders that the platform resolves are read from the url that it names. *)
Theorem C113_mounted platform local remote path url index :
  (exists p rest, In p ["/teamspace/datasets/"; "/teamspace/s3_connections/"; "/teamspace/s3_folders/"]%string /\ path = codes p ++ rest) ->
  platform path = Ok url -> remote url index_name = Some index ->
  open_path platform local remote path = Ok index.
Proof.
  intros (p & rest & Hin & ->) Hpl Hr.
  assert (E : resolve_path platform (codes p ++ rest) = Ok (codes p ++ rest, Some url) /\ should_replace_path (codes p ++ rest) = true).
  { assert (H : Forall (fun p => forall rest, (platform (codes p ++ rest) = Ok url -> resolve_path platform (codes p ++ rest) = Ok (codes p ++ rest, Some url))
       /\ should_replace_path (codes p ++ rest) = true) ["/teamspace/datasets/"; "/teamspace/s3_connections/"; "/teamspace/s3_folders/"]%string).
    { repeat apply Forall_cons; [| | |constructor]; intros rest'; (split; [|reflexivity]); intros Hu; unfold resolve_path, in_folder;
      pose proof (split_some slash rest') as Hs; rewrite Hu; cbn; destruct (split slash rest'); [congruence|reflexivity| |reflexivity| |reflexivity]; congruence. }
    rewrite Forall_forall in H. destruct (H p Hin rest) as [H1 H2]. split; [apply H1, Hpl|exact H2]. }
  destruct E as [E1 E2]. unfold open_path. rewrite E1. cbn [bind fst snd]. rewrite E2, Hr. reflexivity.
Qed.
Print Assumptions C113_mounted.

Example C113_mounted_example :
  open_path (fun p => Ok (codes "s3://b")) (fun _ _ => None) (fun u => if list_eq_dec N.eq_dec u (codes "s3://b") then example_version [7]%N [1]%N else fun _ => None)
    (codes "/teamspace/s3_folders/team/x") = Ok [7]%N.
Proof. vm_compute. reflexivity. Qed.

Example C113_example :
  let local := fun p => if list_eq_dec N.eq_dec p (codes "/data/x") then example_version [0]%N [1]%N else fun _ => None in
  open_path (fun _ => Err RuntimeError) local (fun _ _ => None) (codes "/data/x") = Ok [0]%N /\
  open_path (fun p => Ok (codes "s3://b")) local (fun _ _ => None) (codes "/data/y") = Err ValueError.
Proof. split; vm_compute; reflexivity. Qed.

(** A dataset in a mounted GCS folder is not found although its index is there: the path is replaced by an empty cache
    directory, and there is no url to fetch the index from. *)
Theorem C113_refuted : exists path local,
  local path index_name = Some [0]%N /\
  forall platform remote, open_path platform local remote path = Err ValueError.
Proof.
  exists (codes "/teamspace/gcs_folders/team/data"), (fun _ => example_version [0]%N [1]%N).
  split; [reflexivity|]. intros platform remote. vm_compute. reflexivity.
Qed.
Print Assumptions C113_refuted.
