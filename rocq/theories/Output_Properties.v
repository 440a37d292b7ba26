(** Theorems about output directories (C47, C97-C101). *)
From Coq Require Import String NArith.
From Verif Require Import Base Names_Model Size_Model Paths_Model Paths_Proofs Output_Model Output_Spec Output_Proofs.
Local Open Scope list_scope.
Local Open Scope nat_scope.

(** C47: for a remote directory that is written with a trailing slash nothing outside of
    it is deleted. *)
Theorem C47_overwrite_partial p limit md use_checkpoint broken dir keys keys' k :
  ends [slash] dir = true -> check_remote p limit md use_checkpoint broken dir keys = Ok keys' ->
  In k keys -> starts dir k = false -> In k keys'.
Proof.
  intros _ H Hk Hs. unfold check_remote in H.
  destruct md; [|injection H as <-; exact Hk|]; (destruct (is_empty p dir keys); [injection H as <-; exact Hk|]).
  - destruct (exists_key _ _ _); [discriminate H|]. destruct use_checkpoint; injection H as <-; [exact Hk|]. apply delete_keeps; assumption.
  - injection H as <-. apply delete_keeps; assumption.
Qed.
Print Assumptions C47_overwrite_partial.

Definition bucket : list str := [codes "data/chunk-0-0.bin"; codes "data/index.json"; codes "data2/index.json"].
Example C47_case : check_remote S3 1000 Overwrite false false (codes "data/") bucket = Ok [codes "data2/index.json"].
Proof. vm_compute. reflexivity. Qed.

(** C47 is false without the trailing slash: another dataset whose name starts with the
    name of this one is deleted as well. *)
Theorem C47_sibling_refuted : exists dir keys k, ends [slash] dir = false /\ In k keys /\ starts (dir ++ [slash]) k = false /\
  forall p broken use_checkpoint, exists keys', check_remote p 1000 Overwrite use_checkpoint broken dir keys = Ok keys' /\ ~ In k keys'.
Proof.
  exists (codes "data"), bucket, (codes "data2/index.json"). split; [reflexivity|]. split; [right; right; left; reflexivity|]. split; [reflexivity|].
  intros p broken use_checkpoint. exists []. split; [destruct p, broken, use_checkpoint; vm_compute; reflexivity|intros []].
Qed.
Print Assumptions C47_sibling_refuted.

(** C97: after overwriting nothing of the old dataset is left; on S3 only if at most one page of
    objects (1000) was there. *)
Theorem C97_overwritten_partial p limit use_checkpoint broken dir d keys keys' k :
  names dir d -> p = GCP \/ length (filter (starts dir) keys) <= limit ->
  check_remote p limit Overwrite use_checkpoint broken dir keys = Ok keys' ->
  In k keys' -> starts (d ++ [slash]) k = false.
Proof.
  intros N Hp H Hk. unfold check_remote in H. destruct (starts (d ++ [slash]) k) eqn:S; [exfalso|reflexivity].
  destruct (is_empty p dir keys) eqn:E; injection H as <-.
  - rewrite (names_not_empty p dir d keys k N Hk S) in E. discriminate E.
  - pose proof (delete_all _ _ _ _ _ Hp Hk) as D. rewrite (names_starts _ _ _ N S) in D. discriminate D.
Qed.
Print Assumptions C97_overwritten_partial.

(** C97: in a local directory no index, no chunk and no checkpoint is left, all other files are. *)
Theorem C97_overwritten_local use_checkpoint f :
  exists f', check_local Overwrite use_checkpoint (Some f) = Ok (Some f') /\ fd_checkpoints f' = false /\
  forall n, In n (fd_files f') <-> In n (fd_files f) /\ n <> codes "index.json" /\ ends (codes ".bin") n = false.
Proof.
  eexists. split; [reflexivity|]. split; [reflexivity|]. intros n. cbn [fd_files]. rewrite !filter_In, !negb_true_iff, mem_false.
  unfold index_name. cbn [In]. split.
  - intros ((H1 & H2) & H3). split; [exact H1|]. split; [|exact H3]. intros ->. apply H2. left. reflexivity.
  - intros (H1 & H2 & H3). split; [|exact H3]. split; [exact H1|]. intros [E|[]]. apply H2. symmetry. exact E.
Qed.
Print Assumptions C97_overwritten_local.

Example C97_case :
  check_local Overwrite false (Some (Folder [codes "index.json"; codes "chunk-0-0.bin"; codes "README.md"] true)) = Ok (Some (Folder [codes "README.md"] false)) /\
  names (codes "data") (codes "data") /\
  check_remote GCP 1000 Overwrite false false (codes "data") bucket = Ok [].
Proof. split; [reflexivity|]. split; [split; [reflexivity|left; reflexivity]|reflexivity]. Qed.

(** C97 is false of S3 directories with more objects than a page: the index of the old dataset
    is kept although chunks that it lists are gone.  (Stated for every size of a page.) *)
Theorem C97_page_refuted : forall limit, exists dir keys keys' k,
  check_remote S3 limit Overwrite false false dir keys = Ok keys' /\
  starts (dir ++ [slash]) k = true /\ k = codes "data/index.json" /\ In k keys' /\ length keys = length keys' + limit.
Proof.
  intros limit. set (c := codes "data/chunk-0-0.bin"). set (i := codes "data/index.json").
  set (chunks := map (fun n => codes "data/chunk-0-" ++ dec n) (seq 0 limit)).
  assert (S1 : forall k, In k chunks -> starts (codes "data") k = true).
  { intros k H. apply in_map_iff in H. destruct H as (n & <- & _). reflexivity. }
  assert (N1 : ~ In i chunks).
  { intros H. apply in_map_iff in H. destruct H as (n & E & _). discriminate E. }
  assert (F : forall l, (forall k, In k l -> starts (codes "data") k = true) -> filter (starts (codes "data")) l = l).
  { induction l as [|x l IH]; intros H; [reflexivity|]. cbn [filter]. rewrite (H x (or_introl eq_refl)). f_equal. apply IH. intros k Hk. apply H. right. exact Hk. }
  assert (L : length chunks = limit) by (unfold chunks; rewrite map_length, seq_length; reflexivity).
  exists (codes "data"), (chunks ++ [i]), [i], i. split; [|split; [reflexivity|split; [reflexivity|split; [left; reflexivity|]]]].
  - unfold check_remote. rewrite (names_not_empty S3 (codes "data") (codes "data") (chunks ++ [i]) i);
      [|split; [reflexivity|left; reflexivity]|apply in_or_app; right; left; reflexivity|reflexivity].
    f_equal. unfold delete, listed. rewrite (F (chunks ++ [i])) by (intros k Hk; apply in_app_or in Hk; destruct Hk as [Hk|[<-|[]]]; [exact (S1 k Hk)|reflexivity]).
    rewrite <- L, firstn_app, firstn_all, Nat.sub_diag. cbn [firstn]. rewrite app_nil_r, filter_app.
    assert (Z : forall l, (forall k, In k l -> In k chunks) -> filter (fun k => negb (mem k chunks)) l = []).
    { induction l as [|x l IH]; intros H; [reflexivity|]. cbn [filter].
      rewrite (proj2 (mem_iff x chunks) (H x (or_introl eq_refl))). apply IH. intros k Hk. apply H. right. exact Hk. }
    rewrite Z by auto. cbn [filter app]. rewrite (proj2 (mem_false i chunks) N1). reflexivity.
  - rewrite app_length, L. cbn [length]. rewrite Nat.add_comm. reflexivity.
Qed.
Print Assumptions C97_page_refuted.

(** C98: without a mode an existing dataset is not touched, optimize raises; of a remote
    directory only if the request for the index does not fail. *)
Theorem C98_dataset_kept_partial p limit use_checkpoint dir d keys f :
  names dir d ->
  (In (d ++ slash :: codes "index.json") keys ->
     check_remote p limit NoMode use_checkpoint false dir keys = Err RuntimeError) /\
  (In (codes "index.json") (fd_files f) -> check_local NoMode use_checkpoint (Some f) = Err RuntimeError).
Proof.
  intros N. split; intros H.
  - unfold check_remote. rewrite (names_not_empty p dir d keys _ N H). 2:{ apply starts_iff. exists (codes "index.json"). rewrite <- app_assoc. reflexivity. }
    reflexivity.
  - unfold check_local. rewrite (proj2 (mem_iff index_name (fd_files f)) H). reflexivity.
Qed.
Print Assumptions C98_dataset_kept_partial.

Example C98_case : check_remote S3 1000 NoMode false false (codes "data") bucket = Err RuntimeError.
Proof. reflexivity. Qed.

(** C98 is false when the request for the index fails, for example of a lack of
    permission: the dataset is deleted. *)
Theorem C98_request_refuted : exists dir keys,
  In (dir ++ slash :: codes "index.json") keys /\ forall p, check_remote p 1000 NoMode false true dir keys = Ok [].
Proof. exists (codes "data"), bucket. split; [right; left; reflexivity|]. intros []; reflexivity. Qed.
Print Assumptions C98_request_refuted.

(** C99: without a mode, a local directory without index is accepted; with checkpoints nothing
    in it is touched, so that an interrupted job can go on. *)
Theorem C99_accepted_partial use_checkpoint f :
  ~ In (codes "index.json") (fd_files f) -> exists d, check_local NoMode use_checkpoint (Some f) = Ok (Some d) /\ (use_checkpoint = true -> d = f).
Proof.
  intros H. unfold check_local. rewrite (proj2 (mem_false index_name (fd_files f)) H).
  destruct use_checkpoint; eexists; (split; [reflexivity|]); [reflexivity|discriminate].
Qed.
Print Assumptions C99_accepted_partial.

Example C99_case : check_local NoMode true (Some (Folder [codes "chunk-0-0.bin"] true)) = Ok (Some (Folder [codes "chunk-0-0.bin"] true)).
Proof. reflexivity. Qed.

(** C99 is false of remote directories: one that holds checkpoints or chunks of an interrupted run, or any
    other object, is refused although it has no index; even with checkpoints, so that an interrupted
    job cannot be resumed without a mode. *)
Theorem C99_remote_refuted : exists dir keys, ~ In (dir ++ slash :: codes "index.json") keys /\
  forall p use_checkpoint, check_remote p 1000 NoMode use_checkpoint false dir keys = Err RuntimeError.
Proof.
  exists (codes "data"), [codes "data/.checkpoints/config.json"; codes "data/chunk-0-0.bin"]. split.
  - intros [H|[H|[]]]; discriminate H.
  - intros [] []; reflexivity.
Qed.
Print Assumptions C99_remote_refuted.

(** C100: without a mode, the files of a local directory other than *.bin are kept, and in append mode all. *)
Theorem C100_others_kept_partial md use_checkpoint f d n :
  md <> Overwrite -> check_local md use_checkpoint (Some f) = Ok d -> In n (fd_files f) ->
  md = Append \/ use_checkpoint = true \/ ends (codes ".bin") n = false ->
  exists f', d = Some f' /\ In n (fd_files f').
Proof.
  intros Hm H Hn Hc. destruct md; [|injection H as <-; eauto|contradiction]. unfold check_local in H.
  destruct (mem index_name (fd_files f)); [discriminate H|]. destruct use_checkpoint; injection H as <-; [eauto|].
  destruct Hc as [Hc|[Hc|Hc]]; [discriminate Hc..|]. eexists. split; [reflexivity|]. cbn [fd_files]. apply filter_In. split; [exact Hn|]. change (negb (ends (codes ".bin") n) = true). rewrite Hc. reflexivity.
Qed.
Print Assumptions C100_others_kept_partial.

Example C100_case : check_local NoMode false (Some (Folder [codes "notes.txt"; codes "old.bin"] false)) = Ok (Some (Folder [codes "notes.txt"] false)).
Proof. reflexivity. Qed.

(** C100 is false: files of the user that end with .bin are deleted from a directory that holds no dataset. *)
Theorem C100_bin_refuted : exists f n, ~ In (codes "index.json") (fd_files f) /\ In n (fd_files f) /\
  exists f', check_local NoMode false (Some f) = Ok (Some f') /\ ~ In n (fd_files f').
Proof.
  exists (Folder [codes "pytorch_model.bin"] false), (codes "pytorch_model.bin"). split; [intros [H|[]]; discriminate H|].
  split; [left; reflexivity|]. exists (Folder [] false). split; [reflexivity|intros []].
Qed.
Print Assumptions C100_bin_refuted.

(** C101 is false: a node that starts later deletes the chunks that other nodes have already stored. *)
Theorem C101_late_node_refuted : exists es n, In (Upload n) es /\
  nodes_run NoMode false es None = Ok (Some (Folder [] false)) /\ nodes_run Overwrite false es None = Ok (Some (Folder [] false)).
Proof.
  exists [Start; Upload (codes "chunk-0-0.bin"); Start], (codes "chunk-0-0.bin"). split; [right; left; reflexivity|]. split; reflexivity.
Qed.
Print Assumptions C101_late_node_refuted.

(** C101: what is stored after all nodes have started is kept. *)
Theorem C101_all_started_partial md use_checkpoint es es' d n r :
  ~ In Start es' -> In (Upload n) es' -> nodes_run md use_checkpoint (es ++ es') d = Ok r ->
  exists f, r = Some f /\ In n (fd_files f).
Proof.
  intros Hs Hu. revert d. induction es as [|e es IH]; intros d H.
  - cbn [app] in H.
    assert (G : forall es' d, ~ In Start es' -> nodes_run md use_checkpoint es' d = Ok r ->
      In (Upload n) es' \/ (exists f, d = Some f /\ In n (fd_files f)) -> exists f, r = Some f /\ In n (fd_files f)).
    { clear. induction es' as [|e es' IH]; intros d Hs H Hu.
      - cbn in H. injection H as <-. destruct Hu as [[]|Hu]; exact Hu.
      - destruct e as [|m]; [exfalso; apply Hs; left; reflexivity|]. cbn [nodes_run] in H. cbv zeta in H. eapply IH; [|exact H|].
        + intros Hi. apply Hs. right. exact Hi.
        + destruct Hu as [[Hu|Hu]|(f & -> & Hf)]; [injection Hu as ->|left; exact Hu|]; right; eexists; (split; [reflexivity|]); cbn [fd_files];
            apply in_or_app; [right; left; reflexivity|left; exact Hf]. }
    eapply G; [exact Hs|exact H|left; exact Hu].
  - cbn [app] in H. destruct e as [|m]; cbn [nodes_run] in H.
    + destruct (check_local md use_checkpoint d) as [d'|]; [|discriminate H]. exact (IH _ H).
    + exact (IH _ H).
Qed.
Print Assumptions C101_all_started_partial.

Example C101_case : nodes_run NoMode false [Start; Start; Upload (codes "chunk-0-0.bin"); Upload (codes "chunk-1-0.bin")] (Some (Folder [codes "a.bin"] false)) =
  Ok (Some (Folder [codes "chunk-0-0.bin"; codes "chunk-1-0.bin"] false)) /\
  nodes_run Append true [Start; Upload (codes "chunk-0-0.bin"); Start; Upload (codes "chunk-1-0.bin")] None = Ok (Some (Folder [codes "chunk-0-0.bin"; codes "chunk-1-0.bin"] false)).
Proof. split; reflexivity. Qed.

(** C102: map(error_when_not_empty=True) raises if the remote directory holds an object. *)
Theorem C102_not_empty_partial p dir d keys k :
  names dir d -> In k keys -> starts (d ++ [slash]) k = true -> check_empty p dir keys = Err RuntimeError.
Proof. intros N H S. unfold check_empty. rewrite (names_not_empty p dir d keys k N H S). reflexivity. Qed.
Print Assumptions C102_not_empty_partial.
(** C102: and on S3 only then. *)
Theorem C102_empty_partial dir d keys :
  names dir d -> (forall k, In k keys -> starts (d ++ [slash]) k = false) -> check_empty S3 dir keys = Ok tt.
Proof.
  intros N H. unfold check_empty, is_empty. rewrite (names_rstrip _ _ N).
  destruct (existsb _ keys) eqn:E; [|reflexivity]. apply existsb_exists in E. destruct E as (k & Hk & S). rewrite (H k Hk) in S. discriminate S.
Qed.
Print Assumptions C102_empty_partial.

Example C102_case : check_empty S3 (codes "data") bucket = Err RuntimeError /\ check_empty S3 (codes "dat") bucket = Ok tt.
Proof. split; reflexivity. Qed.

(** C102 is false of GCP, where another directory whose name starts with the name of this one
    counts, and of local directories, which are never refused. *)
Theorem C102_refuted : exists dir keys files,
  (forall k, In k keys -> starts (dir ++ [slash]) k = false) /\ check_empty GCP dir keys = Err RuntimeError /\
  files <> [] /\ check_empty_local files = Ok tt.
Proof.
  exists (codes "dat"), bucket, [codes "a"]. split; [intros k [<-|[<-|[<-|[]]]]; reflexivity|]. split; [reflexivity|]. split; [discriminate|reflexivity].
Qed.
Print Assumptions C102_refuted.
