(** Properties about the surroundings of the library.  C163, C166, C167. *)
From Coq Require Import String NArith ZArith Lia.
From Verif Require Import Base Names_Model Size_Model Paths_Model Paths_Proofs Platform_Model Platform_Spec Platform_Proofs.
Local Open Scope list_scope.
Local Open Scope nat_scope.

(** ** C163: credentials for S3 are renewed

    Every use of a client that is made with the same credentials begins (its check of the clock) at most an interval
    after the first such use ended; and the uses that come within an interval of the beginning of the one that made a
    client share this client. *)
Theorem C163_renewed : forall interval from ts, clock from ts ->
  length (uses interval new_client ts) = length ts /\
  (forall i, i < length ts -> exists n, nth_error (uses interval new_client ts) i = Some (Some n)) /\
  (forall i j n t1 t2 t3 s1 s2 s3, i < j ->
     nth_error (uses interval new_client ts) i = Some (Some n) -> nth_error (uses interval new_client ts) j = Some (Some n) ->
     nth_error ts i = Some (t1, t2, t3) -> nth_error ts j = Some (s1, s2, s3) -> (s2 - t3 <= interval)%Z) /\
  (forall i j n t1 t2 t3 s1 s2 s3, i <= j -> nth_error (uses interval new_client ts) i = Some (Some n) ->
     (forall k, k < i -> nth_error (uses interval new_client ts) k <> Some (Some n)) ->
     nth_error ts i = Some (t1, t2, t3) -> nth_error ts j = Some (s1, s2, s3) -> (s2 - t1 <= interval)%Z ->
     nth_error (uses interval new_client ts) j = Some (Some n)).
Proof.
  intros interval from ts H. split; [apply uses_length|]. split; [intros i Hi; exact (uses_some interval ts new_client i Hi)|]. split.
  - intros i j n t1 t2 t3 s1 s2 s3. exact (uses_same interval ts new_client from i j (Some n) t1 t2 t3 s1 s2 s3 I H).
  - intros i j n t1 t2 t3 s1 s2 s3 Hij Hi Hb. apply (uses_new interval ts new_client from i j (Some n) t1 t2 t3 s1 s2 s3 I H Hij Hi).
    destruct i as [|i]; cbn [before new_client c_client]; [discriminate|]. intros E. apply (Hb i); [lia|].
    rewrite <- E. apply nth_error_nth'. assert (nth_error (uses interval new_client ts) (S i) <> None) by congruence. apply nth_error_Some in H0. lia.
Qed.
Example C163_case : let ts := [(0, 1, 2); (10, 11, 12); (3300, 3301, 3302); (3400, 3401, 3402)]%Z in
  clock 0 ts /\ uses 3300 new_client ts = [Some 0; Some 0; Some 1; Some 1].
Proof. cbv zeta. split; [repeat split; lia|vm_compute; reflexivity]. Qed.
Print Assumptions C163_renewed.

(** ** C166: a path below a mounted folder leads to the object of the same relative path

    Part: the name of the studio or connection is the name of one only, the studio's name does not start like that
    of the running studio. *)
Theorem C166_studio_partial : forall lower studios clusters connections project this_studio name rest s k,
  Forall name_ok (name :: rest) -> ~ like_this_studio name ->
  the_one (fun s => goes_by lower s name) studios s -> the_one (fun k => k_id k = s_cluster s) clusters k ->
  resolve lower studios clusters connections project this_studio (path (codes "teamspace" :: codes "studios" :: name :: rest)) =
  Ok (Some (codes "s3://" ++ k_bucket k ++ codes "/projects/" ++ project ++ codes "/cloudspaces/" ++ s_id s ++ codes "/code/content" ++ path rest)).
Proof. exact resolve_in_studio. Qed.

Theorem C166_connection_partial : forall lower studios clusters connections project this_studio folder name rest c base,
  In folder [codes "s3_connections"; codes "s3_folders"] ->
  Forall name_ok (name :: rest) -> the_one (fun c => d_name c = name) connections c ->
  base <> [] -> ends [slash] base = false -> d_source c = base \/ (d_source c = base ++ [slash] /\ rest <> []) ->
  resolve lower studios clusters connections project this_studio (path (codes "teamspace" :: folder :: name :: rest)) = Ok (Some (base ++ path rest)).
Proof. exact resolve_in_connection. Qed.

Theorem C166_datasets_partial : forall lower studios clusters connections project this_studio rest s k,
  rest <> [] -> Forall name_ok rest ->
  the_one (fun s => s_id s = this_studio) studios s -> the_one (fun k => k_id k = s_cluster s) clusters k ->
  resolve lower studios clusters connections project this_studio (path (codes "teamspace" :: codes "datasets" :: rest)) =
  Ok (Some (codes "s3://" ++ k_bucket k ++ codes "/projects/" ++ project ++ codes "/datasets" ++ path rest)).
Proof. exact resolve_in_datasets. Qed.

(** A directory elsewhere is local. *)
Theorem C166_elsewhere : forall lower studios clusters connections project this_studio dir,
  (forall f r, In f ["studios"; "s3_connections"; "s3_folders"; "datasets"]%string -> dir <> codes "/teamspace/" ++ codes f ++ r) ->
  resolve lower studios clusters connections project this_studio dir = Ok None.
Proof. exact resolve_elsewhere. Qed.

(** Unknown names raise: a studio that does not exist or whose cluster is not listed, a connection that does not exist, and
    datasets if the running studio is not listed. *)
Theorem C166_unknown : forall lower studios clusters connections project this_studio name rest,
  Forall name_ok (name :: rest) ->
  let resolved names := resolve lower studios clusters connections project this_studio (path (codes "teamspace" :: names)) in
  (~ like_this_studio name ->
   (forall s, In s studios -> ~ goes_by lower s name) \/
   (exists s, the_one (fun s => goes_by lower s name) studios s /\ forall k, In k clusters -> k_id k <> s_cluster s) ->
   resolved (codes "studios" :: name :: rest) = Err ValueError) /\
  (forall folder, In folder [codes "s3_connections"; codes "s3_folders"] -> (forall c, In c connections -> d_name c <> name) ->
   resolved (folder :: name :: rest) = Err ValueError) /\
  ((forall s, In s studios -> s_id s <> this_studio) \/
   (exists s, the_one (fun s => s_id s = this_studio) studios s /\ forall k, In k clusters -> k_id k <> s_cluster s) ->
   resolved (codes "datasets" :: name :: rest) = Err ValueError).
Proof.
  intros lower studios clusters connections project this_studio name rest H resolved. split; [|split].
  - intros N. exact (unknown_studio lower studios clusters connections project this_studio name rest H N).
  - intros folder F. exact (unknown_connection lower studios clusters connections project this_studio folder name rest F H).
  - apply (unknown_here lower studios clusters connections project this_studio (name :: rest)); [discriminate|exact H].
Qed.
Print Assumptions C166_unknown.

Definition s_a := Studio (Some (codes "a")) (codes "id-a") (Some (codes "b")) (codes "k").
Definition s_b := Studio (Some (codes "b")) (codes "id-b") (Some (codes "B studio")) (codes "k").
Definition s_2 := Studio (Some (codes "this_studio_2")) (codes "id-2") None (codes "k").
Definition k_k := Cluster (codes "k") (codes "bkt").
Definition c_c := Connection (codes "con") (codes "s3://data/").

Example C166_case :
  (the_one (fun s => goes_by (fun s => s) s (codes "a")) [s_b; s_a; s_2] s_a /\ the_one (fun k => k_id k = s_cluster s_a) [k_k] k_k /\
   resolve (fun s => s) [s_b; s_a; s_2] [k_k] [c_c] (codes "pr") (codes "id-2") (codes "/teamspace/studios/a/x/y") =
   Ok (Some (codes "s3://bkt/projects/pr/cloudspaces/id-a/code/content/x/y"))) /\
  resolve (fun s => s) [s_b; s_a; s_2] [k_k] [c_c] (codes "pr") (codes "id-2") (codes "/teamspace/s3_connections/con/x/y") =
   Ok (Some (codes "s3://data/x/y")) /\
  resolve (fun s => s) [s_b; s_a; s_2] [k_k] [c_c] (codes "pr") (codes "id-2") (codes "/teamspace/datasets/x/y") =
   Ok (Some (codes "s3://bkt/projects/pr/datasets/x/y")).
Proof.
  split; [split; [|split]|split; vm_compute; reflexivity].
  - split; [right; left; reflexivity|]. split; [exists (codes "a"); split; [left; reflexivity|reflexivity]|].
    intros y [<-|[<-|[<-|[]]]] (m & [E|E] & F); vm_compute in E; injection E as <- || discriminate E; try reflexivity; vm_compute in F; discriminate F.
  - split; [left; reflexivity|]. split; [reflexivity|]. intros y [<-|[]] _. reflexivity.
  - vm_compute. reflexivity.
Qed.

Example C166_unknown_case :
  resolve (fun s => s) [s_a] [k_k] [c_c] (codes "p") (codes "id-a") (path [codes "teamspace"; codes "studios"; codes "z"; codes "d"]) = Err ValueError /\
  resolve (fun s => s) [s_a] [] [c_c] (codes "p") (codes "id-a") (path [codes "teamspace"; codes "studios"; codes "a"; codes "d"]) = Err ValueError /\
  resolve (fun s => s) [s_a] [k_k] [c_c] (codes "p") (codes "id-a") (path [codes "teamspace"; codes "s3_folders"; codes "z"]) = Err ValueError /\
  resolve (fun s => s) [s_a] [k_k] [c_c] (codes "p") (codes "id-z") (path [codes "teamspace"; codes "datasets"; codes "d"]) = Err ValueError.
Proof. repeat (apply conj; [vm_compute; reflexivity|]). vm_compute; reflexivity. Qed.

(** The folders of the platform themselves, without a name below them, and this studio are read from this machine. *)
Theorem C166_folders_themselves id studios clusters connections project this dir :
  In dir (map codes ["/teamspace/studios"; "/teamspace/s3_connections"; "/teamspace/s3_folders"; "/teamspace/datasets"; "/teamspace/studios/this_studio"; "/teamspace/studios/this_studio/x"]%string) ->
  resolve id studios clusters connections project this dir = Ok None.
Proof. intros H. cbn [map In] in H. repeat (destruct H as [<-|H]; [vm_compute; reflexivity|]). destruct H. Qed.
Print Assumptions C166_folders_themselves.

(** False where another studio, listed earlier, is displayed under the name; *)
Theorem C166_display_refuted : exists studios clusters s, In s studios /\ s_name s = Some (codes "b") /\
  (forall y, In y studios -> s_name y = Some (codes "b") -> y = s) /\
  exists other, In other studios /\ other <> s /\
  resolve (fun s => s) studios clusters [] (codes "pr") (codes "id") (path [codes "teamspace"; codes "studios"; codes "b"; codes "x"]) =
  Ok (Some (codes "s3://bkt/projects/pr/cloudspaces/" ++ s_id other ++ codes "/code/content" ++ path [codes "x"])).
Proof.
  exists [s_a; s_b], [k_k], s_b. split; [right; left; reflexivity|]. split; [reflexivity|]. split.
  - intros y [<-|[<-|[]]] E; [vm_compute in E; discriminate E|reflexivity].
  - exists s_a. split; [left; reflexivity|]. split; [discriminate|]. vm_compute. reflexivity.
Qed.
(** where the name starts with "this_studio": the folder of another studio is taken for a local one; *)
Theorem C166_this_studio_refuted : exists studios clusters s name, the_one (fun s => goes_by (fun s => s) s name) studios s /\ s_id s <> codes "id-a" /\
  resolve (fun s => s) studios clusters [] (codes "pr") (codes "id-a") (path [codes "teamspace"; codes "studios"; name; codes "x"]) = Ok None.
Proof.
  exists [s_a; s_2], [k_k], s_2, (codes "this_studio_2"). split; [|split; [discriminate|vm_compute; reflexivity]].
  split; [right; left; reflexivity|]. split; [exists (codes "this_studio_2"); split; [left; reflexivity|reflexivity]|].
  intros y [<-|[<-|[]]] (m & [E|E] & F); vm_compute in E; injection E as <- || discriminate E; try reflexivity; vm_compute in F; discriminate F.
Qed.
(** and a folder whose name only begins with that of a mounted one is given the mounted one's url. *)
Theorem C166_datasets_old_refuted : exists studios clusters project this_studio name, name <> codes "datasets" /\
  exists url, resolve (fun s => s) studios clusters [] project this_studio (path [codes "teamspace"; name; codes "x"]) = Ok (Some url) /\
              resolve (fun s => s) studios clusters [] project this_studio (path [codes "teamspace"; codes "datasets"; codes "x"]) = Ok (Some url).
Proof.
  exists [s_a], [k_k], (codes "pr"), (codes "id-a"), (codes "datasets_old"). split; [discriminate|].
  exists (codes "s3://bkt/projects/pr/datasets/x"). split; vm_compute; reflexivity.
Qed.
Print Assumptions C166_studio_partial.
Print Assumptions C166_connection_partial.
Print Assumptions C166_datasets_partial.
Print Assumptions C166_elsewhere.
Print Assumptions C166_display_refuted.
Print Assumptions C166_this_studio_refuted.
Print Assumptions C166_datasets_old_refuted.

(** ** C167: the name servers of the machine are after a job what they were before it

    Part: the local servers are the resolver of systemd only, and the job is not ended by a KeyboardInterrupt or
    SystemExit.  The other lines stay as they are, where they are, in any case. *)
Theorem C167_restored_partial : forall in_studio enable o ls,
  (Forall (fun l => local_server l = true -> l = systemd_line) ls -> o <> Interrupted -> around_job in_studio enable o ls = ls) /\
  length (around_job in_studio enable o ls) = length ls /\
  (forall i l, nth_error ls i = Some l -> local_server l = false -> nth_error (around_job in_studio enable o ls) i = Some l) /\
  around_job false enable o ls = ls.
Proof.
  intros in_studio enable o ls. split; [intros H Ho; exact (restored in_studio enable o ls H Ho)|].
  destruct (around_other in_studio enable o ls) as (A & B). split; [exact A|]. split; [exact B|]. destruct o; reflexivity.
Qed.
Example C167_case : let ls := [codes "search x"; codes "nameserver 127.0.0.53" ++ [10%N]; codes "nameserver 8.8.8.8"] in
  Forall (fun l => local_server l = true -> l = systemd_line) ls /\
  optimize_dns true true ls = [codes "search x"; codes "nameserver 127.0.0.1" ++ [10%N]; codes "nameserver 8.8.8.8"] /\
  around_job true true Raises ls = ls.
Proof.
  cbv zeta. split; [|split; vm_compute; reflexivity]. repeat constructor; intros E; vm_compute in E; try discriminate E; reflexivity.
Qed.
(** False after a KeyboardInterrupt; *)
Theorem C167_interrupted_refuted : exists ls, Forall (fun l => local_server l = true -> l = systemd_line) ls /\ around_job true true Interrupted ls <> ls.
Proof. exists [systemd_line]. split; [repeat constructor|vm_compute; discriminate]. Qed.
(** for a machine with a local cache of names, even when nothing was asked to be optimised; *)
Theorem C167_local_cache_refuted : exists ls, around_job true false Ends ls <> ls.
Proof. exists [codes "nameserver 127.0.0.1" ++ [10%N]]. vm_compute. discriminate. Qed.
(** and for a machine that has a second local server besides that of systemd. *)
Theorem C167_second_server_refuted : exists ls l, In l ls /\ local_server l = true /\ In systemd_line ls /\ ~ In l (around_job true true Ends ls).
Proof.
  exists [systemd_line; codes "nameserver 127.0.1.1" ++ [10%N]], (codes "nameserver 127.0.1.1" ++ [10%N]).
  split; [right; left; reflexivity|]. split; [vm_compute; reflexivity|]. split; [left; reflexivity|]. vm_compute. intros [E|[E|[]]]; discriminate E.
Qed.
Print Assumptions C167_restored_partial.
Print Assumptions C167_interrupted_refuted.
Print Assumptions C167_local_cache_refuted.
Print Assumptions C167_second_server_refuted.
