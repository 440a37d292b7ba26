(** Model of what the library does with its surroundings: the renewal of the S3 client, the folders of the platform
    and their urls, the name servers of the machine.
    Source: src/litdata/streaming/client.py 29-72, src/litdata/streaming/resolver.py 64-229,
    src/litdata/processing/utilities.py 133-188, src/litdata/processing/functions.py 318-319, 505-518. *)
From Coq Require Import String NArith ZArith.
From Verif Require Import Base Names_Model Size_Model Paths_Model.
Local Open Scope list_scope.
Local Open Scope nat_scope.

(** ** The S3 client
    client.py 29-33: a client is represented by its number; [c_last] is [_last_time]. *)
Record client := Client { c_client : option nat; c_last : option Z; c_made : nat }.
Definition new_client : client := Client None None 0.
(** client.py 35-59: [_create_client]; clients are numbered in the order in which they are made. *)
Definition create (c : client) : client := Client (Some (c_made c)) (c_last c) (S (c_made c)).
(** client.py 61-72: one use of the property; [t1], [t2] and [t3] are what [time()] returns in lines 65, 68 and 70
    (where it is called). *)
Definition use (interval : Z) (c : client) (t1 t2 t3 : Z) : client :=
  let c := match c_client c with
           | None => let c := create c in Client (c_client c) (Some t1) (c_made c)
           | Some _ => c
           end in
  let old := match c_last c with None => true | Some t => (interval <? t2 - t)%Z end in
  if old then (let c := create c in Client (c_client c) (Some t3) (c_made c)) else c.
(** One use after the other: what each returns. *)
Fixpoint uses (interval : Z) (c : client) (ts : list (Z * Z * Z)) : list (option nat) :=
  match ts with
  | [] => []
  | (t1, t2, t3) :: ts' => let c := use interval c t1 t2 t3 in c_client c :: uses interval c ts'
  end.

(** ** Folders of the platform *)
Section Folders.
  (** What the platform answers: the studios of the cluster, the clusters, the data connections.  [lower]:
      [str.lower].  The environment variables are set (RuntimeError otherwise). *)
  Variable lower : str -> str.
  Record studio := Studio { s_name : option str; s_id : str; s_display : option str; s_cluster : str }.
  Record cluster := Cluster { k_id : str; k_bucket : str }.
  Record connection := Connection { d_name : str; d_source : str }.
  Variables (studios : list studio) (clusters : list cluster) (connections : list connection) (project this_studio : str).

  Definition same_str (a b : str) : bool := if list_eq_dec N.eq_dec a b then true else false.
  (** resolver.py 85-96: [_match_studio] with a name and no id. *)
  Definition match_studio (target : str) (s : studio) : bool :=
    (match s_name s with Some n => same_str (lower n) (lower target) | None => false end) ||
    (match s_display s with Some n => same_str (lower n) (lower target) | None => false end).
  (** [os.path.join(a, b1, b2, ...)]. *)
  Definition join_all (a : str) (l : list str) : str := fold_left join l a.
  Definition bucket_of (id : str) : res str :=
    match find (fun k => same_str (k_id k) id) clusters with Some k => Ok (k_bucket k) | None => Err ValueError end.
  (** resolver.py 99-137: [_resolve_studio]. *)
  Definition resolve_studio (dir target : str) : res str :=
    match find (match_studio target) studios with
    | None => Err ValueError
    | Some s =>
        bind (bucket_of (s_cluster s)) (fun b =>
        Ok (join_all (codes "s3://" ++ b ++ codes "/projects/" ++ project ++ codes "/cloudspaces/" ++ s_id s ++ codes "/code/content")
                     (skipn 4 (split slash dir))))
    end.
  (** resolver.py 140-181: [_resolve_s3_connections] and [_resolve_s3_folders], which differ in the field of the
      connection that holds the source. *)
  Definition resolve_connection (dir : str) : res str :=
    let target := nth 3 (split slash dir) [] in
    match find (fun c => same_str (d_name c) target) connections with
    | None => Err ValueError
    | Some c => Ok (join_all (d_source c) (skipn 4 (split slash dir)))
    end.
  (** resolver.py 184-229: [_resolve_datasets]. *)
  Definition resolve_datasets (dir : str) : res str :=
    match find (fun s => same_str (s_id s) this_studio) studios with
    | None => Err ValueError
    | Some s =>
        bind (bucket_of (s_cluster s)) (fun b =>
        Ok (join_all (codes "s3://" ++ b ++ codes "/projects/" ++ project ++ codes "/datasets/") (skipn 3 (split slash dir))))
    end.
  (** resolver.py 64-82: [_resolve_dir] of an absolute path: its url. *)
  Definition folder_of (p : string) (dir : str) : bool := starts (codes p) dir && (3 <? length (split slash dir)).
  Definition resolve (dir : str) : res (option str) :=
    if starts (codes "/teamspace/studios/this_studio") dir then Ok None
    else if folder_of "/teamspace/studios" dir then bind (resolve_studio dir (nth 3 (split slash dir) [])) (fun u => Ok (Some u))
    else if folder_of "/teamspace/s3_connections" dir then bind (resolve_connection dir) (fun u => Ok (Some u))
    else if folder_of "/teamspace/s3_folders" dir then bind (resolve_connection dir) (fun u => Ok (Some u))
    else if folder_of "/teamspace/datasets" dir then bind (resolve_datasets dir) (fun u => Ok (Some u))
    else Ok None.
End Folders.

(** ** Name servers
    The lines of /etc/resolv.conf.  utilities.py 165-188: [_optimize_dns]. *)
Definition set_servers (enable : bool) (ls : list str) : list str :=
  map (fun l => if contains (codes "nameserver 127") l
                then (if enable then codes "nameserver 127.0.0.1" else codes "nameserver 127.0.0.53") ++ [10%N] else l) ls.
(** utilities.py 148-162: [optimize_dns]; outside of the platform it does nothing.  Simplification: the command that
    writes the file succeeds. *)
Definition optimize_dns (in_studio enable : bool) (ls : list str) : list str :=
  if negb in_studio then ls
  else if (enable && existsb (contains (codes "127.0.0.53")) ls) || (negb enable && existsb (contains (codes "127.0.0.1")) ls)
       then set_servers enable ls else ls.
(** utilities.py 133-145: [optimize_dns_context] around a job, which ends, raises an Exception, or is ended by a
    KeyboardInterrupt or SystemExit. *)
Inductive outcome := Ends | Raises | Interrupted.
Definition around_job (in_studio enable : bool) (o : outcome) (ls : list str) : list str :=
  let ls := optimize_dns in_studio enable ls in
  match o with Interrupted => ls | _ => optimize_dns in_studio false ls end.
