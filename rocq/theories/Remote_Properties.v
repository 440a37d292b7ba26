(** Properties of files in buckets. *)
From Coq Require Import String NArith Lia.
From Verif Require Import Base Names_Model Names_Spec Size_Model Paths_Model Paths_Proofs Output_Model Output_Proofs Remote_Model Remote_Spec Remote_Proofs.
Local Open Scope list_scope.
Local Open Scope nat_scope.

(** C159: whatever is uploaded and copied, a dataset reads under each url what was last written under that very url,
    and nothing if nothing was; a copy of a file that does not exist raises. *)
Theorem C159_stored_under_url_partial p st l :
  buckets_ok st -> Forall (fun a => Forall (plain_url p) (urls a)) l ->
  match should_all (file_at p st) l with
  | Some f => exists st', act_all p st l = Ok st' /\
      forall u, plain_url p u ->
        fetch p st' u = (match f u with Some d => Ok d | None => Err GenericException end) /\
        download p st' u = (match f u with Some d => Ok d | None => Err GenericException end) /\ file_at p st' u = f u
  | None => exists e, act_all p st l = Err e
  end.
Proof. exact (stored_under_url p st l). Qed.
Print Assumptions C159_stored_under_url_partial.

Definition u_of (s : string) : str := codes s.
Lemma plain_by p u b k : u = object_url p b k -> forallb (fun c => negb (existsb (N.eqb c) (slash :: reserved))) b = true ->
  k <> [] -> starts [slash] k = false -> forallb (fun c => negb (existsb (N.eqb c) reserved)) k = true -> plain_url p u.
Proof.
  intros -> Hb Hn Hs Hk. rewrite forallb_forall in Hb, Hk.
  assert (E : forall c l, existsb (N.eqb c) l = false -> ~ In c l).
  { intros c l H G. assert (existsb (N.eqb c) l = true); [|congruence]. apply existsb_exists. exists c. split; [exact G|apply N.eqb_refl]. }
  exists b, k. split; [|split; [|reflexivity]].
  - intros c Hc. specialize (Hb c Hc). apply negb_true_iff, E in Hb. split; [intros ->|intros G]; apply Hb; [left; reflexivity|right; exact G].
  - split; [exact Hn|]. split; [exact Hs|]. intros c Hc. apply E, negb_true_iff, Hk. exact Hc.
Qed.

Example C159_case :
  let x := u_of "s3://b/data/chunk-0-0.bin" in let y := u_of "s3://b/copy/chunk-0-0.bin" in
  let l := [Put x [1%N; 2%N]; Copy x y; Put x [3%N]] in
  plain_url S3 x /\ plain_url S3 y /\
  (exists st', act_all S3 [] l = Ok st' /\ fetch S3 st' x = Ok [3%N] /\ fetch_chunk S3 st' (u_of "s3://b/copy/") (u_of "chunk-0-0.bin") = Ok [1%N; 2%N]) /\
  act_all GCP [] [Copy (u_of "gs://b/x") (u_of "gs://b/y")] = Err FileNotFoundError.
Proof.
  split; [|split; [|split]].
  - apply (plain_by _ _ (u_of "b") (u_of "data/chunk-0-0.bin")); vm_compute; try reflexivity; discriminate.
  - apply (plain_by _ _ (u_of "b") (u_of "copy/chunk-0-0.bin")); vm_compute; try reflexivity; discriminate.
  - eexists. split; [vm_compute; reflexivity|]. split; vm_compute; reflexivity.
  - vm_compute. reflexivity.
Qed.

(** C159: a dataset at the url of a directory, written with or without a slash at its end, reads as its chunk of a given name
    the object below this directory. *)
Theorem C159_chunks_partial p st dir u name :
  buckets_ok st -> directory p dir -> written_as dir u -> starts [slash] name = false -> (forall c, In c name -> ~ In c reserved) ->
  fetch_chunk p st u name = match file_at p st (dir ++ slash :: name) with Some d => Ok d | None => Err GenericException end.
Proof.
  intros Hs (Hp & He) Hw Hn Hr. unfold fetch_chunk.
  rewrite (join_dir dir u name He) by (try assumption; destruct Hp as (b & k & _ & _ & ->); apply url_nonempty).
  destruct Hp as (b & k & Hb & Hk & ->). change (object_url p b k ++ slash :: name) with (below (object_url p b k) name).
  rewrite below_url, fetch_plain by (try apply key_below; assumption). rewrite file_get by assumption. reflexivity.
Qed.
Print Assumptions C159_chunks_partial.
Example C159_chunks_case :
  let st := [(u_of "b", u_of "data/chunk-0-0.bin", [1%N]); (u_of "b", u_of "datachunk-0-0.bin", [2%N])] in
  directory S3 (u_of "s3://b/data") /\ written_as (u_of "s3://b/data") (u_of "s3://b/data/") /\
  fetch_chunk S3 st (u_of "s3://b/data") (u_of "chunk-0-0.bin") = Ok [1%N] /\
  fetch_chunk S3 st (u_of "s3://b/data/") (u_of "chunk-0-0.bin") = Ok [1%N].
Proof.
  split; [|split; [right; vm_compute; reflexivity|split; vm_compute; reflexivity]]. split; [|vm_compute; reflexivity].
  apply (plain_by _ _ (u_of "b") (u_of "data")); vm_compute; try reflexivity; discriminate.
Qed.

(** C159: capital letters in the scheme make no difference to uploads, downloads and copies; every other scheme is refused by them. *)
Theorem C159_scheme p s b k :
  bucket_ok b -> key_ok k -> (forall c, In c s -> c <> colon /\ ~ In c reserved) ->
  bucket_and_path p (s ++ codes "://" ++ b ++ slash :: k) =
  (if str_eqb (lower s) (scheme_name p) then Ok (b, k) else Err ValueError).
Proof.
  change (scheme_name p) with (scheme_of p).
  intros Hb (Hk0 & Hk1 & Hk) Hs. unfold bucket_and_path, urlparse.
  assert (F : filter (fun c => negb (unsafe c)) (s ++ codes "://" ++ b ++ slash :: k) = s ++ codes "://" ++ b ++ slash :: k).
  { apply filter_all. intros c Hc. apply negb_true_iff. rewrite !in_app_iff in Hc. cbn [In] in Hc.
    destruct Hc as [Hc|[Hc|[Hc|[Hc|Hc]]]].
    - apply not_reserved. apply (Hs c Hc).
    - cbn in Hc; repeat destruct Hc as [<-|Hc]; try reflexivity; destruct Hc.
    - apply not_reserved. apply (Hb c Hc).
    - subst c. reflexivity.
    - apply not_reserved. exact (Hk c Hc). }
  rewrite F. unfold split_scheme. change (codes "://" ++ b ++ slash :: k) with (colon :: slash :: slash :: b ++ slash :: k).
  rewrite (span_stop _ s colon); [|intros c Hc; apply negb_true_iff, N.eqb_neq, (Hs c Hc)|reflexivity].
  destruct (str_eqb (lower s) (scheme_of p)) eqn:E.
  - apply eqb_iff in E.
    assert (G : match s with c :: _ => letter c && forallb scheme_char s | [] => false end = true).
    { assert (L : forall c d, lower_char c = d -> c = d \/ c = (d - 32)%N /\ (97 <= d)%N /\ (d <= 122)%N).
      { intros c d. unfold lower_char. destruct ((65 <=? c)%N && (c <=? 90)%N) eqn:Q; [|auto].
        apply andb_true_iff in Q as [Q1 Q2]. apply N.leb_le in Q1, Q2. intros <-. right. lia. }
      destruct p; (destruct s as [|c1 [|c2 [|c3 s]]]; try discriminate E); cbn [lower map scheme_of codes] in E;
        injection E as E1 E2; apply L in E1, E2; destruct E1 as [->|(-> & _)]; destruct E2 as [->|(-> & E3 & _)];
        try reflexivity; vm_compute in E3; congruence. }
    destruct s as [|c s]; [discriminate|]. rewrite G.
    cbn [starts skipn andb]. change ((slash =? slash)%N && ((slash =? slash)%N && true)) with true. cbv iota.
    rewrite (span_stop _ b slash k).
    + rewrite (span_all (fun c => negb (c =? hash)%N) (slash :: k)).
      * rewrite (span_all (fun c => negb (c =? question)%N) (slash :: k)).
        -- rewrite E, eqb_same. reflexivity.
        -- intros c' [<-|Hc]; [reflexivity|]. destruct (not_reserved c' (Hk c' Hc)) as (-> & _). reflexivity.
      * intros c' [<-|Hc]; [reflexivity|]. destruct (not_reserved c' (Hk c' Hc)) as (_ & -> & _). reflexivity.
    + intros c' Hc. destruct (Hb c' Hc) as (Hs' & Hr). destruct (not_reserved c' Hr) as (-> & -> & _).
      apply N.eqb_neq in Hs'. rewrite Hs'. reflexivity.
    + reflexivity.
  - set (sc := match s with [] => _ | _ => _ end).
    assert (Hsc : fst sc = lower s \/ fst sc = []).
    { unfold sc. destruct s as [|c s']; [right; reflexivity|]. destruct (letter c && _); [left|right]; reflexivity. }
    destruct sc as [scheme rest]. cbn [fst] in Hsc.
    destruct (if starts [slash; slash] rest then _ else _) as [netloc rest'].
    destruct (span _ rest') as [rest'' ?]. destruct (span _ rest'') as [path ?].
    destruct Hsc as [->| ->]; [rewrite E; reflexivity|].
    replace (str_eqb [] (scheme_of p)) with false by (symmetry; apply eqb_false; destruct p; discriminate). reflexivity.
Qed.
Print Assumptions C159_scheme.
Example C159_scheme_case :
  bucket_and_path S3 (u_of "S3://b/data/x") = Ok (u_of "b", u_of "data/x") /\ bucket_and_path GCP (u_of "Gs://b/x") = Ok (u_of "b", u_of "x") /\
  bucket_and_path S3 (u_of "gs://b/x") = Err ValueError /\ bucket_and_path S3 (u_of "s3a://b/x") = Err ValueError.
Proof. repeat (apply conj; [vm_compute; reflexivity|]). vm_compute. reflexivity. Qed.

(** A dataset that is written to a [Dir] with the url "S3://…" is in the bucket, but a dataset opened with that url
    looks for its files on this machine. *)
Theorem C159_capital_refuted :
  exists u st d, act_all S3 [] [Put u d] = Ok st /\ download S3 st u = Ok d /\ get st (u_of "b") (u_of "x") = Some d /\
    get_downloader default_table u = local_class.
Proof. exists (u_of "S3://b/x"). eexists. exists [1%N]. repeat (apply conj; [vm_compute; reflexivity|]). vm_compute; reflexivity. Qed.
Print Assumptions C159_capital_refuted.

(** A hash ends the key: the chunks of a dataset in "exp#1" are all written to the object "exp". *)
Theorem C159_hash_refuted :
  exists p u v a b st', u <> v /\ a <> b /\ act_all p [] [Put u a; Put v b] = Ok st' /\ fetch p st' u = Ok b.
Proof.
  exists GCP, (u_of "gs://b/exp#1/chunk-0-0.bin"), (u_of "gs://b/exp#1/index.json"), [1%N], [2%N]. eexists.
  split; [discriminate|]. split; [discriminate|]. split; vm_compute; reflexivity.
Qed.
Print Assumptions C159_hash_refuted.

(** Two slashes after the bucket: on S3 a file is written to one key and looked for under another. *)
Theorem C159_slashes_refuted :
  exists u d st', act_all S3 [] [Put u d] = Ok st' /\ fetch S3 st' u = Err GenericException /\ download S3 st' u = Ok d.
Proof. exists (u_of "s3://b//data/index.json"), [1%N]. eexists. split; [|split]; vm_compute; reflexivity. Qed.
Print Assumptions C159_slashes_refuted.

(** C160: starting a job removes nothing outside of the output directory; overwriting removes all of it. *)
Theorem C160_inside_partial p limit md ck broken u st st' :
  plain_url p u -> ends [slash] u = true -> buckets_ok st -> prepare_url p limit md ck broken u st = Ok st' ->
  (forall o, In o st -> starts u (object_url p (fst (fst o)) (snd (fst o))) = false -> In o st') /\
  (forall o, In o st' -> In o st) /\
  (md = Overwrite ->
   (p = GCP \/ length (filter (fun o => starts u (object_url p (fst (fst o)) (snd (fst o)))) st) <= limit) ->
   forall o, In o st' -> starts u (object_url p (fst (fst o)) (snd (fst o))) = false).
Proof. exact (overwrite_url p limit md ck broken u st st'). Qed.
Print Assumptions C160_inside_partial.

Definition three : objects :=
  [((u_of "b", u_of "exp/chunk-0-0.bin"), [1%N]); ((u_of "b", u_of "exp/index.json"), [2%N]); ((u_of "b", u_of "exp2/index.json"), [3%N])].
Example C160_case :
  plain_url S3 (u_of "s3://b/exp/") /\ ends [slash] (u_of "s3://b/exp/") = true /\ buckets_ok three /\
  prepare_url S3 1000 Overwrite false false (u_of "s3://b/exp/") three = Ok [((u_of "b", u_of "exp2/index.json"), [3%N])].
Proof.
  split; [apply (plain_by _ _ (u_of "b") (u_of "exp/")); vm_compute; try reflexivity; discriminate|].
  split; [vm_compute; reflexivity|]. split; [|vm_compute; reflexivity].
  intros o H. repeat destruct H as [<-|H]; try destruct H; vm_compute; intuition discriminate.
Qed.

(** With a hash in the name another dataset is deleted, even if the directory is written with a slash at its end. *)
Theorem C160_hash_refuted :
  exists p limit u st st' o, ends [slash] u = true /\ prepare_url p limit Overwrite false false u st = Ok st' /\
    In o st /\ starts u (object_url p (fst (fst o)) (snd (fst o))) = false /\ ~ In o st'.
Proof.
  exists S3, 1000, (u_of "s3://b/exp#2/"), three, [], ((u_of "b", u_of "exp2/index.json"), [3%N]).
  split; [vm_compute; reflexivity|]. split; [vm_compute; reflexivity|].
  split; [right; right; left; reflexivity|]. split; [vm_compute; reflexivity|]. intros [].
Qed.
Print Assumptions C160_hash_refuted.

(** C161: optimize without a mode refuses a directory that holds a dataset. *)
Theorem C161_refused_partial p limit ck dir u st d :
  directory p dir -> written_as dir u -> buckets_ok st -> file_at p st (below dir index_name) = Some d ->
  prepare_url p limit NoMode ck false u st = Err RuntimeError.
Proof. exact (refused_url p limit ck dir u st d). Qed.
Print Assumptions C161_refused_partial.

Example C161_case :
  directory GCP (u_of "gs://b/exp") /\ written_as (u_of "gs://b/exp") (u_of "gs://b/exp/") /\
  file_at GCP three (below (u_of "gs://b/exp") index_name) = Some [2%N] /\
  prepare_url GCP 1000 NoMode true false (u_of "gs://b/exp/") three = Err RuntimeError.
Proof.
  split; [split; [apply (plain_by _ _ (u_of "b") (u_of "exp")); vm_compute; try reflexivity; discriminate|vm_compute; reflexivity]|].
  split; [right; reflexivity|]. split; vm_compute; reflexivity.
Qed.

(** A dataset at the root of a bucket is not seen on S3: the job goes on and replaces its index and its chunks. *)
Theorem C161_root_refuted :
  exists st b d d' st1 st2,
    get st b index_name = Some d /\ d <> d' /\
    prepare_url S3 1000 NoMode false false (codes "s3://" ++ b) st = Ok st1 /\
    act_all S3 st1 [Put (join (codes "s3://" ++ b) index_name) d'] = Ok st2 /\
    get st2 b index_name = Some d'.
Proof.
  exists [((u_of "b", u_of "chunk-0-0.bin"), [1%N]); ((u_of "b", index_name), [2%N])], (u_of "b"), [2%N], [3%N]. do 2 eexists.
  split; [vm_compute; reflexivity|]. split; [discriminate|]. split; [vm_compute; reflexivity|]. split; vm_compute; reflexivity.
Qed.
Print Assumptions C161_root_refuted.

(** C162: if exactly one of the registered prefixes is a beginning of the url, its downloader is used; if none is,
    files are copied; the downloader that is used is always registered for a beginning of the url. *)
Theorem C162_registered_partial es url :
  let m := registered es default in
  (forall k c, m k = Some c -> starts k url = true -> (forall k', m k' <> None -> starts k' url = true -> k' = k) ->
     downloader_of (calls es) (ADir url) = Some c) /\
  ((forall k, m k <> None -> starts k url = false) -> downloader_of (calls es) (ADir url) = Some local_class) /\
  ((exists k, m k <> None /\ starts k url = true) ->
     exists k c, m k = Some c /\ starts k url = true /\ downloader_of (calls es) (ADir url) = Some c).
Proof.
  cbv zeta. cbn [downloader_of]. split; [|split].
  - intros k c M S U. f_equal. exact (downloader_only es url k c M S U).
  - intros H. destruct (downloader_chosen es url) as [(E & _)|(k & M & S)]; [congruence|].
    rewrite H in S; [discriminate S|congruence].
  - intros (k & M & S). destruct (downloader_chosen es url) as [(_ & H)|(k' & M' & S')].
    + rewrite (H k M) in S. discriminate S.
    + exists k', (get_downloader (calls es) url). auto.
Qed.
Print Assumptions C162_registered_partial.

Example C162_case :
  let es := [Register (u_of "http://") 7 false; Unregister (u_of "hf://"); Register (u_of "hf://") 8 false;
             Register (u_of "hf://") 9 false; Register (u_of "http://") 6 true] in
  registered es default (u_of "http://") = Some 6 /\ registered es default (u_of "hf://") = Some 8 /\
  downloader_of (calls es) (ADir (u_of "http://x/y")) = Some 6 /\ downloader_of (calls es) (ADir (u_of "hf://datasets/a/b")) = Some 8 /\
  downloader_of (calls es) (ADir (u_of "gs://b/d")) = Some 1 /\ downloader_of (calls es) (ADir (u_of "/data")) = Some local_class.
Proof. repeat (apply conj; [vm_compute; reflexivity|]). vm_compute. reflexivity. Qed.

(** A downloader for a bucket is not used, because the one for all of S3 comes first. *)
Theorem C162_longer_prefix_refuted :
  exists k c url, starts k url = true /\ registered [Register k c false] default k = Some c /\
    downloader_of (calls [Register k c false]) (ADir url) <> Some c.
Proof.
  exists (u_of "s3://my-bucket/"), 7, (u_of "s3://my-bucket/data").
  split; [vm_compute; reflexivity|]. split; [vm_compute; reflexivity|]. vm_compute. discriminate.
Qed.
Print Assumptions C162_longer_prefix_refuted.

(** A string is only taken for a url if it has one of the five prefixes that are there from the start. *)
Theorem C162_string_refuted :
  exists k c url, starts k url = true /\ registered [Register k c false] default k = Some c /\
    downloader_of (calls [Register k c false]) (ADir url) = Some c /\
    downloader_of (calls [Register k c false]) (AString url) = None.
Proof. exists (u_of "http://"), 7, (u_of "http://x/data"). repeat (apply conj; [vm_compute; reflexivity|]). vm_compute. reflexivity. Qed.
Print Assumptions C162_string_refuted.
Theorem C162_string_same t s :
  (exists k, In k ["s3://"; "gs://"; "azure://"; "hf://"; "local:"]%string /\ starts (codes k) s = true) ->
  downloader_of t (AString s) = downloader_of t (ADir s).
Proof.
  intros (k & Hk & E). cbn [downloader_of]. unfold url_of_string.
  match goal with |- context [if ?b then _ else _] => replace b with true end; [reflexivity|].
  symmetry. apply existsb_exists. exists k. split; assumption.
Qed.
Print Assumptions C162_string_same.
Theorem C162_string_never t s :
  (forall k, In k ["s3://"; "gs://"; "azure://"; "hf://"; "local:"]%string -> starts (codes k) s = false) ->
  downloader_of t (AString s) = None.
Proof.
  intros H. cbn [downloader_of]. unfold url_of_string.
  match goal with |- context [if ?b then _ else _] => destruct b eqn:E end; [|reflexivity].
  apply existsb_exists in E. destruct E as (k & Hk & E). rewrite (H k Hk) in E. discriminate E.
Qed.
Print Assumptions C162_string_never.

(** C164: appending to a remote dataset whose index can be read: the new index lists the old chunks and then the new
    ones, every old chunk is as it was, every new chunk is stored, and nothing else is touched. *)
Theorem C164_append_partial parse render p nw comp dir u new st d existing :
  (forall l, parse (render l) = Some l) ->
  directory p dir -> written_as dir u -> buckets_ok st ->
  let names := map (fun e => chunk_name (fst e) (fst (snd e)) (snd (snd e))) existing in
  file_at p st (below dir index_name) = Some d -> parse d = Some names ->
  Forall (fun e => comp_word (fst e)) existing -> comp_word comp -> length new = nw ->
  exists st' added,
    append_job parse render p false nw comp u new st = Ok st' /\
    map snd added = concat new /\ NoDup (map fst added) /\ (forall n, In n (map fst added) -> ~ In n names) /\
    (exists d', file_at p st' (below dir index_name) = Some d' /\ parse d' = Some (names ++ map fst added)) /\
    (forall n, In n names -> file_at p st' (below dir n) = file_at p st (below dir n)) /\
    (forall n c, In (n, c) added -> file_at p st' (below dir n) = Some c) /\
    (forall v, plain_url p v -> starts (dir ++ [slash]) v = false -> file_at p st' v = file_at p st v).
Proof.
  intros Hr H1 H2 H3 names H4 H5 H6 H7 H8.
  destruct (append_url parse render p nw comp dir u new st d existing H1 H2 H3 H4 H5 H6 H7 H8) as (st' & added & A & B & C & D & E & F).
  exists st', added. repeat (split; [assumption|]). split; [|exact F]. eexists. split; [exact E|]. apply Hr.
Qed.
Print Assumptions C164_append_partial.

(** An index file for examples: the names, each ended by a line feed. *)
Fixpoint lines (s : content) (cur : str) : list str :=
  match s with [] => [] | c :: s' => if (c =? 10)%N then rev cur :: lines s' [] else lines s' (c :: cur) end.
Definition to_lines (l : list str) : content := concat (map (fun n => n ++ [10%N]) l).
Definition of_lines (s : content) : option (list str) := Some (lines s []).
Definition old_set : objects :=
  [((u_of "b", u_of "d/chunk-0-0.bin"), [1%N]); ((u_of "b", u_of "d/index.json"), to_lines [u_of "chunk-0-0.bin"])].
Example C164_case :
  of_lines (to_lines [u_of "chunk-0-0.bin"; u_of "chunk-0-1.bin"]) = Some [u_of "chunk-0-0.bin"; u_of "chunk-0-1.bin"] /\
  (exists st', append_job of_lines to_lines S3 false 1 None (u_of "s3://b/d") [[[2%N]]] old_set = Ok st' /\
     file_at S3 st' (u_of "s3://b/d/chunk-0-0.bin") = Some [1%N] /\ file_at S3 st' (u_of "s3://b/d/chunk-0-1.bin") = Some [2%N] /\
     file_at S3 st' (u_of "s3://b/d/index.json") = Some (to_lines [u_of "chunk-0-0.bin"; u_of "chunk-0-1.bin"])).
Proof.
  split; [vm_compute; reflexivity|]. eexists. split; [vm_compute; reflexivity|]. repeat (apply conj; [vm_compute; reflexivity|]). vm_compute. reflexivity.
Qed.

(** If the request for the index fails, the dataset counts as missing: its chunk is replaced and its index lost. *)
Theorem C164_failed_request_refuted :
  exists parse render p dir new st st' name c c',
    (exists d, file_at p st (below dir index_name) = Some d /\ parse d = Some [name]) /\
    file_at p st (below dir name) = Some c /\
    append_job parse render p true 1 None dir new st = Ok st' /\
    file_at p st' (below dir name) = Some c' /\ c' <> c /\
    (exists d, file_at p st' (below dir index_name) = Some d /\ parse d = Some [name]).
Proof.
  exists of_lines, to_lines, S3, (u_of "s3://b/d"), [[[2%N]]], old_set. eexists. exists (u_of "chunk-0-0.bin"), [1%N], [2%N].
  split; [eexists; split; vm_compute; reflexivity|]. split; [vm_compute; reflexivity|]. split; [vm_compute; reflexivity|].
  split; [vm_compute; reflexivity|]. split; [discriminate|]. eexists. split; vm_compute; reflexivity.
Qed.
Print Assumptions C164_failed_request_refuted.

(** merge_datasets refuses an output directory with a dataset, as long as the request for its index does not fail. *)
Theorem C164_merge_refused parse render p fails inputs comp dir out st d names :
  directory p dir -> written_as dir out -> buckets_ok st ->
  file_at p st (below dir index_name) = Some d -> parse d = Some names -> fails out = false ->
  merge_job parse render p fails inputs comp out st = Err ValueError.
Proof. exact (merge_refused parse render p fails inputs comp dir out st d names). Qed.
Print Assumptions C164_merge_refused.

Definition two_sets : objects :=
  old_set ++ [((u_of "b", u_of "e/chunk-0-0.bin"), [5%N]); ((u_of "b", u_of "e/index.json"), to_lines [u_of "chunk-0-0.bin"]);
              ((u_of "b", u_of "out/chunk-0-0.bin"), [7%N]); ((u_of "b", u_of "out/index.json"), to_lines [u_of "chunk-0-0.bin"])].
Theorem C164_merge_failed_refuted :
  exists parse render p fails inputs out st st' name c c',
    (exists d names, file_at p st (below out index_name) = Some d /\ parse d = Some names /\ In name names) /\
    file_at p st (below out name) = Some c /\
    merge_job parse render p fails inputs None out st = Ok st' /\
    file_at p st' (below out name) = Some c' /\ c' <> c.
Proof.
  exists of_lines, to_lines, S3, (fun u => str_eqb u (u_of "s3://b/out")), [u_of "s3://b/d"; u_of "s3://b/e"], (u_of "s3://b/out"), two_sets.
  eexists. exists (u_of "chunk-0-0.bin"), [7%N], [1%N].
  split; [do 2 eexists; split; [vm_compute; reflexivity|]; split; [vm_compute; reflexivity|]; left; reflexivity|].
  split; [vm_compute; reflexivity|]. split; [vm_compute; reflexivity|]. split; [vm_compute; reflexivity|]. discriminate.
Qed.
Print Assumptions C164_merge_failed_refuted.
(** Datasets of which all files are there are merged into a directory without files: each chunk is copied in order,
    the new index lists the copies, and all files elsewhere stay as they were. *)
Theorem C164_merge_partial parse render p comp ds out u st :
  (forall l, parse (render l) = Some l) ->
  2 <= length ds -> buckets_ok st -> comp_word comp ->
  Forall (fun x => let '(dir, written, names) := x in
                   directory p dir /\ written_as dir written /\
                   (exists d, file_at p st (below dir index_name) = Some d /\ parse d = Some names) /\
                   Forall (fun n => starts [slash] n = false /\ (forall c, In c n -> ~ In c reserved) /\
                                    exists c, file_at p st (below dir n) = Some c) names) ds ->
  directory p out -> written_as out u -> (forall n, file_at p st (below out n) = None) ->
  let sources := concat (map (fun x => let '(dir, _, names) := x in map (below dir) names) ds) in
  exists st' names,
    merge_job parse render p (fun _ => false) (map (fun x => let '(_, written, _) := x in written) ds) comp u st = Ok st' /\
    length names = length sources /\ NoDup names /\
    (exists d, file_at p st' (below out index_name) = Some d /\ parse d = Some names) /\
    (forall i s n, nth_error sources i = Some s -> nth_error names i = Some n ->
       file_at p st' (below out n) = file_at p st s /\ file_at p st s <> None) /\
    (forall v, plain_url p v -> starts (out ++ [slash]) v = false -> file_at p st' v = file_at p st v).
Proof.
  intros Hr H1 H2 H3 H4 H5 H6 H7 sources.
  destruct (merge_url parse render Hr p comp ds out u st H1 H2 H3) as (st' & names & A & B & C & D & E & F).
  - eapply Forall_impl; [|exact H4]. intros ((dir & w) & l). exact (fun x => x).
  - exact H5.
  - exact H6.
  - exact H7.
  - assert (S1 : concat (map (fun x => map (below (fst (fst x))) (snd x)) ds) = sources).
    { unfold sources. f_equal. apply map_ext. intros ((dir & w) & l). reflexivity. }
    assert (S2 : map (fun x => snd (fst x)) ds = map (fun x : str * str * list str => let '(_, written, _) := x in written) ds).
    { apply map_ext. intros ((dir & w) & l). reflexivity. }
    rewrite S1 in *. rewrite S2 in *. exists st', names. repeat (split; [assumption|]). split; [|split; assumption].
    eexists. split; [exact D|]. apply Hr.
Qed.
Print Assumptions C164_merge_partial.
Example C164_merge_case :
  (exists st', merge_job of_lines to_lines S3 (fun _ => false) [u_of "s3://b/d"; u_of "s3://b/e"] None (u_of "s3://b/new") two_sets = Ok st' /\
    file_at S3 st' (u_of "s3://b/new/chunk-0-0.bin") = Some [1%N] /\ file_at S3 st' (u_of "s3://b/new/chunk-0-1.bin") = Some [5%N] /\
    file_at S3 st' (u_of "s3://b/new/index.json") = Some (to_lines [u_of "chunk-0-0.bin"; u_of "chunk-0-1.bin"])) /\
  merge_job of_lines to_lines S3 (fun _ => false) [u_of "s3://b/d"; u_of "s3://b/e"] None (u_of "s3://b/out/") two_sets = Err ValueError.
Proof.
  split; [|vm_compute; reflexivity]. eexists. split; [vm_compute; reflexivity|].
  repeat (apply conj; [vm_compute; reflexivity|]). vm_compute. reflexivity.
Qed.

(** C165: s5cmd copies the file to its place if the paths have no blanks and no special characters. *)
Theorem C165_s5cmd_partial other no_sign remote local :
  path_ok remote -> path_ok local -> s5cmd other no_sign remote local = Ok (remote, local).
Proof. exact (s5cmd_plain other no_sign remote local). Qed.
Print Assumptions C165_s5cmd_partial.
Example C165_case :
  path_ok (u_of "s3://my-bucket/data/chunk-0-0.bin") /\ path_ok (u_of "/home/me/.lightning/chunks/0cc1/chunk-0-0.bin").
Proof. split; (split; [discriminate|]); apply Forall_forall, forallb_forall; vm_compute; reflexivity. Qed.
Theorem C165_blank_refuted :
  exists remote local, path_ok remote /\ forall other, s5cmd other false remote local = Err RuntimeError.
Proof.
  exists (u_of "s3://b/d/chunk-0-0.bin"), (u_of "/data/my cache/chunk-0-0.bin"). split; [|intros other; vm_compute; reflexivity].
  split; [discriminate|]. apply Forall_forall, forallb_forall. vm_compute. reflexivity.
Qed.
Print Assumptions C165_blank_refuted.
