(** Model of files in buckets: what a url stands for when a file is uploaded, downloaded, copied, looked for or
    deleted; the table of downloaders; reading the index of a remote directory before appending to it or merging
    into it.
    Source: src/litdata/streaming/fs_provider.py 52-262, src/litdata/streaming/downloader.py 63-154, 166-192,
    298-352, src/litdata/streaming/resolver.py 41-62, 259-336, src/litdata/processing/utilities.py 203-241,
    src/litdata/processing/functions.py 471-486, 604-622, 681-695, src/litdata/processing/data_processor.py 226-265,
    938-958; urllib.parse and dict of the standard library.
    Simplifications: one process; a bucket exists; [storage_options] are left out. *)
From Coq Require Import String NArith.
From Verif Require Import Base Names_Model Size_Model Paths_Model Output_Model.
From Verif Require Config_Model.
Local Open Scope list_scope.
Local Open Scope nat_scope.

Definition str_eqb (a b : str) : bool := if list_eq_dec N.eq_dec a b then true else false.
Definition colon : N := 58%N.
Definition hash : N := 35%N.
Definition question : N := 63%N.

(** The longest beginning whose characters satisfy [keep], and what follows. *)
Fixpoint span (keep : N -> bool) (s : str) : str * str :=
  match s with
  | c :: s' => if keep c then (let (a, b) := span keep s' in (c :: a, b)) else ([], s)
  | [] => ([], [])
  end.

(** [urllib.parse.urlparse]: scheme, netloc and path.
    Tabs and line ends are removed; the scheme is what comes before the first colon if it is made of letters,
    digits, plus, minus and point and begins with a letter; the netloc ends at a slash, a question mark or a hash;
    the path ends at a hash (fragment) and at a question mark (query).
    Simplifications: blanks at the beginning are not removed (a url begins with a letter here); brackets and
    characters outside of ASCII in the netloc, for which ValueError may be raised, are not looked at; parameters
    after a semicolon are only cut off for schemes that do not occur here. *)
Definition letter (c : N) : bool := (((65 <=? c) && (c <=? 90)) || ((97 <=? c) && (c <=? 122)))%N.
Definition scheme_char (c : N) : bool :=
  letter c || ((48 <=? c) && (c <=? 57))%N || (c =? 43)%N || (c =? 45)%N || (c =? 46)%N.
Definition unsafe (c : N) : bool := (c =? 9)%N || (c =? 10)%N || (c =? 13)%N.
Definition split_scheme (u : str) : str * str :=
  let (pre, rest) := span (fun c => negb (c =? colon)%N) u in
  match pre, rest with
  | c :: _, _ :: rest' => if letter c && forallb scheme_char pre then (lower pre, rest') else ([], u)
  | _, _ => ([], u)
  end.
Definition urlparse (u : str) : str * str * str :=
  let (scheme, rest) := split_scheme (filter (fun c => negb (unsafe c)) u) in
  let (netloc, rest) :=
    if starts [slash; slash] rest
    then span (fun c => negb ((c =? slash)%N || (c =? question)%N || (c =? hash)%N)) (skipn 2 rest)
    else ([], rest) in
  let (rest, _) := span (fun c => negb (c =? hash)%N) rest in
  let (path, _) := span (fun c => negb (c =? question)%N) rest in
  (scheme, netloc, path).

(** The objects of all buckets, in the order in which they are listed.  Simplification: an object that is written
    goes to the end of the list. *)
Definition content := list N.
Definition objects := list ((str * str) * content).
Definition is_object (b k : str) (o : (str * str) * content) : bool := str_eqb (fst (fst o)) b && str_eqb (snd (fst o)) k.
Definition get (st : objects) (b k : str) : option content :=
  match find (is_object b k) st with Some o => Some (snd o) | None => None end.
Definition put (st : objects) (b k : str) (d : content) : objects :=
  filter (fun o => negb (is_object b k o)) st ++ [((b, k), d)].

Definition scheme_of (p : provider) : str := match p with S3 => codes "s3" | GCP => codes "gs" end.

(** fs_provider.py 227-253: [get_bucket_and_path]. *)
Definition bucket_and_path (p : provider) (u : str) : res (str * str) :=
  let '(scheme, netloc, path) := urlparse u in
  if negb (str_eqb scheme (scheme_of p)) then Err ValueError
  else match path with
       | [] => Err IndexError
       | c :: rest => Ok (netloc, if (c =? slash)%N then rest else path)
       end.

(** fs_provider.py 61-65, 140-142: [upload_file]. *)
Definition upload (p : provider) (st : objects) (u : str) (d : content) : res objects :=
  bind (bucket_and_path p u) (fun bk => Ok (put st (fst bk) (snd bk) d)).
(** fs_provider.py 67-71, 144-147: [download_file]; the library raises if there is no such object. *)
Definition download (p : provider) (st : objects) (u : str) : res content :=
  bind (bucket_and_path p u) (fun bk =>
  match get st (fst bk) (snd bk) with Some d => Ok d | None => Err GenericException end).
(** fs_provider.py 95-110, 177-184: [copy]. *)
Definition copy (p : provider) (st : objects) (src dst : str) : res objects :=
  match p with
  | S3 =>
      let '(_, b, k) := urlparse src in
      let '(_, b', k') := urlparse dst in
      match get st b (lstrip_slash k) with
      | Some d => Ok (put st b' (lstrip_slash k') d)
      | None => Err GenericException
      end
  | GCP =>
      bind (bucket_and_path p src) (fun bk =>
      bind (bucket_and_path p dst) (fun bk' =>
      match get st (fst bk) (snd bk) with
      | Some d => Ok (put st (fst bk') (snd bk') d)
      | None => Err FileNotFoundError
      end))
  end.

(** downloader.py 88-95, 141-154 (S3 without s5cmd) and 166-192 (GCP): the content that is fetched for a file
    that is not in the cache. *)
Definition fetch (p : provider) (st : objects) (u : str) : res content :=
  let '(scheme, b, path) := urlparse u in
  if negb (str_eqb scheme (scheme_of p)) then Err ValueError
  else
    bind (match p with
          | S3 => Ok (lstrip_slash path)
          | GCP => match path with [] => Err IndexError | c :: rest => Ok (if (c =? slash)%N then rest else path) end
          end) (fun k =>
    match get st b k with Some d => Ok d | None => Err GenericException end).
(** downloader.py 63-70: the chunk with this name of the dataset at this url. *)
Definition fetch_chunk (p : provider) (st : objects) (dir name : str) : res content := fetch p st (join dir name).

(** Uploads (data_processor.py 248-265) and copies (functions.py 664-676) one after the other. *)
Inductive action := Put (u : str) (d : content) | Copy (src dst : str).
Definition act (p : provider) (st : objects) (a : action) : res objects :=
  match a with Put u d => upload p st u d | Copy src dst => copy p st src dst end.
Fixpoint act_all (p : provider) (st : objects) (l : list action) : res objects :=
  match l with [] => Ok st | a :: l' => bind (act p st a) (fun st => act_all p st l') end.

(** ** Before a job starts *)
(** The keys of a bucket. *)
Definition keys_of (st : objects) (b : str) : list str :=
  map (fun o => snd (fst o)) (filter (fun o => str_eqb (fst (fst o)) b) st).
(** fs_provider.py 126-132, 215-224: [is_empty]. *)
Definition is_empty_url (p : provider) (st : objects) (u : str) : res bool :=
  match p with
  | S3 =>
      let '(_, b, path) := urlparse u in
      Ok (negb (existsb (starts (rstrip_slash (lstrip_slash path) ++ [slash])) (keys_of st b)))
  | GCP => bind (bucket_and_path p u) (fun bk => Ok (negb (existsb (starts (snd bk)) (keys_of st (fst bk)))))
  end.
(** fs_provider.py 112-118, 189-199: [delete_file_or_directory]; on S3 one page of [limit] objects. *)
Definition delete_url (p : provider) (limit : nat) (st : objects) (u : str) : res objects :=
  bind (bucket_and_path p u) (fun bk =>
  let gone := listed p limit (snd bk) (keys_of st (fst bk)) in
  Ok (filter (fun o => negb (str_eqb (fst (fst o)) (fst bk) && mem (snd (fst o)) gone)) st)).
(** resolver.py 259-336 for the url of a bucket: the objects that are left when the job begins.  [exists] is called
    and its answer not looked at (line 322); [broken]: it raises. *)
Definition prepare_url (p : provider) (limit : nat) (md : mode) (use_checkpoint broken : bool) (u : str) (st : objects)
  : res objects :=
  match md with
  | Append => Ok st
  | _ =>
      bind (is_empty_url p st u) (fun e =>
      if e then Ok st
      else
        let has_index :=
          match bucket_and_path p (join (rstrip_slash u ++ [slash]) index_name) with
          | Ok _ => negb broken
          | Err _ => false
          end in
        match md with
        | NoMode => if has_index then Err RuntimeError else if use_checkpoint then Ok st else delete_url p limit st u
        | _ => delete_url p limit st u
        end)
  end.

(** ** Downloads with s5cmd
    downloader.py 100-140.  The command is a string that a shell splits into words at blanks.  Simplification: of a
    command with characters that mean something to the shell nothing is said ([other] stands for what happens);
    the tool copies the file if it is given a source and a target and fails otherwise. *)
Definition space : N := 32%N.
Definition shell_plain (c : N) : bool :=
  letter c || ((48 <=? c) && (c <=? 57))%N ||
  existsb (fun x => (x =? c)%N) [slash; dot; dash; colon; 95%N; 61%N; 44%N; 64%N; 37%N; 43%N].
Definition command (no_sign : bool) (remote local : str) : str :=
  codes "s5cmd " ++ (if no_sign then codes "--no-sign-request " else []) ++ codes "cp " ++ remote ++ [space] ++ local.
Definition words (s : str) : list str := filter (fun w => negb (str_eqb w [])) (split space s).
Definition s5cmd (other : str -> res (str * str)) (no_sign : bool) (remote local : str) : res (str * str) :=
  let cmd := command no_sign remote local in
  if forallb (fun c => shell_plain c || (c =? space)%N) cmd then
    match words cmd with
    | [_; c; a; b] => if str_eqb c (codes "cp") then Ok (a, b) else Err RuntimeError
    | [_; o; c; a; b] => if str_eqb o (codes "--no-sign-request") && str_eqb c (codes "cp") then Ok (a, b) else Err RuntimeError
    | _ => Err RuntimeError
    end
  else other cmd.

(** ** The table of downloaders
    downloader.py 298-330: a dictionary in the order of insertion; a class is a number. *)
Definition table := list (str * nat).
Definition default_table : table :=
  [(codes "s3://", 0); (codes "gs://", 1); (codes "azure://", 2); (codes "hf://", 3); (codes "local:", 4)].
Definition local_class : nat := 5.
Definition has_prefix (t : table) (k : str) : bool := existsb (fun e => str_eqb (fst e) k) t.
(** downloader.py 307-321. *)
Definition register (t : table) (k : str) (c : nat) (overwrite : bool) : res table :=
  if has_prefix t k then
    if overwrite then Ok (map (fun e => if str_eqb (fst e) k then (k, c) else e) t) else Err ValueError
  else Ok (t ++ [(k, c)]).
(** downloader.py 324-330. *)
Definition unregister (t : table) (k : str) : res table :=
  if has_prefix t k then Ok (filter (fun e => negb (str_eqb (fst e) k)) t) else Err KeyError.
(** downloader.py 333-352. *)
Definition get_downloader (t : table) (url : str) : nat :=
  match find (fun e => starts (fst e) url) t with Some e => snd e | None => local_class end.

(** Calls of the two functions; the caller catches the exceptions, which leave the table as it was. *)
Inductive call := Register (k : str) (c : nat) (overwrite : bool) | Unregister (k : str).
Definition make_call (t : table) (e : call) : table :=
  match (match e with Register k c o => register t k c o | Unregister k => unregister t k end) with
  | Ok t' => t'
  | Err _ => t
  end.
Definition calls (es : list call) : table := fold_left make_call es default_table.

(** resolver.py 53-62, 82: the url of a dataset that is given as a string; strings with other beginnings are taken
    for paths (their url, if any, is made by the platform for paths below /teamspace). *)
Definition url_of_string (s : str) : option str :=
  if existsb (fun k => starts (codes k) s) ["s3://"; "gs://"; "azure://"; "hf://"; "local:"]%string then Some s else None.
(** dataset.py 213-242, config.py 104-109: the class that fetches the files of a dataset given as a string or as a
    [Dir] with a url; [None]: no file is fetched. *)
Inductive given := AString (s : str) | ADir (url : str).
Definition downloader_of (t : table) (g : given) : option nat :=
  match g with
  | AString s => match url_of_string s with Some u => Some (get_downloader t u) | None => None end
  | ADir u => Some (get_downloader t u)
  end.

(** ** The index of a remote directory *)
Section Index.
  (** The chunk names in an index file, and an index file with these chunk names: [json] and the other fields of an
      index. *)
  Variables (parse : content -> option (list str)) (render : list str -> content).

  (** utilities.py 217-241: [read_index_file_content] of a url; [broken]: the request fails.  Whatever is raised
      inside of the [try] becomes [None]. *)
  Definition read_index (p : provider) (broken : bool) (st : objects) (u : str) : option (list str) :=
    if broken then None
    else match download p st (join (rstrip_slash u ++ [slash]) index_name) with
         | Ok d => parse d
         | Err _ => None
         end.

  (** functions.py 471-486 and data_processor.py 226-265, 897-958: optimize(mode="append") on one node: [new] holds
      the chunks that each worker makes.  Simplifications: no upload fails; the new chunks come in the order of the
      workers and the configurations agree (Merge_Model.v has the rest). *)
  Definition new_chunks (comp : option str) (state : list nat) (nw : nat) (new : list (list content)) : list (str * content) :=
    concat (map (fun w => map (fun j => (new_name comp state nw 0 w j, nth j (nth w new []) []))
                              (seq 0 (length (nth w new [])))) (seq 0 nw)).
  Definition append_job (p : provider) (broken : bool) (nw : nat) (comp : option str) (u : str) (new : list (list content))
      (st : objects) : res objects :=
    let existing := read_index p broken st u in
    bind (match existing with Some names => append_state nw names | None => Ok (repeat 0 nw) end) (fun state =>
    let chunks := new_chunks comp state nw new in
    act_all p st (map (fun c => Put (join u (fst c)) (snd c)) chunks ++
                  [Put (join u index_name)
                       (render ((match existing with Some names => names | None => [] end) ++ map fst chunks))])).

  (** functions.py 604-657, 664-695: [merge_datasets] of urls into a url.  [fails]: the request for this index
      fails.  Simplifications: the inputs have one configuration; the copies are made in order. *)
  Definition merge_job (p : provider) (fails : str -> bool) (inputs : list str) (comp : option str) (out : str) (st : objects)
    : res objects :=
    if length inputs <=? 1 then Err ValueError
    else if mem out inputs then Err ValueError
    else
      bind (Config_Model.map_res (fun u => match read_index p (fails u) st u with Some l => Ok (u, l) | None => Err ValueError end) inputs) (fun dirs =>
      match read_index p (fails out) st out with
      | Some _ => Err ValueError
      | None =>
          let olds := concat (map (fun d => map (join (fst d)) (snd d)) dirs) in
          let news := map (fun i => chunk_name comp 0 i) (seq 0 (length olds)) in
          act_all p st (map (fun c => Copy (fst c) (join out (snd c))) (combine olds news) ++
                        [Put (join out index_name) (render news)])
      end).
End Index.
