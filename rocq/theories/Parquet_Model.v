(** Model of the index of directories of Parquet files.
    Source: src/litdata/streaming/writer.py 565-643, src/litdata/utilities/parquet.py 17-361,
    src/litdata/utilities/hf_dataset.py 10-34, src/litdata/utilities/dataset_utilities.py 81-90,
    src/litdata/streaming/dataset.py 99-102; fnmatch of the standard library.

    Simplifications: the threads that read the metadata are not modelled, since their results are collected
    in the order of the files (parquet.py 38-42; an exception is raised when the result is asked for); the progress
    bar is left out; the timestamp of the index is not modelled. *)
From Coq Require Import String NArith.
From Verif Require Import Base Names_Model Size_Model Paths_Model Format_Model Assign_Model Config_Model.
Local Open Scope list_scope.
Local Open Scope nat_scope.

(** What a listing says of a file: its name (with its folders, in a bucket), whether it is a folder, and its content. *)
Record entry := Entry { e_name : str; e_folder : bool; e_data : list N }.

(** parquet.py 66, 115, 218: the three classes. *)
Inductive source := Local | Cloud | Hub.

(** parquet.py 81-83, 151-154, 249-251: the files that are indexed. *)
Definition parquet_suffix : str := codes ".parquet".
Definition chosen (s : source) (e : entry) : bool :=
  match s with
  | Cloud => negb (e_folder e) && ends parquet_suffix (e_name e)
  | Local | Hub => ends parquet_suffix (e_name e)
  end.

(** What pyarrow finds in a file (or in its footer): number of rows, names and types of the columns. *)
Definition metadata := (nat * list (str * str))%type.

(** [int.from_bytes(b, "little")]. *)
Fixpoint from_le (b : list N) : N := match b with [] => 0 | x :: b' => x + 256 * from_le b' end%N.

(** parquet.py 169-180 and 266-277: the footer; seeking before the start raises. *)
Definition read_footer (data : list N) : res (list N) :=
  let size := length data in
  if size <? 8 then Err ValueError
  else
    let footer_size := N.to_nat (from_le (firstn 4 (skipn (size - 8) data))) in
    if size <? footer_size + 8 then Err ValueError
    else Ok (skipn (size - footer_size - 8) data).

(** parquet.py 85-106, 156-193, 253-290: [task].  [pq]: [pyarrow.parquet.ParquetFile]. *)
Definition task (pq : list N -> res metadata) (s : source) (e : entry) : res (str * nat * (nat * list str)) :=
  if e_folder e then Err GenericException
  else
    bind (match s with Local => pq (e_data e) | Cloud | Hub => bind (read_footer (e_data e)) pq end) (fun m =>
    Ok (basename (e_name e), length (e_data e), (fst m, map snd (snd m)))).

(** One entry of "chunks". *)
Record pchunk := PChunk { p_name : str; p_bytes : nat; p_rows : nat }.

(** writer.py 618-639: the loop over the files; [fmt]: config["data_format"].  The results are kept by their order
    and sorted by it, which is the order of the loop. *)
Fixpoint index_loop (pq : list N -> res metadata) (s : source) (fmt : list str) (l : list entry) : res (list pchunk * list str) :=
  match l with
  | [] => Ok ([], fmt)
  | e :: l' =>
      bind (task pq s e) (fun x =>
      let '(name, size, (rows, types)) := x in
      if negb (length fmt =? 0) && negb (if list_eq_dec (list_eq_dec N.eq_dec) fmt types then true else false)
      then Err GenericException
      else bind (index_loop pq s types l') (fun r => Ok (PChunk name size rows :: fst r, snd r)))
  end.

(** writer.py 565-643: the index of a listing. *)
Definition index_parquet (pq : list N -> res metadata) (s : source) (listing : list entry) : res (list pchunk * list str) :=
  index_loop pq s [] (filter (chosen s) listing).

(** dataset.py 394-395 with [sample_at]: row [i] of the dataset with this index; [rows]: the rows of each file.
    Simplification: files are numbered, the loader returns the row at the position (C39 has the loader). *)
Definition numbered (chunks : list pchunk) : list cinfo :=
  map (fun x => Ci (fst x) (p_rows (snd x)) None) (combine (seq 0 (length chunks)) chunks).
Definition row_at {A} (chunks : list pchunk) (rows : list (list A)) (i : Z) : res A :=
  bind (sample_at ByItem (numbered chunks) (seq 0 (length chunks)) (map (fun c => (0, p_rows c)) chunks) i) (fun x =>
  match nth_error rows (fst x) with
  | Some l => match nth_error l (snd x) with Some r => Ok r | None => Err IndexError end
  | None => Err IndexError
  end).

(** parquet.py 48-63, 108-112, 195-215, 292-297: [write_index]: local files, files in the bucket.  [dir]: the directory of the
    Parquet files, [cache]: the directory given as [cache_dir]; without it [fallback] ([default_cache_dir]) is used. *)
Definition disk := str -> option (list N).
Definition set_file (d : disk) (p : str) (x : option (list N)) : disk := fun q => if list_eq_dec N.eq_dec q p then x else d q.
Definition index_file : str := codes "index.json".
Definition write_index (s : source) (dir : str) (cache : option str) (fallback : str) (index : list N) (d remote : disk) : disk * disk :=
  match s with
  | Local => (set_file d (join (match cache with Some c => c | None => dir end) index_file) (Some index), remote)
  | Hub => (set_file d (join (match cache with Some c => c | None => fallback end) index_file) (Some index), remote)
  | Cloud =>
      let p := join (match cache with Some c => c | None => fallback end) index_file in
      let d := set_file d p (Some index) in
      let remote := set_file remote (join dir index_file) (d p) in
      (set_file d p None, remote)
  end.

(** hf_dataset.py 10-34: the index of a Hugging Face dataset; [dump]: the index as a file. *)
Definition index_hub (pq : list N -> res metadata) (dump : list pchunk * list str -> list N) (fallback : str) (listing : list entry) (d : disk) : res (list N * disk) :=
  match d (join fallback index_file) with
  | Some index => Ok (index, d)
  | None =>
      bind (index_parquet pq Hub listing) (fun x =>
      Ok (dump x, fst (write_index Hub [] (Some fallback) fallback (dump x) d (fun _ => None))))
  end.

(** fnmatch.  Simplification: in a set, the pairs around hyphens are read from the left; sets with several adjacent
    hyphens may differ. *)
Inductive tok := Star | Any | Lit (c : N) | Set_ (negated : bool) (items : list N).
Definition star : N := 42%N.
Definition mark : N := 63%N.
Definition bra : N := 91%N.
Definition ket : N := 93%N.
Definition bang : N := 33%N.

(** The part of the pattern up to the next closing bracket, and the rest after it. *)
Fixpoint until_ket (p : str) : option (str * str) :=
  match p with
  | [] => None
  | c :: p' => if (c =? ket)%N then Some ([], p') else match until_ket p' with Some (a, b) => Some (c :: a, b) | None => None end
  end.
Definition set_at (p : str) : option (bool * str * str) :=
  let '(neg, q) := match p with c :: p' => if (c =? bang)%N then (true, p') else (false, p) | [] => (false, p) end in
  match q with
  | c :: q' => if (c =? ket)%N then match until_ket q' with Some (a, b) => Some (neg, c :: a, b) | None => None end
               else match until_ket q with Some (a, b) => Some (neg, a, b) | None => None end
  | [] => None
  end.
Fixpoint tokens (fuel : nat) (p : str) : list tok :=
  match fuel with
  | 0 => []
  | S n =>
      match p with
      | [] => []
      | c :: p' =>
          if (c =? star)%N then Star :: tokens n p'
          else if (c =? mark)%N then Any :: tokens n p'
          else if (c =? bra)%N then
            match set_at p' with
            | Some (neg, items, rest) => Set_ neg items :: tokens n rest
            | None => Lit c :: tokens n p'
            end
          else Lit c :: tokens n p'
      end
  end.
Fixpoint in_set (items : list N) (c : N) : bool :=
  match items with
  | [] => false
  | a :: items' =>
      match items' with
      | h :: b :: rest =>
          if (h =? 45)%N then ((a <=? c)%N && (c <=? b)%N) || in_set rest c
          else (a =? c)%N || in_set items' c
      | _ => (a =? c)%N || in_set items' c
      end
  end.
Fixpoint matches (ts : list tok) (s : str) : bool :=
  match ts with
  | [] => match s with [] => true | _ => false end
  | Star :: ts' =>
      (fix anywhere (s : str) : bool := matches ts' s || match s with [] => false | _ :: s' => anywhere s' end) s
  | Any :: ts' => match s with [] => false | _ :: s' => matches ts' s' end
  | Lit c :: ts' => match s with [] => false | x :: s' => (x =? c)%N && matches ts' s' end
  | Set_ neg items :: ts' => match s with [] => false | x :: s' => xorb neg (in_set items x) && matches ts' s' end
  end.
Definition fnmatch (name pattern : str) : bool := matches (tokens (length pattern) pattern) name.

(** dataset.py 99-102 and dataset_utilities.py 81-90: the files of [StreamingDataset("dir/pattern")]. *)
Definition select (pattern : str) (chunks : list pchunk) : res (list pchunk) :=
  match filter (fun c => fnmatch (p_name c) pattern) chunks with
  | [] => Err AssertionError
  | l => Ok l
  end.
