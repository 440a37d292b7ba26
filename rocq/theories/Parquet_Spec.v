(** What the properties about Parquet directories say. *)
From Coq Require Import String NArith.
From Verif Require Import Base Names_Model Paths_Model Format_Model Parquet_Model.
Local Open Scope list_scope.
Local Open Scope nat_scope.

(** The Parquet format: a body, a footer, the length of the footer in four bytes, and four more bytes.  pyarrow finds the same
    metadata in the file and in what follows the body. *)
Definition parquet_file (pq : list N -> res metadata) (data : list N) (m : metadata) : Prop :=
  exists body footer magic, data = body ++ footer ++ le32 (N.of_nat (length footer)) ++ magic /\
    length magic = 4 /\ (N.of_nat (length footer) < two32)%N /\
    pq data = Ok m /\ pq (footer ++ le32 (N.of_nat (length footer)) ++ magic) = Ok m.

(** The Parquet files of a listing: the files whose names end with ".parquet", in the order of the listing. *)
Definition named_parquet (e : entry) : Prop := exists stem, e_name e = stem ++ codes ".parquet".
Inductive parquet_files : list entry -> list entry -> Prop :=
| no_files : parquet_files [] []
| a_file e l l' : named_parquet e -> e_folder e = false -> parquet_files l l' -> parquet_files (e :: l) (e :: l')
| another e l l' : ~ (named_parquet e /\ e_folder e = false) -> parquet_files l l' -> parquet_files (e :: l) l'.

(** What the index should say of a file. *)
Definition described (e : entry) (m : metadata) : pchunk := PChunk (basename (e_name e)) (length (e_data e)) (fst m).

(** Characters that are special in patterns. *)
Definition plain (s : str) : Prop := ~ In star s /\ ~ In mark s /\ ~ In bra s.

(** Patterns as the documentation of fnmatch describes them: characters that stand for themselves, "*" for any characters,
    "?" for one, "[...]" for one of a set and "[!...]" for one outside of it; a set lists characters and ranges. *)
Inductive element := One (c : N) | Range (a b : N).
Inductive part := Char (c : N) | Anything | AnyChar | Class (negated : bool) (set : list element).
Definition element_text (e : element) : str := match e with One c => [c] | Range a b => [a; 45%N; b] end.
Definition part_text (x : part) : str :=
  match x with
  | Char c => [c]
  | Anything => codes "*"
  | AnyChar => codes "?"
  | Class negated set => codes "[" ++ (if negated then codes "!" else []) ++ concat (map element_text set) ++ codes "]"
  end.
Definition pattern_text (p : list part) : str := concat (map part_text p).

(** The characters of a set. *)
Definition in_element (e : element) (c : N) : Prop := match e with One a => c = a | Range a b => (a <= c <= b)%N end.
(** The names that a pattern describes. *)
Inductive describes : list part -> str -> Prop :=
| d_end : describes [] []
| d_char c p s : describes p s -> describes (Char c :: p) (c :: s)
| d_anything m p s : describes p s -> describes (Anything :: p) (m ++ s)
| d_any_char c p s : describes p s -> describes (AnyChar :: p) (c :: s)
| d_class set c p s : Exists (fun e => in_element e c) set -> describes p s -> describes (Class false set :: p) (c :: s)
| d_other set c p s : ~ Exists (fun e => in_element e c) set -> describes p s -> describes (Class true set :: p) (c :: s).

(** Patterns that can be written so: "*", "?" and "[" do not stand for themselves; a set is not empty, does not contain "]", does
    not begin with "!" unless it is negated, and "-" occurs in it in ranges only. *)
Definition fine_element (e : element) : Prop :=
  match e with One c => c <> 45%N /\ c <> 93%N | Range a b => a <> 45%N /\ a <> 93%N /\ b <> 93%N end.
Definition fine_part (x : part) : Prop :=
  match x with
  | Char c => c <> 42%N /\ c <> 63%N /\ c <> 91%N
  | Anything | AnyChar => True
  | Class negated set => set <> [] /\ Forall fine_element set /\ (negated = false -> hd 0%N (concat (map element_text set)) <> 33%N)
  end.
