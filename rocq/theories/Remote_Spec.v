(** What the properties about files in buckets speak of. *)
From Coq Require Import String NArith.
From Verif Require Import Base Names_Model Size_Model Paths_Model Output_Model Remote_Model.
Local Open Scope list_scope.
Local Open Scope nat_scope.

(** The url of an object. *)
Definition scheme_name (p : provider) : str := match p with S3 => codes "s3" | GCP => codes "gs" end.
Definition object_url (p : provider) (b k : str) : str := scheme_name p ++ codes "://" ++ b ++ slash :: k.

(** Characters that no url of the kind meant below has: ?, #, tab, line feed, carriage return. *)
Definition reserved : list N := [63; 35; 9; 10; 13]%N.
Definition bucket_ok (b : str) : Prop := forall c, In c b -> c <> slash /\ ~ In c reserved.
Definition key_ok (k : str) : Prop := k <> [] /\ starts [slash] k = false /\ forall c, In c k -> ~ In c reserved.

(** A url without these characters whose key does not begin with a slash. *)
Definition plain_url (p : provider) (u : str) : Prop := exists b k, bucket_ok b /\ key_ok k /\ u = object_url p b k.

(** The content of the object with this url. *)
Definition file_at (p : provider) (st : objects) (u : str) : option content :=
  match find (fun o => str_eqb (object_url p (fst (fst o)) (snd (fst o))) u) st with Some o => Some (snd o) | None => None end.
(** No slash in the name of a bucket. *)
Definition buckets_ok (st : objects) : Prop := forall o, In o st -> ~ In slash (fst (fst o)).

(** What uploads and copies do to files that are told apart by their urls. *)
Definition files := str -> option content.
Definition set_file (f : files) (u : str) (d : content) : files := fun v => if str_eqb v u then Some d else f v.
Definition should (f : files) (a : action) : option files :=
  match a with
  | Put u d => Some (set_file f u d)
  | Copy src dst => match f src with Some d => Some (set_file f dst d) | None => None end
  end.
Fixpoint should_all (f : files) (l : list action) : option files :=
  match l with [] => Some f | a :: l' => match should f a with Some f' => should_all f' l' | None => None end end.
Definition urls (a : action) : list str := match a with Put u _ => [u] | Copy s t => [s; t] end.

(** A directory: a url that does not end with a slash; the user may write one slash at its end. *)
Definition directory (p : provider) (dir : str) : Prop := plain_url p dir /\ ends [slash] dir = false.
Definition written_as (dir u : str) : Prop := u = dir \/ u = dir ++ [slash].
Definition below (dir name : str) : str := dir ++ slash :: name.

(** The downloader that was registered for a prefix by calls of register_downloader and unregister_downloader. *)
Definition default (k : str) : option nat :=
  match find (fun e => str_eqb (fst e) k) default_table with Some e => Some (snd e) | None => None end.
Fixpoint registered (es : list call) (m : str -> option nat) : str -> option nat :=
  match es with
  | [] => m
  | Register k c overwrite :: es' =>
      registered es' (fun x => if str_eqb x k then (match m k with
                                                    | Some c0 => if overwrite then Some c else Some c0
                                                    | None => Some c
                                                    end) else m x)
  | Unregister k :: es' => registered es' (fun x => if str_eqb x k then None else m x)
  end.

(** Paths without blanks and characters that mean something to a shell. *)
Definition path_ok (s : str) : Prop := s <> [] /\ Forall (fun c => shell_plain c = true) s.

(** The name of a compression: letters and digits. *)
Definition comp_word (comp : option str) : Prop :=
  forall c, comp = Some c -> Forall (fun x => letter x = true \/ ((48 <=? x) && (x <=? 57))%N = true) c.
