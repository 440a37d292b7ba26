(** What the properties about the inputs of map and optimize say. *)
From Coq Require Import String NArith ZArith.
From Verif Require Import Base Names_Model Distrib_Model Distrib_Spec Inputs_Model.
Local Open Scope list_scope.

(** An input that names something that exists, and nothing that exists and is empty. *)
Definition readable (fs : machine) (i : item) : Prop :=
  (exists s, In (Text s) i /\ fs s <> Missing) /\ forall s, In (Text s) i -> fs s <> File 0 /\ fs s <> Folder 0.

(** No size is negative. *)
Definition real (fs : machine) : Prop := forall p n, fs p = File n \/ fs p = Folder n -> (0 <= n)%Z.

(** The machines have the same files at the strings of the inputs. *)
Definition same_files (fs fs' : machine) (items : list item) : Prop := forall i s, In i items -> In (Text s) i -> fs s = fs' s.

(** The total weight of a share. *)
Definition weight_of (wt : item -> Z) (share : list item) : Z := zsum (map wt share).

(** An absolute path in normal form, by its parts. *)
Definition spell (parts : list str) : str := concat (map (cons 47%N) parts).
Definition proper (parts : list str) : Prop := Forall (fun p => p <> [] /\ ~ In 47%N p) parts.

(** The path is the directory, or below it. *)
Definition below (d p : str) : Prop := exists r, p = d ++ r /\ (r = [] \/ exists r', r = 47%N :: r').

(** An input that names a file, or an object of a store. *)
Definition names (fs : machine) (i : item) : Prop :=
  exists s, In (Text s) i /\ (fs s <> Missing \/ (exists r, s = codes "s3://" ++ r) \/ exists r, s = codes "gs://" ++ r).
(** An input none of whose strings is a path of something that exists, or starts with "s3:" or "gs:" in small or capital
    letters (a text such as "label: 3" or a url of another kind may be among them). *)
Definition store_like (s : str) : Prop :=
  exists a b r, s = a :: b :: 58%N :: r /\ (In a [115; 83] /\ b = 51 \/ In a [103; 71] /\ In b [115; 83])%N.
Definition plain (fs : machine) (i : item) : Prop := forall s, In (Text s) i -> fs s = Missing /\ ~ store_like s.
