(** Vocabulary for the properties of resuming. *)
From Coq Require Import ZArith.
From Verif Require Import Base Names_Model Accept_Model.

(** Inputs that json can represent: made of None, truth values, numbers, strings, lists
    and dictionaries with different strings as keys. *)
Inductive plain : value -> Prop :=
| plain_none : plain PNone
| plain_bool b : plain (PBool b)
| plain_int z : plain (PInt z)
| plain_float z : plain (PFloat z)
| plain_str s : plain (PStr s)
| plain_list l : Forall plain l -> plain (PList l)
| plain_dict (d : list (str * value)) : NoDup (map fst d) -> Forall (fun e => plain (snd e)) d ->
    plain (PDict (map (fun e => (KStr (fst e), snd e)) d)).

(** A value of python: no dictionary has the same key twice. *)
Inductive proper : value -> Prop :=
| proper_none : proper PNone
| proper_bool b : proper (PBool b)
| proper_int z : proper (PInt z)
| proper_float z : proper (PFloat z)
| proper_nan : proper PNan
| proper_str s : proper (PStr s)
| proper_list l : Forall proper l -> proper (PList l)
| proper_tuple l : Forall proper l -> proper (PTuple l)
| proper_dict d : NoDup (map fst d) -> Forall (fun e => proper (snd e)) d -> proper (PDict d)
| proper_object n : proper (PObject n).

(** The number that a value is in an arithmetic operation. *)
Inductive counts_as : value -> Z -> Prop :=
| counts_false : counts_as (PBool false) 0
| counts_true : counts_as (PBool true) 1
| counts_int z : counts_as (PInt z) z
| counts_float z : counts_as (PFloat z) z.

(** The same input: equal but for the type of numbers (1, 1.0 and True) and the order of the
    entries of a dictionary. *)
Inductive same : value -> value -> Prop :=
| same_none : same PNone PNone
| same_number v w z : counts_as v z -> counts_as w z -> same v w
| same_str s : same (PStr s) (PStr s)
| same_list l m : Forall2 same l m -> same (PList l) (PList m)
| same_dict d e : length d = length e -> Forall (fun x => exists v, In (fst x, v) e /\ same (snd x) v) d -> same (PDict d) (PDict e).

(** The directory of checkpoints of a job after any number of interrupted runs, each
    of which left any numbers of inputs as done. *)
Inductive jobs (remote : bool) (items : list (list value)) : saved_job -> Prop :=
| job_new : jobs remote items (SavedJob Missing (fun _ => None))
| job_run st rest st' done : jobs remote items st -> begin remote (length items) items st = Ok (rest, st') ->
    jobs remote items (SavedJob (j_config st') done).
