(** What the properties about the surroundings speak of. *)
From Coq Require Import String NArith ZArith.
From Verif Require Import Base Names_Model Size_Model Paths_Model Platform_Model.
Local Open Scope list_scope.
Local Open Scope nat_scope.

(** The clock does not go back. *)
Fixpoint clock (from : Z) (ts : list (Z * Z * Z)) : Prop :=
  match ts with
  | [] => True
  | (t1, t2, t3) :: ts' => (from <= t1 /\ t1 <= t2 /\ t2 <= t3)%Z /\ clock t3 ts'
  end.

(** A path made of names. *)
Definition path (names : list str) : str := concat (map (fun n => slash :: n) names).
Definition name_ok (n : str) : Prop := n <> [] /\ ~ In slash n.

(** The name of a folder that is, or starts like, that of the running studio. *)
Definition like_this_studio (n : str) : Prop := exists r, n = codes "this_studio" ++ r.
(** A studio goes by a name, upper and lower case being the same ([lower]). *)
Definition goes_by (lower : str -> str) (s : studio) (n : str) : Prop :=
  exists m, (s_name s = Some m \/ s_display s = Some m) /\ lower m = lower n.
(** [x] is the one element of [l] with [P]. *)
Definition the_one {A} (P : A -> Prop) (l : list A) (x : A) : Prop := In x l /\ P x /\ forall y, In y l -> P y -> y = x.

(** A line that names the resolver of systemd. *)
Definition systemd_line : str := codes "nameserver 127.0.0.53" ++ [10%N].
Definition local_server (l : str) : bool := contains (codes "nameserver 127") l.
