(** What the properties about [walk] say. *)
From Coq Require Import NArith.
From Verif Require Import Base Names_Model Paths_Model Walk_Model.
Local Open Scope list_scope.
Local Open Scope nat_scope.

(** What there is to visit below a folder: the folder with its contents, and the same for the folders in it.  Only
    finite trees in which every folder can be listed have such a list. *)
Inductive below (fs : files) : str -> list visit -> Prop :=
| Below p names folders filenames subs :
    listdir fs p = Ok names ->
    (forall n, In n names -> if isfile fs (join p n) then In n filenames /\ ~ In n folders else In n folders /\ ~ In n filenames) ->
    (exists keep keep', folders = filter keep names /\ filenames = filter keep' names) ->
    Forall2 (fun n out => below fs (join p n) out) folders subs ->
    below fs p ((p, folders, filenames) :: concat subs).

(** Every folder is visited after the one that contains it. *)
Definition parents_first (root : str) (l : list visit) : Prop :=
  forall pre v post, l = pre ++ v :: post ->
    (pre = [] /\ fst (fst v) = root) \/ exists u n, In u pre /\ In n (snd (fst u)) /\ fst (fst v) = join (fst (fst u)) n.
