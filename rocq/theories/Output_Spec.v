(** Vocabulary for the properties of output directories. *)
From Verif Require Import Base Names_Model Size_Model Paths_Model.
Local Open Scope list_scope.

(** A directory written with or without a trailing slash. *)
Definition names (dir d : str) : Prop := ends [slash] d = false /\ (dir = d \/ dir = d ++ [slash]).
