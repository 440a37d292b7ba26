(** Vocabulary for crashes during downloads. *)
From Verif Require Import Base Crash_Model.

(** Writes reach a file completely and in order. *)
Definition cut_ok (cut : list nat -> list (list nat)) : Prop := forall l, concat (cut l) = l.

(** The file at [p] is missing or complete. *)
Definition absent_or_complete (s : fs) (p : path) (data : list nat) : Prop := s p = None \/ s p = Some data.
