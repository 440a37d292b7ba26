(** Vocabulary for the room on the disk. *)
From Verif Require Import Base Disk_Model.

(** No input has more than [m] bytes. *)
Definition inputs_up_to (m : nat) (j : job) (queues : list (list nat)) : Prop :=
  forall i, In i (concat queues) -> sum (j_sizes j i) <= m.
(** The bytes a job writes in all. *)
Definition all_output (j : job) (queues : list (list nat)) : nat := sum (map (j_out j) (concat queues)).
(** Every input was worked on, once. *)
Definition all_worked (queues : list (list nat)) (s : disk) : Prop := Permutation (s_worked s) (concat queues).
(** The job cannot go on. *)
Definition stuck (j : job) (s : disk) : Prop := forall t, step j s t = None.
