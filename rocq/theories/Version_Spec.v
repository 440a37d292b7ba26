(** Vocabulary for the check for newer versions. *)
From Verif Require Import Base Version_Model.

(** Releases are compared number by number, missing numbers counting as 0. *)
Fixpoint older (a b : list nat) : Prop :=
  match a, b with
  | [], [] => False
  | [], y :: b' => 0 < y \/ older [] b'
  | x :: _, [] => False
  | x :: a', y :: b' => x < y \/ (x = y /\ older a' b')
  end.
(** A version that is neither a pre-release nor a development release, written without superfluous zeros at the end. *)
Definition plain_release (v : version) : Prop := v_pre v = false /\ v_dev v = false /\ last (v_release v) 1 <> 0.
(** No release on the page is newer than the one that is called the latest. *)
Definition latest_is_newest (a : answer) : Prop :=
  match a with
  | Page releases latest _ => forall v, In v releases -> ~ older (v_release latest) (v_release v)
  | _ => True
  end.
(** The page shows that another version than the installed one can be installed: the installed version is one of the releases, and the
    latest one is another, not withdrawn and neither a pre-release nor a development release. *)
Definition announces (cur : version) (a : answer) (v : version) : Prop :=
  exists releases, a = Page releases v false /\ In cur releases /\ v <> cur /\ v_pre v = false /\ v_dev v = false.
