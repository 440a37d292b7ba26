(** What the properties about cache directories of remote datasets say. *)
From Coq Require Import String NArith.
From Verif Require Import Base Names_Model Fresh_Model.
Local Open Scope list_scope.
Local Open Scope nat_scope.

(** The start: some datasets are stored, nothing is cached and nobody has opened anything. *)
Definition new_world (st : str -> folder) : world := World st (fun _ _ => []) [].

(** The versions of the dataset at [url] that are published. *)
Fixpoint versions (url : str) (es : list event) : list folder :=
  match es with
  | [] => []
  | Publish u files :: es' => if list_eq_dec N.eq_dec u url then files :: versions url es' else versions url es'
  | _ :: es' => versions url es'
  end.

(** The urls of a history. *)
Definition url_of (e : event) : list str := match e with Publish u _ | Open _ u _ => [u] | Read _ _ => [] end.

(** The timestamp in the index of a version, as it was written; [None]: no index or no timestamp. *)
Definition written_stamp (updated_at : list N -> option str) (files : folder) : option str :=
  match files index_name with Some index => updated_at index | None => None end.

(** The digests of the urls do not collide, and no url is opened with an index of the user's own. *)
Definition ordinary (hash : str -> str) (url : str) (es : list event) : Prop :=
  (forall u, In u (flat_map url_of es) -> hash u = hash url -> u = url) /\
  (forall root i, ~ In (Open root url (Some i)) es).

(** The file of a version. *)
Definition file_of (files : folder) (name : str) : res (list N) :=
  match files name with Some data => Ok data | None => Err FileNotFoundError end.
Definition result {A} (r : res (A * world)) : res A := match r with Ok (a, _) => Ok a | Err e => Err e end.

(** The version has an index with a timestamp ("0" stands for none). *)
Definition stamped (updated_at : list N -> option str) (files : folder) : Prop :=
  exists s, written_stamp updated_at files = Some s /\ s <> codes "0".

(** All versions of the dataset so far carry different timestamps; at the beginning there may be no dataset. *)
Definition stamps_differ (updated_at : list N -> option str) (first : folder) (vs : list folder) : Prop :=
  (first index_name = None \/ stamped updated_at first) /\ Forall (stamped updated_at) vs /\
  NoDup (map (written_stamp updated_at) (first :: vs)).
