(** The check for a newer version of the package (helpers.py 9-62), made by every [StreamingDataset(...)] (dataset.py 90), [map(...)]
    (functions.py 252) and [optimize(...)] (functions.py 407). *)
From Verif Require Import Base.

(** A version as it is written, e.g. 0.2.38.dev0: the numbers of the release, and whether it has a part for a pre-release or a development
    release.  Simplified: no epoch, no post-release and no local part, and the numbers of the pre-release are not kept (two versions that differ
    in them only do not occur here: a version with such a part is never announced and never asked for). *)
Record version := Ver { v_release : list nat; v_pre : bool; v_dev : bool }.
(** packaging's [Version.is_prerelease] and [is_devrelease] (helpers.py 32, 43). *)
Definition is_prerelease (v : version) : bool := v_pre v || v_dev v.
Definition is_devrelease (v : version) : bool := v_dev v.
(** The comparison of two versions as strings (helpers.py 38, 44). *)
Fixpoint same_numbers (a b : list nat) : bool :=
  match a, b with
  | [], [] => true
  | x :: a', y :: b' => (x =? y) && same_numbers a' b'
  | _, _ => false
  end.
Definition same_version (a b : version) : bool :=
  same_numbers (v_release a) (v_release b) && Bool.eqb (v_pre a) (v_pre b) && Bool.eqb (v_dev a) (v_dev b).

(** What the request for the package's page gives (helpers.py 35-37, 41, 43, 45): a [RequestException] (no network, time-out, a page that is
    no JSON), JSON without one of the fields that are read, or the releases with the latest version and whether that is yanked. *)
Inductive answer :=
| Offline
| Incomplete
| Page (releases : list version) (latest : version) (yanked : bool).

(** helpers.py 25-46: [_get_newer_version] without its cache; the second component counts the requests. *)
Definition ask (cur : version) (a : answer) : res (option version) * nat :=
  if is_prerelease cur then (Ok None, 0)
  else match a with
       | Offline => (Ok None, 1)
       | Incomplete => (Err KeyError, 1)
       | Page releases latest yanked =>
           if negb (existsb (same_version cur) releases) then (Ok None, 1)
           else let is_invalid := yanked || is_devrelease latest || is_prerelease latest in
                (Ok (if same_version cur latest || is_invalid then None else Some latest), 1)
       end.

(** The process: the one entry of the [lru_cache] (helpers.py 24; an exception is not kept), the messages already given (helpers.py 9-19;
    the message is a function of the announced version), the warnings given so far, oldest first, and the number of requests made. *)
Record process := Proc { p_cache : option (version * option version); p_known : list version; p_shown : list version; p_requests : nat }.
Definition fresh : process := Proc None [] [] 0.

(** helpers.py 24: the call through the cache. *)
Definition newer_version (cur : version) (a : answer) (p : process) : res (option version) * process :=
  match p_cache p with
  | Some (v, r) =>
      if same_version v cur then (Ok r, p)
      else match ask cur a with
           | (Ok r', n) => (Ok r', Proc (Some (cur, r')) (p_known p) (p_shown p) (p_requests p + n))
           | (Err e, n) => (Err e, Proc (p_cache p) (p_known p) (p_shown p) (p_requests p + n))
           end
  | None =>
      match ask cur a with
      | (Ok r', n) => (Ok r', Proc (Some (cur, r')) (p_known p) (p_shown p) (p_requests p + n))
      | (Err e, n) => (Err e, Proc (p_cache p) (p_known p) (p_shown p) (p_requests p + n))
      end
  end.
(** helpers.py 12-16: [WarningCache.warn]. *)
Definition warn (v : version) (p : process) : process :=
  if existsb (same_version v) (p_known p) then p
  else Proc (p_cache p) (v :: p_known p) (p_shown p ++ [v]) (p_requests p).
(** helpers.py 49-62: [_check_version_and_prompt_upgrade]. *)
Definition check_version (cur : version) (a : answer) (p : process) : res unit * process :=
  match newer_version cur a p with
  | (Err e, p') => (Err e, p')
  | (Ok None, p') => (Ok tt, p')
  | (Ok (Some v), p') => (Ok tt, warn v p')
  end.

(** The calls of a process, one after the other; [a] is what a request would give at that moment.  An exception reaches the caller of
    [StreamingDataset], [map] or [optimize], who may go on. *)
Fixpoint calls (cur : version) (l : list answer) (p : process) : list (res unit) * process :=
  match l with
  | [] => ([], p)
  | a :: l' => let '(r, p1) := check_version cur a p in let '(rs, p2) := calls cur l' p1 in (r :: rs, p2)
  end.
