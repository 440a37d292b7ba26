(** Vocabulary for the item loaders over their life. *)
From Verif Require Import Base Format_Model Loader_Spec Encrypt_Model Items_Model.

(** * Parquet datasets *)
Section Parquet.
Context {row : Type}.
(** Chunk [c] of dataset [d] has the row groups [whole c]; its file has [size c] bytes. *)
Context (d : nat) (whole : nat -> list (list row)) (size : nat -> nat).
Definition complete (c : nat) : pfile row := PF (size c) (Some (whole c)).
Definition a_part (c : nat) (f : pfile row) : Prop := pf_rows f = None /\ pf_size f < size c.

(** What happens to a loader that only dataset [d] uses: files arrive complete, or in part; but after a row of a
    chunk was asked for the first time, and if the loader loads whole chunks ahead ([ahead]), they arrive complete.  Rows that are
    asked for exist.  [asked]: the chunks of which rows were asked for. *)
Fixpoint orderly (ahead : bool) (asked : list nat) (os : list (qop row)) : Prop :=
  match os with
  | [] => True
  | QArrive (d', c) f :: os =>
      d' = d /\ (f = complete c \/ a_part c f /\ ahead = false /\ ~ In c asked) /\ orderly ahead asked os
  | QLoad (d', c) i :: os => d' = d /\ i < length (concat (whole c)) /\ orderly ahead (c :: asked) os
  | QSetup d' :: os => d' = d /\ orderly ahead asked os
  | QPre (d', _) :: os | QDelete (d', _) :: os | QGone (d', _) :: os => d' = d /\ orderly ahead asked os
  | QClose _ :: os => orderly ahead asked os
  end.
(** Whether the complete file of chunk [c] is in the cache after [os]. *)
Definition now_there (c : nat) (there : bool) (o : qop row) : bool :=
  match o with
  | QArrive (_, c') f => if c' =? c then match pf_rows f with Some _ => true | None => false end else there
  | QDelete (_, c') | QGone (_, c') => if c' =? c then false else there
  | _ => there
  end.
Definition is_there (c : nat) (os : list (qop row)) : bool := fold_left (now_there c) os false.
(** What a call has to return. *)
Definition right_answer (os : list (qop row)) (o : qop row) (out : qout row) : Prop :=
  match o with
  | QLoad (_, c) i =>
      if is_there c os then exists r, nth_error (concat (whole c)) i = Some r /\ out = QRow r else out = QWaits
  | _ => out = QDone
  end.
End Parquet.

(** * Blocks of tokens *)
(** Runs of samples of one chunk each, as the samples are read. *)
Definition samples_of (runs : list (nat * list nat)) : list (nat * nat) :=
  flat_map (fun r => map (pair (fst r)) (snd r)) runs.
(** Chunk [c] is listed with its number of items, and block [j] is in it. *)
Definition readable (itemsize block : nat) (items : nat -> list bytes) (conf : dset) (c j : nat) : Prop :=
  nth_error (ds_sizes conf) c = Some (length (items c)) /\ itemsize * j * block + itemsize * block <= length (concat (items c)).
Definition good_run (itemsize block : nat) (items : nat -> list bytes) (conf : dset) (r : nat * list nat) : Prop :=
  snd r <> [] /\ Forall (readable itemsize block items conf (fst r)) (snd r).
(** What the blocks that were delivered hold in the end: a block that was the only one of its chunk cannot be read any
    more, unless its chunk was the last. *)
Fixpoint still_there (items : nat -> list bytes) (itemsize block : nat) (runs : list (nat * list nat)) : list (option bytes) :=
  match runs with
  | [] => []
  | (c, js) :: rest =>
      map (fun j => match js, rest with [_], _ :: _ => None | _, _ => Some (token_block (items c) itemsize block j) end) js
      ++ still_there items itemsize block rest
  end.

(** * Several datasets with one PyTreeLoader *)
(** What the samples [fields p] of chunk [p] are stored as. *)
Definition stored (fields : list (list bytes)) : bytes :=
  chunk_data (map (fun fs => encode_fields fs (map blen fs)) fields).
(** The answer to a call: the sample asked for. *)
Definition own_sample (fields : path -> list (list bytes)) (o : yop) (out : yout) : Prop :=
  match o with
  | YSetup _ => out = YDone
  | YLoad p i => exists fs, nth_error (fields p) i = Some fs /\ out = YFields fs
  end.
(** The datasets are alike (no encryption, [n] fields), and samples that are asked for exist. *)
Definition alike (n : nat) (fields : path -> list (list bytes)) (o : yop) : Prop :=
  match o with YSetup conf => conf = Yc None n | YLoad p i => i < length (fields p) end.

(** * Using a dataset *)
Definition uses (us : list use) (h : held) : held := fold_left h_use us h.
Definition whole_loop (u : use) : Prop := match u with ULoop cs true => cs <> [] | UReset => True | _ => False end.
