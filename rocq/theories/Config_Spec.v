(** What a dataset restricted to some files and regions consists of. *)
From Verif Require Import Base Assign_Model Config_Model.

(** The samples of a list of files with one region [(start, end)] each: file name
    and position inside the file, in order. *)
Definition samples (files : list nat) (rois : list (nat * nat)) : list (nat * nat) :=
  flat_map (fun fr => map (fun i => (fst fr, i)) (seq (fst (snd fr)) (snd (snd fr) - fst (snd fr))))
           (combine files rois).

(** A region inside a chunk of [n] samples. *)
Definition roi_in (n : nat) (r : nat * nat) : Prop := fst r <= snd r /\ snd r <= n.

(** Python's [list[i]] for a non-negative [i], [None] outside. *)
Definition at_index {A} (l : list A) (i : Z) : option A :=
  if (i <? 0)%Z then None else nth_error l (Z.to_nat i).

(** The elements [l[b], l[b+s], l[b+2s], ...] that lie before position [e]:
    the textbook meaning of [l[b:e:s]] for [0 <= b], [e <= len(l)], [0 < s]. *)
Fixpoint every {A} (s skip : nat) (l : list A) : list A :=
  match l, skip with
  | [], _ => []
  | x :: l', 0 => x :: every s (s - 1) l'
  | _ :: l', S k => every s k l'
  end.
Definition slice_of {A} (b e s : nat) (l : list A) : list A := every s 0 (skipn b (firstn e l)).

(** A dataset described by the chunks of its index, the files it is restricted to
    and a region of interest for each: names are unique, every file is in the
    index and every region lies inside its file. *)
Definition valid_dataset (k : loader_kind) (original : list cinfo) (files : list nat) (rois : list roi) : Prop :=
  NoDup (map k_file original) /\
  Forall2 (fun f r => exists c n, In c original /\ k_file c = f /\ num_samples k c = Ok n /\ roi_in n r) files rois.

(** Python's documented slice [l[a:b:k]] of a sequence of length [n]: the items at
    positions [i, i+k, i+2k, ...] strictly before [j] (in the direction of [k]),
    where a negative bound counts from the end, bounds are clipped to the sequence
    and missing bounds are its ends. *)
Definition clip (lo hi : Z) (x : Z) : Z := Z.max lo (Z.min hi x).
Definition bound (n lo hi dflt : Z) (x : option Z) : Z :=
  match x with None => dflt | Some x => clip lo hi (if (x <? 0)%Z then x + n else x)%Z end.
Definition slice_from (n k : Z) (a : option Z) : Z :=
  if (0 <? k)%Z then bound n 0 n 0 a else bound n (-1) (n - 1) (n - 1) a.
Definition slice_to (n k : Z) (b : option Z) : Z :=
  if (0 <? k)%Z then bound n 0 n n b else bound n (-1) (n - 1) (-1) b.
Definition before (k x j : Z) : Prop := if (0 <? k)%Z then (x < j)%Z else (j < x)%Z.
