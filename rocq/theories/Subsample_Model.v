(** Subsampling and splitting a dataset.  Models utilities/subsample.py, the
    part of utilities/dataset_utilities.py that subsamples, and
    utilities/train_test_split.py. *)
From Verif Require Import Base Assign_Model Config_Model.

(** utilities/subsample.py 6-38: [shuffle_lists_together].  [perm n] is what the
    random generator returns as permutation of [range(n)]. *)
Definition shuffle_together {A B} (perm : nat -> list nat) (l1 : list A) (l2 : list B)
  : res (list A * list B) :=
  if length l1 =? length l2
  then bind (gather l1 (perm (length l1))) (fun s1 =>
       bind (gather l2 (perm (length l1))) (fun s2 => Ok (s1, s2)))
  else Err ValueError.

(** [np.cumsum]. *)
Fixpoint cumsum_from (acc : nat) (l : list nat) : list nat :=
  match l with [] => [] | x :: l' => (acc + x) :: cumsum_from (acc + x) l' end.

(** [np.argmax(cumsum >= k)]: the first position that satisfies the test, 0 if none does. *)
Fixpoint first_ge (k i : nat) (l : list nat) : option nat :=
  match l with [] => None | x :: l' => if k <=? x then Some i else first_ge k (S i) l' end.
Definition argmax_ge (k : nat) (l : list nat) : nat :=
  match first_ge k 0 l with Some i => i | None => 0 end.

(** Assignment to [l[-1]] of a non-empty list. *)
Fixpoint set_last {A} (f : A -> A) (l : list A) : list A :=
  match l with [] => [] | [x] => [f x] | x :: l' => x :: set_last f l' end.

Definition roi_size (r : roi) : nat := snd r - fst r.

(** utilities/subsample.py 41-79: [subsample_filenames_and_roi].  On an empty list
    np.argmax raises ValueError.  The subtraction of line 60 happens in numpy
    integers; it is written as [end + k - cumsum], which is the same number as
    long as the result is not negative (and lines 63 fails otherwise). *)
Definition subsample_filenames_and_roi (chunks : list cinfo) (rois : list roi) (item_count : nat)
  : res (list nat * list roi * (list cinfo * list roi)) :=
  if negb (length chunks =? length rois) then Err AssertionError
  else if item_count =? 0 then Ok ([], [], (chunks, rois))
  else match rois with
  | [] => Err ValueError
  | _ :: _ =>
      let cums := cumsum_from 0 (map roi_size rois) in
      let m := argmax_ge item_count cums in
      let c := nth m cums 0 in
      let exact := c =? item_count in
      let files := map k_file (firstn (m + 1) chunks) in
      let kept := set_last (fun r => (fst r, snd r + item_count - c)) (firstn (m + 1) rois) in
      if negb (sum (map roi_size kept) =? item_count) then Err AssertionError
      else
        let m' := if exact then m + 1 else m in
        let left_chunks := skipn m' chunks in
        let left_rois := skipn m' rois in
        let cut := snd (last kept (0, 0)) in
        let left_rois := if exact then left_rois
                         else match left_rois with [] => [] | r :: l => (cut, snd r) :: l end in
        Ok (files, kept, (left_chunks, left_rois))
  end.

(** utilities/dataset_utilities.py 78-124: the end of [subsample_streaming_dataset],
    from the list of chunks (already filtered by the name pattern, line 74).
    The fraction is [num/den], which any float is; [subsample -= 1.0] is exact on
    floats.  [trunc n num den] is int(n * f), whatever the rounding of the product
    does.  [perm call n] is the generator's answer on its [call]-th use.
    [math.isclose(f, 1.0)] compares with the relative tolerance 1e-9. *)
Definition isclose_one (num den : N) : bool :=
  ((N.max num den - N.min num den) * 1000000000 <=? N.max num den)%N.

Fixpoint repeat_loop (fuel : nat) (perm : nat -> nat -> list nat) (shuffle : bool) (call : nat)
         (num den : N) (chunks : list cinfo) (rois : list roi) (ffiles : list nat) (frois : list roi)
  : res (nat * N * list cinfo * list roi * list nat * list roi) :=
  if (den <=? num)%N then
    match fuel with
    | 0 => Err OutOfFuel
    | S fuel' =>
        bind (if shuffle then shuffle_together (perm call) chunks rois else Ok (chunks, rois)) (fun cr =>
        repeat_loop fuel' perm shuffle (S call) (num - den)%N den (fst cr) (snd cr)
                    (ffiles ++ map k_file (fst cr)) (frois ++ snd cr))
    end
  else Ok (call, num, chunks, rois, ffiles, frois).

Definition subsample_dataset (trunc : nat -> N -> N -> nat) (perm : nat -> nat -> list nat)
           (k : loader_kind) (shuffle : bool) (num den : N) (chunks : list cinfo)
  : res (list nat * list roi) :=
  match chunks with
  | [] => Err AssertionError
  | _ :: _ =>
      bind (generate_roi k chunks) (fun rois =>
      if isclose_one num den then Ok (map k_file chunks, rois)
      else
        bind (repeat_loop (S (N.to_nat (num / den))) perm shuffle 0 num den chunks rois [] []) (fun st =>
        match st with
        | (call, num', chunks', rois', ffiles, frois) =>
            if (0 <? num')%N then
              bind (if shuffle then shuffle_together (perm call) chunks' rois' else Ok (chunks', rois')) (fun cr =>
              bind (subsample_filenames_and_roi (fst cr) (snd cr)
                      (trunc (sum (map roi_size (snd cr))) num' den)) (fun r =>
              match r with (files, kept, _) => Ok (ffiles ++ files, frois ++ kept) end))
            else Ok (ffiles, frois)
        end))
  end.

(** utilities/train_test_split.py 52-96.  The dataset is its index, its
    [subsampled_files] and [region_of_interest]; [counts] is the list of
    [int(dataset_length * split)] (line 80).  The result has one
    ([subsampled_files], [region_of_interest]) pair per split. *)
Fixpoint split_loop (counts : list nat) (chunks : list cinfo) (rois : list roi)
  : res (list (list nat * list roi)) :=
  match counts with
  | [] => Ok []
  | n :: counts' =>
      bind (subsample_filenames_and_roi chunks rois n) (fun r =>
      match r with (files, kept, (left_chunks, left_rois)) =>
        bind (split_loop counts' left_chunks left_rois) (fun l => Ok ((files, kept) :: l))
      end)
  end.
Definition in_files (files : list nat) (c : cinfo) : bool := existsb (Nat.eqb (k_file c)) files.
Definition train_test_split (perm : nat -> list nat) (original : list cinfo)
           (files : list nat) (rois : list roi) (counts : list nat) : res (list (list nat * list roi)) :=
  let chunks := filter (in_files files) original in
  bind (shuffle_together perm chunks rois) (fun cr => split_loop counts (fst cr) (snd cr)).
