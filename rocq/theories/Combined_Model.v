(** CombinedStreamingDataset: streaming/combined.py.  The members' own iterators are
    lists of the samples they still deliver (their behaviour is the subject of
    Iter_Model.v). *)
From Verif Require Import Base.
From Coq Require Import QArith.
Local Open Scope nat_scope.

(** combined.py 31-33. *)
Inductive batching := Stratified | PerStream.

Fixpoint qsum (l : list Q) : Q := match l with [] => 0%Q | x :: l' => (x + qsum l')%Q end.

(** combined.py 79-99: the normalised weights.  [lens] are the lengths of the members.
    Exact rationals instead of floats. *)
Definition init_weights (iterate_over_all : bool) (weights : option (list Q)) (lens : list nat) : res (list Q) :=
  match weights with
  | Some ((_ :: _) as ws) =>
      if iterate_over_all then Err ValueError
      else if Qeq_bool (qsum ws) 0 then Err ZeroDivisionError
      else Ok (map (fun w => (w / qsum ws)%Q) ws)
  | Some [] => Ok []
  | None => if sum lens =? 0 then Err AssertionError
            else Ok (map (fun n => (inject_Z (Z.of_nat n) / inject_Z (Z.of_nat (sum lens)))%Q) lens)
  end.

Section Iter.
Context {A : Type}.

(** [_CombinedDatasetIterator] (combined.py 221-268).  [c_alive] and [c_wts] are
    [_dataset_indexes] and [_weights] with [None] entries; [c_draws] counts the calls
    made to the random generator, which is its whole state; [c_cur = None] stands for
    [_cur_dataset_index == -1]. *)
Record cit := { c_iters : list (list A); c_alive : list bool; c_wts : list (option Q);
                c_draws : nat; c_counts : list nat; c_cur : option nat; c_inb : nat }.

(** combined.py 223-268: the constructor, with the restored counts if any (lines
    247-252: one choice is drawn for every restored sample). *)
Definition c_init (iters : list (list A)) (ws : list Q) (restored : option (list nat)) : cit :=
  {| c_iters := iters; c_alive := repeat true (length iters); c_wts := map Some ws;
     c_draws := match restored with Some l => sum l | None => 0 end;
     c_counts := match restored with Some l => l | None => repeat 0 (length iters) end;
     c_cur := None; c_inb := 0 |}.

Definition left_indexes (alive : list bool) : list nat :=
  map fst (filter snd (combine (seq 0 (length alive)) alive)).
Fixpoint some_weights (l : list (option Q)) : list Q :=
  match l with [] => [] | Some w :: l' => w :: some_weights l' | None :: l' => some_weights l' end.

(** The random generator: the [n]-th choice among [indexes] with [weights].
    [random.choices] raises ValueError when there are not as many weights as indexes and when
    the total weight is not positive.  Choices_Model.v has its algorithm. *)
Context (rng : nat -> list nat -> list Q -> nat).

Definition set_draw (s : cit) (d : nat) (cur : option nat) (inb : nat) : cit :=
  {| c_iters := c_iters s; c_alive := c_alive s; c_wts := c_wts s; c_draws := d;
     c_counts := c_counts s; c_cur := cur; c_inb := inb |}.

(** combined.py 318-323: [_set_new_dataset_index]. *)
Definition new_index (s : cit) : res (nat * cit) :=
  let ws := some_weights (c_wts s) in
  if negb (length ws =? length (left_indexes (c_alive s))) then Err ValueError
  else if Qle_bool (qsum ws) 0 then Err ValueError
  else Ok (rng (c_draws s) (left_indexes (c_alive s)) ws, set_draw s (S (c_draws s)) (c_cur s) (c_inb s)).

(** combined.py 302-316: [_get_dataset_index]. *)
Definition get_index (m : batching) (B : nat) (s : cit) : res (nat * cit) :=
  match m with
  | Stratified => new_index s
  | PerStream =>
      match (match c_cur s with
             | Some k => if B <=? c_inb s then None else Some k
             | None => None
             end) with
      | Some k => Ok (k, set_draw s (c_draws s) (c_cur s) (S (c_inb s)))
      | None => bind (new_index s) (fun ks => Ok (fst ks, set_draw (snd ks) (c_draws (snd ks)) (Some (fst ks)) 1))
      end
  end.

(** combined.py 323-336: [_get_sample].  The counts of a loaded state can be fewer than the
    members (combined.py 206-212): [self._num_samples_yielded[dataset_index] += 1] then raises. *)
Definition get_sample (k : nat) (s : cit) : res (A * cit) :=
  match nth_error (c_iters s) k with
  | None => Err IndexError
  | Some [] => Err StopIteration
  | Some (x :: l) =>
      if length (c_counts s) <=? k then Err IndexError
      else Ok (x, {| c_iters := upd k (fun _ => l) (c_iters s); c_alive := c_alive s; c_wts := c_wts s;
                c_draws := c_draws s; c_counts := upd k S (c_counts s); c_cur := c_cur s; c_inb := c_inb s |})
  end.

(** combined.py 294-297: dataset [k] is taken out and the weights are normalised. *)
Definition renormalise (l : list (option Q)) : res (list (option Q)) :=
  let total := qsum (some_weights l) in
  if Qeq_bool total 0 && negb (length (some_weights l) =? 0) then Err ZeroDivisionError
  else Ok (map (fun w => match w with None => None | Some w => Some (w / total)%Q end) l).
Definition exhaust (k : nat) (s : cit) : res cit :=
  bind (renormalise (upd k (fun _ => None) (c_wts s))) (fun ws =>
  Ok {| c_iters := c_iters s; c_alive := upd k (fun _ => false) (c_alive s); c_wts := ws;
        c_draws := c_draws s; c_counts := c_counts s; c_cur := c_cur s; c_inb := c_inb s |}).

Inductive outcome := Yield (x : A) (s : cit) | Stop (s : cit) | Raise (e : exn).

(** combined.py 274-300: [__next__] with [iterate_over_all].  [ws0] are the original weights. *)
Fixpoint next_all (fuel : nat) (m : batching) (B : nat) (ws0 : list Q) (s : cit) : outcome :=
  match fuel with
  | 0 => Raise OutOfFuel
  | S f =>
      match left_indexes (c_alive s) with
      | [] => Raise GenericException
      | [k] => match get_sample k s with
               | Ok xs => Yield (fst xs) (snd xs)
               | Err StopIteration =>
                   Stop {| c_iters := c_iters s; c_alive := repeat true (length (c_iters s)); c_wts := map Some ws0;
                           c_draws := c_draws s; c_counts := c_counts s; c_cur := c_cur s; c_inb := c_inb s |}
               | Err e => Raise e
               end
      | _ => match get_index m B s with
             | Err e => Raise e
             | Ok (k, s1) =>
                 match get_sample k s1 with
                 | Ok xs => Yield (fst xs) (snd xs)
                 | Err StopIteration =>
                     match exhaust k s1 with Ok s2 => next_all f m B ws0 s2 | Err e => Raise e end
                 | Err e => Raise e
                 end
             end
      end
  end.

(** combined.py 273, 299-300: [__next__]. *)
Definition c_next (over_all : bool) (m : batching) (B : nat) (ws0 : list Q) (s : cit) : outcome :=
  if over_all then next_all (S (length (c_iters s)) * S (S B)) m B ws0 s
  else match get_index m B s with
       | Err e => Raise e
       | Ok (k, s1) => match get_sample k s1 with
                       | Ok xs => Yield (fst xs) (snd xs)
                       | Err StopIteration => Stop s1
                       | Err e => Raise e
                       end
       end.

(** What [n] calls of [next] return and the state after them, if there are that many samples. *)
Fixpoint after (over_all : bool) (m : batching) (B : nat) (ws0 : list Q) (n : nat) (s : cit) : option (list A * cit) :=
  match n with
  | 0 => Some ([], s)
  | S n' => match c_next over_all m B ws0 s with
            | Yield x s' => option_map (fun r => (x :: fst r, snd r)) (after over_all m B ws0 n' s')
            | _ => None
            end
  end.
End Iter.
Arguments cit A : clear implicits.
Arguments outcome A : clear implicits.

(** The settings a length query overwrites: of the combined dataset (combined.py 111-130) and of
    every member (dataset.py 256-269): number of workers and batch size. *)
Record csettings := { cs_own : nat * nat; cs_members : list (nat * nat) }.
(** combined.py 111-116 with 123-130: [get_len]; the members' lengths are given by [len_of] from
    their settings.  Without [iterate_over_all] the members are not asked. *)
Definition c_get_len (over_all : bool) (len_of : nat -> nat * nat -> nat) (nw b : nat) (s : csettings) : option nat * csettings :=
  if over_all then
    let members := map (fun _ => (Nat.max 1 nw, b)) (cs_members s) in
    (Some (sum (map (fun im => len_of (fst im) (snd im)) (combine (seq 0 (length members)) members))),
     {| cs_own := (nw, b); cs_members := members |})
  else (None, {| cs_own := (nw, b); cs_members := cs_members s |}).
(** combined.py 118-119: [__len__]. *)
Definition c_len over_all len_of s := c_get_len over_all len_of 1 1 s.
(** combined.py 144-153: [set_batch_size], [set_num_workers] (the latter does not touch the
    combined dataset's own field). *)
Definition c_set (nw b : nat) (s : csettings) : csettings :=
  {| cs_own := (fst (cs_own s), b); cs_members := map (fun _ => (Nat.max 1 nw, b)) (cs_members s) |}.

(** dataloader.py 651-665: the counts of all workers, added up per member, go into the members'
    states; every member then finds the position of each worker from its total with
    [_replay_sampling] (Iter_Model.v). *)
Fixpoint add_counts (a b : list nat) : list nat :=
  match a, b with x :: a', y :: b' => (x + y) :: add_counts a' b' | _, _ => a end.
Definition saved_counts (members : nat) (per_worker : list (list nat)) : list nat :=
  fold_left add_counts per_worker (repeat 0 members).
