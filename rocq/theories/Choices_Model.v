(** The choice of a dataset by a weighted draw: [self._rng.choices(indexes, weights=weights, k=1)]
    (combined.py 252, 322), i.e. the method [choices] of random.Random in CPython's random.py.
    Exact rationals instead of floats; [u] is what [random()] returns. *)
From Verif Require Import Base Combined_Model.
From Coq Require Import QArith.
Local Open Scope nat_scope.

(** itertools.accumulate, used by [choices]. *)
Fixpoint accumulate (acc : Q) (ws : list Q) : list Q :=
  match ws with [] => [] | w :: ws' => (acc + w)%Q :: accumulate (acc + w)%Q ws' end.

(** bisect.bisect_right, used by [choices]: the binary search itself. *)
Fixpoint bisect (fuel : nat) (a : list Q) (x : Q) (lo hi : nat) : res nat :=
  match fuel with
  | 0 => Err OutOfFuel
  | S f =>
      if hi <=? lo then Ok lo
      else let mid := (lo + hi) / 2 in
           match nth_error a mid with
           | None => Err IndexError
           | Some y => if negb (Qle_bool y x) then bisect f a x lo mid else bisect f a x (S mid) hi
           end
  end.

(** [choices] of random.py with [k=1]: as many weights as indexes, a positive total, and the index
    found by bisection of the accumulated weights for [random() * total] below the last index. *)
Definition choices (u : Q) (population : list nat) (ws : list Q) : res nat :=
  let cum := accumulate 0%Q ws in
  if negb (length cum =? length population) then Err ValueError
  else match rev cum with
       | [] => Err IndexError
       | total :: _ =>
           if Qle_bool total 0 then Err ValueError
           else bind (bisect (S (length population)) cum (u * total)%Q 0 (length population - 1)) (fun i =>
                match nth_error population i with Some k => Ok k | None => Err IndexError end)
       end.

(** The generator of Combined_Model.v that draws like this: [us n] is the result of the [n]-th call
    of [random()]. *)
Definition pick (us : nat -> Q) (n : nat) (l : list nat) (ws : list Q) : nat :=
  match choices (us n) l ws with Ok k => k | Err _ => hd 0 l end.
