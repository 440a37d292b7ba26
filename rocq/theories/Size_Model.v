(** Model of sizes given as strings.
    Source: src/litdata/utilities/format.py 18-39. *)
From Coq Require Import String Decimal.
From Verif Require Import Base Names_Model.
From Coq Require Import NArith ZArith.
Local Open Scope list_scope.
Local Open Scope nat_scope.

(** [str.lower] and [str.strip].  Simplification: ASCII letters and blanks only. *)
Definition lower_char (c : N) : N := (if (65 <=? c) && (c <=? 90) then c + 32 else c)%N.
Definition lower (s : str) : str := map lower_char s.
Definition blank (c : N) : bool := (((9 <=? c) && (c <=? 13)) || ((28 <=? c) && (c <=? 32)))%N.
Fixpoint lstrip (s : str) : str :=
  match s with c :: s' => if blank c then lstrip s' else s | [] => [] end.
Definition strip (s : str) : str := rev (lstrip (rev (lstrip s))).
Definition ends (p s : str) : bool := starts (rev p) (rev s).

(** format.py 18-23: [_FORMAT_TO_RATIO]. *)
Definition units : list (str * N) :=
  [(codes "kb", 1000); (codes "mb", 1000000); (codes "gb", 1000000000); (codes "tb", 1000000000000)]%N.

(** A number as [float] reads it: digits with at most one point, surrounded by
    blanks: [(m, k)] stands for m / 10^k. *)
Definition number (s : str) : option N :=
  match undigits s with Some u => Some (N.of_uint u) | None => None end.
Definition literal (s : str) : option (N * nat) :=
  match split dot (strip s) with
  | [[]] => None
  | [i] => match number i with Some m => Some (m, 0) | None => None end
  | [[]; []] => None
  | [i; f] => match number (i ++ f) with Some m => Some (m, length f) | None => None end
  | _ => None
  end.

(** A non-negative double: (m, e) stands for m * 2^e.  [round p q] is the double
    nearest to p / q, ties to even.  Simplification: the exponent is unbounded (no
    subnormal numbers, no infinity). *)
Definition nearest (a b : N) : N :=
  (let q := a / b in let r := a mod b in
   if (b <? 2 * r) || ((b =? 2 * r) && N.odd q) then q + 1 else q)%N.
Definition num (p : N) (e : Z) : N := (p * 2 ^ Z.to_N (- e))%N.
Definition den (q : N) (e : Z) : N := (q * 2 ^ Z.to_N e)%N.
Definition exponent (p q : N) : Z :=
  (let e := Z.of_N (N.log2 p) - Z.of_N (N.log2 q) - 52 in
   if (num p e / den q e <? 2 ^ 52)%N then e - 1 else e)%Z.
Definition round (p q : N) : N * Z :=
  if (p =? 0)%N then (0%N, 0%Z)
  else let e := exponent p q in (nearest (num p e) (den q e), e).

(** [x * ratio] for a double [x], and [int(x)]. *)
Definition times (x : N * Z) (ratio : N) : N * Z := round (den (fst x * ratio) (snd x)) (num 1 (snd x)).
Definition truncate (x : N * Z) : N := (den (fst x) (snd x) / num 1 (snd x))%N.

Section Convert.
(** What [int(float(s) * ratio)] does if [s] is not a plain decimal number: signs,
    exponents, infinities; a ValueError for everything else. *)
Context (other : str -> N -> res Z).

(** format.py 26-39: [_convert_bytes_to_int], the loop over the units. *)
Fixpoint convert_from (us : list (str * N)) (s : str) : res Z :=
  match us with
  | [] => Err ValueError
  | (unit, ratio) :: us' =>
      let s := strip (lower s) in
      if ends unit (lower s) then
        let prefix := firstn (length s - length unit) s in
        match literal prefix with
        | Some (m, k) => Ok (Z.of_N (truncate (times (round m (10 ^ N.of_nat k)) ratio)))
        | None => other prefix ratio
        end
      else convert_from us' s
  end.
Definition convert (s : str) : res Z := convert_from units s.
End Convert.
