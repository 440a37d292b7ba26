(** Model of how optimize(use_checkpoint=True) decides whether the checkpoints in the
    output directory are those of the same job.
    Source: src/litdata/processing/data_processor.py 1136-1160, 1360-1490. *)
From Coq Require Import String ZArith.
From Verif Require Import Base Names_Model.
Local Open Scope list_scope.
Local Open Scope nat_scope.

(** ** Python values and json
    The inputs that a user may give.  [PObject]: a value that json does not know (an array, a
    path, a set).  [PNan] is the float that differs from itself; other floats are
    represented by whole numbers. *)
Inductive key := KStr (s : str) | KInt (z : Z) | KBool (b : bool) | KNone | KOther.
Inductive value :=
| PNone | PBool (b : bool) | PInt (z : Z) | PFloat (z : Z) | PNan | PStr (s : str)
| PList (l : list value) | PTuple (l : list value) | PDict (d : list (key * value)) | PObject (n : nat).

(** [json.load] of what [json.dump] writes: tuples come back as lists, keys as strings; other
    values raise [TypeError] in [dump].  If keys of a dictionary become equal, the last entry wins.
    Simplification: the text itself is not modelled; keys that are floats are left out. *)
Definition str_of_int (z : Z) : str :=
  if (z <? 0)%Z then codes "-" ++ dec (Z.to_nat (- z)) else dec (Z.to_nat z).
Definition json_key (k : key) : res str :=
  match k with
  | KStr s => Ok s
  | KInt z => Ok (str_of_int z)
  | KBool b => Ok (codes (if b then "true" else "false"))
  | KNone => Ok (codes "null")
  | KOther => Err TypeError
  end.
Fixpoint put_key (s : str) (v : value) (d : list (key * value)) : list (key * value) :=
  match d with
  | [] => [(KStr s, v)]
  | (k, x) :: d' => if match k with KStr t => if list_eq_dec N.eq_dec s t then true else false | _ => false end then (k, v) :: d' else (k, x) :: put_key s v d'
  end.
Fixpoint json (v : value) : res value :=
  let all := fix all (l : list value) : res (list value) :=
    match l with
    | [] => Ok []
    | x :: l' => bind (json x) (fun y => bind (all l') (fun r => Ok (y :: r)))
    end in
  let entries := fix entries (d r : list (key * value)) : res (list (key * value)) :=
    match d with
    | [] => Ok r
    | (k, x) :: d' => bind (json_key k) (fun s => bind (json x) (fun y => entries d' (put_key s y r)))
    end in
  match v with
  | PNone | PBool _ | PInt _ | PFloat _ | PNan | PStr _ => Ok v
  | PList l | PTuple l => bind (all l) (fun r => Ok (PList r))
  | PDict d => bind (entries d []) (fun r => Ok (PDict r))
  | PObject _ => Err TypeError
  end.

(** [a == b] of a value that was read ([a]) and another one: numbers by value, lists and
    tuples differ, dictionaries without regard to order. *)
Definition number (v : value) : option Z :=
  match v with PBool b => Some (if b then 1%Z else 0%Z) | PInt z | PFloat z => Some z | _ => None end.
Definition key_number (k : key) : option Z :=
  match k with KBool b => Some (if b then 1%Z else 0%Z) | KInt z => Some z | _ => None end.
Definition str_eqb (a b : str) : bool := if list_eq_dec N.eq_dec a b then true else false.
Definition key_eqb (a b : key) : bool :=
  match a, b with
  | KStr s, KStr t => str_eqb s t
  | KNone, KNone => true
  | _, _ => match key_number a, key_number b with Some x, Some y => (x =? y)%Z | _, _ => false end
  end.
Fixpoint lookup (k : key) (d : list (key * value)) : option value :=
  match d with [] => None | (k', v) :: d' => if key_eqb k k' then Some v else lookup k d' end.
Fixpoint equal (a b : value) : bool :=
  let all := fix all (l m : list value) : bool :=
    match l, m with
    | [], [] => true
    | x :: l', y :: m' => equal x y && all l' m'
    | _, _ => false
    end in
  let entries := fix entries (d e : list (key * value)) : bool :=
    match d with
    | [] => true
    | (k, x) :: d' => match lookup k e with Some y => equal x y | None => false end && entries d' e
    end in
  match a, b with
  | PNone, PNone => true
  | PStr s, PStr t => str_eqb s t
  | PList l, PList m => all l m
  | PTuple l, PTuple m => all l m
  | PDict d, PDict e => (length d =? length e) && entries d e
  | PObject n, PObject m => n =? m
  | _, _ => match number a, number b with Some x, Some y => (x =? y)%Z | _, _ => false end
  end.

(** ** The configuration
    config.json in the directory of checkpoints; [Unreadable] if it is not valid json.
    [checkpoints w]: the number of inputs that are done according to checkpoint-w.json. *)
Inductive config_file := Missing | Unreadable | Config (num_workers : nat) (items : value).
Record saved_job := SavedJob { j_config : config_file; j_done : nat -> option nat }.

(** data_processor.py 1360-1398: [_save_current_config].  An exception is printed: to a
    local directory [json.dump] has then written the beginning of the file; to a remote
    directory nothing is uploaded. *)
Definition save_config (remote : bool) (num_workers : nat) (items : value) (st : saved_job) : saved_job :=
  match json items with
  | Ok v => SavedJob (Config num_workers v) (j_done st)
  | Err _ => if remote then st else SavedJob Unreadable (j_done st)
  end.

(** data_processor.py 1400-1490: [_load_checkpoint_config]: how many inputs of each worker are
    done. *)
Definition load_config (num_workers : nat) (items : value) (st : saved_job) : res (list nat) :=
  match j_config st with
  | Missing => Ok (repeat 0 num_workers)
  | Unreadable => Err ValueError
  | Config n v =>
      if negb (n =? num_workers) then Err ValueError
      else if negb (equal v items) then Err ValueError
      else Ok (map (fun w => match j_done st w with Some k => k | None => 0 end) (seq 0 num_workers))
  end.

(** data_processor.py 1141-1158: the start of a run: the inputs that are left to each
    worker, and the directory of checkpoints. *)
Definition begin (remote : bool) (num_workers : nat) (items : list (list value)) (st : saved_job)
  : res (list (list value) * saved_job) :=
  let v := PList (map PList items) in
  bind (load_config num_workers v st) (fun next =>
  if forallb (fun n => n =? 0) next then Ok (items, save_config remote num_workers v st)
  else Ok (map (fun p => skipn (fst p) (snd p)) (combine next items), st)).
