(** How [map] and [optimize] call the function they are given: which arguments it gets, when it is taken for a
    generator, on which device it runs, which call is the last one; and which inputs and output directories they take.
    Source: src/litdata/processing/functions.py 101-200, 248-330, 405-530,
    src/litdata/processing/data_processor.py 600-603, 749-771, 793-816, 1092-1120.

    Simplifications: classes used as functions, builtins (which behave like methods) and positional-only parameters
    are left out; a value of Python is a number but for the ones that matter here. *)
From Verif Require Import Base Names_Model Distrib_Model.
From Coq Require Import String NArith.
Local Open Scope list_scope.
Local Open Scope nat_scope.

(** ** Python functions *)
(** Values: [Cuda k] is the string "cuda:k". *)
Inductive val := VNone | VBool (b : bool) | Cuda (k : nat) | VObj (n : nat).
Inductive pkind := Positional | VarPositional | KeywordOnly | VarKeyword.
Record param := Param { q_name : string; q_kind : pkind; q_default : option val }.
(** What a parameter is bound to: a value, the tuple of [*args], the dictionary of [**kwargs]. *)
Inductive got := One (v : val) | Many (vs : list val) | Named (kvs : list (string * val)).
Definition env := list (string * got).

Fixpoint find_kw (n : string) (kws : list (string * val)) : option val :=
  match kws with [] => None | (k, v) :: kws' => if String.eqb k n then Some v else find_kw n kws' end.
Definition drop_kw (n : string) (kws : list (string * val)) : list (string * val) :=
  filter (fun kv => negb (String.eqb (fst kv) n)) kws.

(** Binding the arguments of a call to the parameters, in the order of the definition; TypeError for missing, unexpected and
    repeated arguments.  [take]: what one parameter gets, and the arguments that are left. *)
Definition take_named (p : param) (args : list val) (kws : list (string * val)) : res (got * list val * list (string * val)) :=
  match find_kw (q_name p) kws, q_default p with
  | Some v, _ => Ok (One v, args, drop_kw (q_name p) kws)
  | None, Some d => Ok (One d, args, kws)
  | None, None => Err TypeError
  end.
Definition take (p : param) (args : list val) (kws : list (string * val)) : res (got * list val * list (string * val)) :=
  match q_kind p, args with
  | Positional, a :: args' => match find_kw (q_name p) kws with Some _ => Err TypeError | None => Ok (One a, args', kws) end
  | Positional, [] => take_named p args kws
  | KeywordOnly, _ => take_named p args kws
  | VarPositional, _ => Ok (Many args, [], kws)
  | VarKeyword, _ => Ok (Named kws, args, [])
  end.
Fixpoint bind_params (ps : list param) (args : list val) (kws : list (string * val)) : res env :=
  match ps with
  | [] => match args, kws with [], [] => Ok [] | _, _ => Err TypeError end
  | p :: ps' =>
      bind (take p args kws) (fun t =>
      bind (bind_params ps' (snd (fst t)) (snd t)) (fun e => Ok ((q_name p, fst (fst t)) :: e)))
  end.

(** Samples: what [optimize] stores. *)
Section Calls.
Context {S : Type}.
(** What a call gives: a value ([None] or a sample), or a generator of such values. *)
Inductive outcome := Value (o : option S) | Generator (vs : list (option S)).
(** A function: its parameters (without [self]), those that [inspect.signature] shows (others for a function that was
    decorated with [functools.wraps]), whether its body contains [yield], and what it does. *)
Record func := Func { f_params : list param; f_shown : list param; f_yields : bool; f_body : env -> res outcome }.
(** An instance of a class with a method [__call__] is an [Object]. *)
Inductive callable :=
| Function (f : func)
| Method (f : func)
| Object (f : func)
| Partial (c : callable) (args : list val) (kws : list (string * val)).

(** [functools.partial]: later keyword arguments replace the ones that are bound. *)
Fixpoint call (c : callable) (args : list val) (kws : list (string * val)) : res outcome :=
  match c with
  | Function f | Method f | Object f => bind (bind_params (f_params f) args kws) (f_body f)
  | Partial c' args' kws' =>
      call c' (args' ++ args) (filter (fun kv => match find_kw (fst kv) kws with None => true | Some _ => false end) kws' ++ kws)
  end.

(** ** [map] *)
(** functions.py 119-120: the names of the parameters of [fn] if it is a function, else of [fn.__call__]; the [__call__]
    of a bound method or of a partial is a method wrapper, whose signature is [*args, **kwargs]. *)
Definition parameters (c : callable) : list string :=
  match c with
  | Function f | Object f => map q_name (f_shown f)
  | Method _ | Partial _ _ _ => ["args"%string; "kwargs"%string]
  end.
(** functions.py 121-122. *)
Definition contains_param (n : string) (c : callable) : bool := existsb (String.eqb n) (parameters c).

(** functions.py 148-153: [_find_device]; [gpus]: the number of devices, if CUDA is available. *)
Definition find_device (gpus : option nat) (rank : nat) : option nat :=
  match gpus with Some g => Some (rank mod g) | None => None end.
(** functions.py 127-146: [prepare_item]; the result of [fn] is dropped.  State: [_device]. *)
Definition prepare_item (c : callable) (gpus : option nat) (rank : nat) (device : option nat) (item dir : val) (is_last : bool) : option nat * res unit :=
  let device := match device with None => if contains_param "device" c then find_device gpus rank else None | Some _ => device end in
  let kws := (if contains_param "device" c then [("device"%string, match device with Some k => Cuda k | None => VNone end)] else []) ++
             (if contains_param "is_last" c then [("is_last"%string, VBool is_last)] else []) in
  (device, bind (call c [item; dir] kws) (fun _ => Ok tt)).
(** The calls of a worker, one after the other, each with its input, directory and [is_last]: their results. *)
Fixpoint map_calls (c : callable) (gpus : option nat) (rank : nat) (device : option nat) (calls : list (val * val * bool)) : list (res unit) :=
  match calls with
  | [] => []
  | (item, dir, is_last) :: calls' =>
      let r := prepare_item c gpus rank device item dir is_last in
      snd r :: map_calls c gpus rank (fst r) calls'
  end.
(** data_processor.py 793-803: input [index] of [n]. *)
Definition last_index (n index : nat) : bool := n - 1 =? index.
(** data_processor.py 600-603: the rank of a worker. *)
Definition global_rank (num_workers node worker : nat) : nat := node * num_workers + worker.

(** ** [optimize] *)
(** [inspect.isgeneratorfunction]: methods are replaced by their function, then partials by what they wrap. *)
Fixpoint unwrap_partial (c : callable) : callable := match c with Partial c' _ _ => unwrap_partial c' | _ => c end.
Definition isgeneratorfunction (c : callable) : bool :=
  match c with
  | Method f => f_yields f
  | _ => match unwrap_partial c with Function f => f_yields f | _ => false end
  end.
(** functions.py 186-192: [check_fn]; of the [__call__] of functions, methods and partials (method wrappers) nothing is known. *)
Definition is_generator (c : callable) : bool :=
  (match c with Partial _ _ _ | Function _ => isgeneratorfunction c | _ => false end) ||
  (match c with Object f => isgeneratorfunction (Method f) | _ => false end).
(** functions.py 194-198, data_processor.py 749-771: the samples that are stored for an input.  Every exception becomes a
    RuntimeError; a generator cannot be pickled, a value that is no generator is not iterated over
    (simplification: it could be a list). *)
Definition store_outputs (c : callable) (item : val) : res (list S) :=
  match call c [item] [] with
  | Err _ => Err RuntimeError
  | Ok r =>
      match is_generator c, r with
      | true, Generator vs => Ok (flat_map (fun o => match o with Some s => [s] | None => [] end) vs)
      | false, Value (Some s) => Ok [s]
      | false, Value None => Ok []
      | _, _ => Err RuntimeError
      end
  end.
End Calls.
Arguments outcome : clear implicits.
Arguments func : clear implicits.
Arguments callable : clear implicits.

(** ** Arguments of [map] and [optimize] *)
(** Inputs: a list; another [Sequence] (tuple, range, str); something else (array, set, generator). *)
Inductive inputs (A : Type) := AList (l : list A) | ASequence (l : list A) | AOther (l : list A).
Arguments AList {A} _.
Arguments ASequence {A} _.
Arguments AOther {A} _.
(** functions.py 260-267, 295-296, 418-425, 468-469, data_processor.py 1108-1112: what the workers get to share (of each
    argument of [fn], the inputs that it is made of: one, or a batch). *)
Definition take_inputs {A} (i : inputs A) (batch : option nat) : res (list (list A)) :=
  match i with
  | AOther _ => Err ValueError
  | AList l | ASequence l =>
      match l with
      | [] => Err ValueError
      | _ =>
          match batch_inputs (match batch with Some b => b | None => 0 end) l with
          | Some batches => Ok batches
          | None => match i with AList _ => Ok (map (fun a => [a]) l) | _ => Err ValueError end
          end
      end
  end.
(** functions.py 283-287, 452-456: the url of the output directory. *)
Definition check_output (url : option str) : res unit :=
  match url with
  | Some u => if contains (codes "cloudspaces") u then Err ValueError else Ok tt
  | None => Ok tt
  end.
