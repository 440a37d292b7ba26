(** Vocabulary for the detection of the parts of a job. *)
From Verif Require Import Base Assign_Model Assign_Spec Iter_Model Iter_Spec Detect_Model.
From Coq Require Import String.
Local Open Scope list_scope.
Local Open Scope nat_scope.

(** Variables that overrule what is found out are not set. *)
Definition no_overrule (p : process) : Prop :=
  Forall (fun n => r_vars p n = None) ["DATA_OPTIMIZER_GLOBAL_RANK"; "WORLD_SIZE"; "GLOBAL_RANK"; "NNODES"]%string.
(** A job: its processes, in the order of their ranks, have joined the process group. *)
Definition joined (ps : list process) : Prop :=
  forall r p, nth_error ps r = Some p -> r_group p = Some (List.length ps, r) /\ no_overrule p.
(** What [torchrun] sets, before the processes join a group. *)
Definition torchrun (W r : nat) (gpus : option nat) : process :=
  Process None gpus (fun n => if String.eqb n "WORLD_SIZE" then Some W else if String.eqb n "RANK" then Some r
                              else if String.eqb n "LOCAL_RANK" then Some r else None).

(** Process [p] with [nw] dataloader workers loops over a dataset: what its worker [i] reads. *)
Definition delivers (rng : rng_t) (shuffle : bool) (seed nw B epoch : nat) (ivs : list interval) (p : process) (i : nat) (samples : list (nat * nat)) : Prop :=
  exists env a s0 reqs s', detect p = Ok env /\ shuffle_assign rng shuffle env seed false nw B epoch ivs = Ok a /\
    iter_fresh env nw i epoch a = Ok s0 /\ Run (shuffle_call rng shuffle seed) s0 reqs s' /\ samples = map req_sample reqs.
(** All that the workers of all processes read: one list for each process and worker. *)
Definition delivered (rng : rng_t) (shuffle : bool) (seed nw B epoch : nat) (ivs : list interval) (ps : list process) (all : list (list (nat * nat))) : Prop :=
  List.length all = List.length ps * nw /\
  forall r i p, nth_error ps r = Some p -> i < nw ->
    exists samples, nth_error all (r * nw + i) = Some samples /\ delivers rng shuffle seed nw B epoch ivs p i samples.
