(** Model of [map] and [optimize] with [num_nodes] and [machine]: the job that is started on the platform.
    Source: src/litdata/streaming/resolver.py 357-409, src/litdata/processing/functions.py 268-280, 319-323, 428-439, 518-522.

    The platform is an argument: what it answers each time it is asked for the state of the job.
    Simplifications: the names of the job, of the studio and of the teamspace, and the printed link are left out;
    [machine] is a machine or [None] (an empty string is taken for [None] by the code). *)
From Coq Require Import String NArith.
From Verif Require Import Base Names_Model.
Local Open Scope list_scope.
Local Open Scope nat_scope.

(** [" ".join(l)]. *)
Fixpoint join_blank (l : list str) : str :=
  match l with [] => [] | [x] => x | x :: l => x ++ codes " " ++ join_blank l end.

(** resolver.py 370-376: an environment variable that is set and not empty is put before the command. *)
Definition assignment (name value : str) : str :=
  match value with [] => [] | v => codes " " ++ name ++ codes "=" ++ v ++ codes " " end.
(** resolver.py 380: the command.  [cwd]: [os.getcwd()], [argv]: [sys.argv]. *)
Definition job_command (cwd skip_install branch : str) (argv : list str) : str :=
  codes "cd " ++ cwd ++ codes " &&" ++ assignment (codes "LIGHTNING_SKIP_INSTALL") skip_install
    ++ assignment (codes "LIGHTNING_BRANCH") branch ++ codes " python " ++ join_blank argv.

(** The phases of a job: [Other] are those the code does not know. *)
Inductive job_phase := Failed | Stopped | Completed | Other.

(** resolver.py 389-409: the loop.  [answers n] is what the platform answers the n-th time, or the exception of the
    request. *)
Fixpoint watch (fuel n : nat) (answers : nat -> res job_phase) : res unit :=
  match fuel with
  | 0 => Err OutOfFuel
  | S fuel =>
      match answers n with
      | Err e => Err e
      | Ok Failed => Err RuntimeError
      | Ok Stopped | Ok Completed => Ok tt
      | Ok Other => watch fuel (S n) answers
      end
  end.

Section Call.
Context {machine : Type}.
Record job := Job { j_command : str; j_instances : Z; j_machine : machine }.
Inductive ended := Ran_here | Job_ended.

(** [int(os.getenv("DATA_OPTIMIZER_NUM_NODES", 0))]: [None]: not set; [Some None]: not the text of a number. *)
Definition nodes_variable (v : option (option Z)) : res Z :=
  match v with None => Ok 0%Z | Some None => Err ValueError | Some (Some z) => Ok z end.

(** functions.py 268-280, 319-323 ([optimize]: 428-439, 518-522) and resolver.py 357-388: the jobs that are started, and the result.
    [studio]: [_IS_IN_STUDIO]; [sdk]: [_LIGHTNING_SDK_AVAILABLE]; [here]: what a run on this machine gives; [own]: the machine
    of the studio.  ModuleNotFoundError is GenericException here. *)
Definition start (studio sdk : bool) (wanted : option machine) (num_nodes : option Z) (variable : option (option Z))
    (own : machine) (cwd skip_install branch : str) (argv : list str)
    (here : res unit) (answers : nat -> res job_phase) (fuel : nat) : list job * res ended :=
  if negb studio && (match wanted with None => false | _ => true end || match num_nodes with None => false | _ => true end)
  then ([], Err ValueError)
  else match num_nodes with
  | None => ([], bind here (fun _ => Ok Ran_here))
  | Some n =>
      match nodes_variable variable with
      | Err e => ([], Err e)
      | Ok v =>
          if (0 <? v)%Z then ([], bind here (fun _ => Ok Ran_here))
          else if negb sdk then ([], Err GenericException)
          else ([Job (job_command cwd skip_install branch argv) n (match wanted with Some m => m | None => own end)],
                bind (watch fuel 0 answers) (fun _ => Ok Job_ended))
      end
  end.
End Call.
Arguments job : clear implicits.
