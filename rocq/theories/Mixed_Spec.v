(** Vocabulary for the properties about loaders of combined datasets. *)
From Verif Require Import Base Iter_Model Dict Combined_Model Passes_Model Mixed_Model.
From Coq Require Import QArith.
Local Open Scope nat_scope.

(** The samples of the batches delivered, in order. *)
Definition got {A} (out : list (nat * list A)) : list A := concat (map snd out).

(** Positive weights, one for each dataset; the random choice is one of those it chooses from. *)
Definition mcfg_ok {A} (g : mcfg A) : Prop :=
  (forall n l ws, l <> [] -> In (g_rng g n l ws) l) /\ 1 <= g_members g /\ length (g_ws g) = g_members g /\
  Forall (fun w => (0 < w)%Q) (g_ws g) /\ 1 <= g_nw g /\ 1 <= g_B g /\ (g_inproc g = true -> g_nw g = 1).

(** What is done with a loader. *)
Inductive op := Loop (v : visit) | Save | Load (o : mobj).
Definition m_op {A} (g : mcfg A) (o : op) (st : mstate) : res mstate :=
  match o with
  | Loop v => bind (m_visit g v st) (fun r => Ok (snd r))
  | Save => bind (m_save g st) (fun r => Ok (snd r))
  | Load obj => m_load g obj st
  end.
Fixpoint m_ops {A} (g : mcfg A) (ops : list op) (st : mstate) : res mstate :=
  match ops with [] => Ok st | o :: ops' => bind (m_op g o st) (m_ops g ops') end.

(** A state saved with the same number of datasets. *)
Definition obj_ok (members : nat) (o : mobj) : Prop :=
  Forall (fun wc => length (snd wc) = members) (o_counts o) /\ length (o_members o) = members.
Definition op_ok (members : nat) (o : op) : Prop := match o with Load obj => obj_ok members obj | _ => True end.
(** The number of loops. *)
Fixpoint loops (ops : list op) : nat :=
  match ops with [] => 0 | Loop _ :: ops' => S (loops ops') | _ :: ops' => loops ops' end.
Definition is_load (o : op) : Prop := match o with Load _ => True | _ => False end.

(** In every epoch and with every batch size the workers together are handed the samples of each
    member exactly once (C01 and C08 for one rank). *)
Definition splits {A} (g : mcfg A) (whole : nat -> list A) : Prop :=
  forall k e b, k < g_members g -> Permutation (flat_map (g_data g k e b) (seq 0 (g_nw g))) (whole k).

(** [src x] is the member that sample [x] belongs to. *)
Definition source {A} (g : mcfg A) (src : A -> nat) : Prop :=
  forall k e b w x, k < g_members g -> In x (g_data g k e b w) -> src x = k.
(** The number of samples of member [k] in a list. *)
Definition of_member {A} (src : A -> nat) (k : nat) (l : list A) : nat := length (filter (fun x => src x =? k) l).

(** The same datasets and loader arguments, apart from how the workers are run. *)
Definition same_mix {A} (g g' : mcfg A) : Prop :=
  g_rng g' = g_rng g /\ g_all g' = g_all g /\ g_method g' = g_method g /\ g_ws g' = g_ws g /\
  g_members g' = g_members g /\ g_data g' = g_data g /\ g_len g' = g_len g /\ g_nw g' = g_nw g /\ g_B g' = g_B g.

(** A run that is stopped again and again: every time a new loader loads the last saved state,
    delivers some batches and saves its state; the final one runs to the end. *)
Fixpoint mrelay {A} (g : mcfg A) (ms : list nat) (o : mobj) : res (list (nat * list A)) :=
  match ms with
  | [] => bind (m_load g o (m_init g)) (fun st => bind (m_visit g Whole st) (fun r => Ok (fst r)))
  | m :: ms' =>
      bind (m_load g o (m_init g)) (fun st =>
      bind (m_visit g (Part m) st) (fun r =>
      bind (m_save g (snd r)) (fun s =>
      bind (mrelay g ms' (fst s)) (fun rest => Ok (fst r ++ rest)))))
  end.
