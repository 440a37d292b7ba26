(** Theorems about resuming a job (C96). *)
From Coq Require Import String ZArith.
From Verif Require Import Base Names_Model Names_Proofs Distrib_Model Accept_Model Accept_Spec Accept_Proofs.
Local Open Scope list_scope.
Local Open Scope nat_scope.

(** C96: an interrupted job with inputs that json can represent is resumed when it is
    started again with the same inputs, however often it was interrupted: each worker
    gets its inputs from the one after the last that is done. *)
Theorem C96_resumes_partial remote items st :
  Forall (Forall plain) items -> jobs remote items st ->
  exists rest st', begin remote (length items) items st = Ok (rest, st') /\ length rest = length items /\
    forall w l, nth_error items w = Some l ->
      nth_error rest w = Some (skipn (match j_done st w with Some k => k | None => 0 end) l).
Proof.
  intros P H.
  assert (E : st = SavedJob Missing (fun _ => None) \/ j_config st = Config (length items) (PList (map PList items))).
  { induction H as [|st rest st' done H IH B]; [left; reflexivity|]. right. cbn [j_config]. destruct IH as [->|E].
    - rewrite begin_fresh in B by exact P. injection B as _ <-. reflexivity.
    - rewrite begin_saved in B by assumption. injection B as _ <-. exact E. }
  destruct E as [->|E].
  - rewrite begin_fresh by exact P. eexists _, _. split; [reflexivity|]. split; [reflexivity|]. intros w l Hl. cbn [j_done skipn]. exact Hl.
  - rewrite begin_saved by assumption. eexists _, _. split; [reflexivity|]. split.
    + rewrite map_length, combine_length, seq_length. apply Nat.min_id.
    + intros w l Hl. rewrite (map_nth_error _ _ _ (nth_error_combine_seq items 0 w l Hl)). reflexivity.
Qed.
Print Assumptions C96_resumes_partial.

Definition strings : list (list value) :=
  [[PStr (codes "a"); PDict [(KStr (codes "path"), PStr (codes "b")); (KStr (codes "label"), PInt 3)]]; [PStr (codes "c")]].
Example C96_case : Forall (Forall plain) strings /\
  jobs false strings (SavedJob (Config 2 (PList (map PList strings))) (fun w => if w =? 0 then Some 1 else None)) /\
  bind (begin false 2 strings (SavedJob (Config 2 (PList (map PList strings))) (fun w => if w =? 0 then Some 1 else None)))
    (fun r => Ok (fst r)) =
  Ok [[PDict [(KStr (codes "path"), PStr (codes "b")); (KStr (codes "label"), PInt 3)]]; [PStr (codes "c")]].
Proof.
  split; [|split].
  - unfold strings. repeat (apply Forall_cons || apply Forall_nil); try constructor.
    apply (plain_dict [(codes "path", PStr (codes "b")); (codes "label", PInt 3)]).
    + repeat constructor; cbn; intuition discriminate.
    + repeat constructor.
  - eapply job_once; reflexivity.
  - reflexivity.
Qed.

(** C96: a job with other inputs or another number of workers is refused: if the checkpoints
    are accepted, each worker has the same inputs in the same order. *)
Theorem C96_others_refused remote items st workers items' r :
  Forall (Forall plain) items -> j_config st = Config (length items) (PList (map PList items)) ->
  begin remote workers items' st = Ok r ->
  workers = length items /\ length items' = length items /\
  forall w l l', nth_error items w = Some l -> nth_error items' w = Some l' ->
    length l = length l' /\ forall k v v', nth_error l k = Some v -> nth_error l' k = Some v' -> same v v'.
Proof.
  intros P E B. unfold begin, load_config in B. rewrite E in B.
  destruct (Nat.eqb_spec (length items) workers) as [L|]; [|discriminate B]. cbn [negb] in B.
  destruct (equal _ _) eqn:Q; [|discriminate B]. clear B. rewrite equal_list in Q.
  destruct (equal_all_nth _ _ Q) as (L' & N). rewrite !map_length in L'.
  split; [auto|]. split; [auto|]. intros w l l' Hl Hl'.
  pose proof (N w _ _ (map_nth_error PList _ _ Hl) (map_nth_error PList _ _ Hl')) as Ql. rewrite equal_list in Ql.
  destruct (equal_all_nth _ _ Ql) as (Ll & Nl). split; [exact Ll|]. intros k v v' Hv Hv'.
  apply equal_same; [|exact (Nl k v v' Hv Hv')]. apply nth_error_In in Hl, Hv. rewrite Forall_forall in P. specialize (P l Hl). rewrite Forall_forall in P. exact (P v Hv).
Qed.
Print Assumptions C96_others_refused.

Example C96_refused_case :
  begin false 2 strings (SavedJob (Config 3 (PList (map PList strings))) (fun _ => None)) = Err ValueError /\
  begin false 2 strings (SavedJob (Config 2 (PList [PList [PStr (codes "a")]; PList [PStr (codes "c")]])) (fun _ => None)) = Err ValueError.
Proof. split; reflexivity. Qed.

(** C96: all other inputs are never resumed: with an input that is not as above (in it a tuple, a key that is not a string, nan, or an object) every start
    of an interrupted job raises ValueError or takes all inputs again. *)
Theorem C96_never_resumed remote items st :
  Forall (Forall proper) items -> Exists (Exists (fun v => ~ plain v)) items -> jobs remote items st ->
  begin remote (length items) items st = Err ValueError \/ exists st', begin remote (length items) items st = Ok (items, st').
Proof.
  intros P X H.
  assert (E : j_config st = Missing \/ j_config st = Unreadable \/
    exists n j, j_config st = Config n j /\ json (PList (map PList items)) = Ok j).
  { induction H as [|st rest st' done H IH B]; [left; reflexivity|]. cbn [j_config].
    assert (D : st' = st \/ st' = save_config remote (length items) (PList (map PList items)) st).
    { unfold begin in B. destruct (load_config _ _ _) as [next|]; [|discriminate B]. cbn [bind] in B.
      destruct (forallb _ next); injection B as _ <-; auto. }
    destruct D as [D|D]; subst st'; [exact IH|]. unfold save_config. destruct (json (PList (map PList items))) as [j|] eqn:Ej.
    - right; right. exists (length items), j. auto.
    - destruct remote; [exact IH|right; left; reflexivity]. }
  unfold begin, load_config. destruct E as [->|[->|(n & j & -> & Ej)]].
  - right. cbn [bind].
    replace (forallb (fun n => n =? 0) (repeat 0 (length items))) with true by (symmetry; apply forallb_forall; intros x Hx; apply repeat_spec in Hx; subst; reflexivity).
    eexists. reflexivity.
  - left. reflexivity.
  - left. destruct (negb (n =? length items)); [reflexivity|]. destruct (equal j (PList (map PList items))) eqn:Q; [|reflexivity]. exfalso.
    assert (HP : plain (PList (map PList items))).
    { apply (survives _ j); [|exact Ej|exact Q]. apply proper_list, Forall_map. eapply Forall_impl; [|exact P]. intros l Hl. apply proper_list, Hl. }
    inversion HP as [| | | | |l' F E|]; subst. rewrite Forall_map in F. apply Exists_exists in X. destruct X as (l & Hl & X). apply Exists_exists in X. destruct X as (v & Hv & Hn).
    rewrite Forall_forall in F. specialize (F l Hl). inversion F as [| | | | |l' F' E|]; subst. rewrite Forall_forall in F'. exact (Hn (F' v Hv)).
Qed.
Print Assumptions C96_never_resumed.

(** With a number as key; with two keys that json makes the same. *)
Example C96_never_resumed_case :
  let a := PDict [(KInt 1, PStr (codes "x"))] in
  let b := PDict [(KInt 1, PStr (codes "x")); (KStr (codes "1"), PStr (codes "x"))] in
  Forall (Forall proper) [[a]; [b]] /\ ~ plain a /\
  json b = Ok (PDict [(KStr (codes "1"), PStr (codes "x"))]) /\
  json (PDict [(KBool true, PInt 5); (KBool false, PInt 6); (KNone, PInt 7); (KInt (-12), PInt 8)]) =
    Ok (PDict [(KStr (codes "true"), PInt 5); (KStr (codes "false"), PInt 6); (KStr (codes "null"), PInt 7); (KStr (codes "-12"), PInt 8)]) /\
  bind (begin false 1 [[a]] (SavedJob Missing (fun _ => None))) (fun r => begin false 1 [[a]] (snd r)) = Err ValueError /\
  bind (begin true 1 [[b]] (SavedJob Missing (fun _ => None))) (fun r => begin true 1 [[b]] (snd r)) = Err ValueError.
Proof.
  cbv zeta. split; [|split; [|repeat split; reflexivity]].
  - repeat (apply Forall_cons || apply Forall_nil); apply proper_dict; cbn [map fst].
    + repeat constructor. intros [].
    + repeat constructor.
    + repeat constructor; cbn; intuition discriminate.
    + repeat constructor.
  - intros H. inversion H as [| | | | | |[|[k v] d'] N F E].
Qed.

(** C96 is false of inputs that contain tuples, as (path, label): the job cannot be resumed. *)
Theorem C96_tuple_refuted : exists items st,
  (forall remote, jobs remote items st) /\ (forall remote, begin remote (length items) items st = Err ValueError).
Proof.
  exists [[PTuple [PStr (codes "a"); PInt 1]]], (SavedJob (Config 1 (PList [PList [PList [PStr (codes "a"); PInt 1]]])) (fun _ => Some 1)).
  split; [|reflexivity]. intros remote. eapply job_once; reflexivity.
Qed.
Print Assumptions C96_tuple_refuted.

(** Other inputs are not always refused if those of the first run were not as above: a job over dictionaries with numbers as
    keys, or over tuples, goes on with the inputs that json made of them. *)
Theorem C96_others_refused_refuted : exists items items' st rest st',
  bind (begin false 1 items (SavedJob Missing (fun _ => None))) (fun r => Ok (snd r)) = Ok st /\
  (forall v v', In v (concat items) -> In v' (concat items') -> ~ same v v') /\
  begin false 1 items' st = Ok (rest, st') /\ items = [[PDict [(KInt 0, PInt 5); (KInt (-3), PInt 6)]; PTuple [PInt 7]]] /\
  items' = [[PDict [(KStr (codes "0"), PInt 5); (KStr (codes "-3"), PInt 6)]; PList [PInt 7]]].
Proof.
  do 5 eexists. split; [|split; [|split; [|split; reflexivity]]]; [vm_compute; reflexivity| |vm_compute; reflexivity].
  intros v v' Hv Hv' S. cbn in Hv, Hv'. destruct Hv as [<-|[<-|[]]]; destruct Hv' as [<-|[<-|[]]]; inversion S; subst;
    try (match goal with H : counts_as _ _ |- _ => inversion H end).
  match goal with H : Forall _ _ |- _ => inversion H as [|? ? (v & [E|[E|[]]] & _) _]; discriminate E end.
Qed.
Print Assumptions C96_others_refused_refuted.

(** C96 is false of inputs that json refuses: in a local directory the job cannot be resumed, in a
    remote one it starts from the first input in spite of its checkpoints. *)
Theorem C96_object_refuted : exists items st st',
  jobs false items st /\ begin false (length items) items st = Err ValueError /\
  jobs true items st' /\ j_done st' 0 = Some 1 /\ begin true (length items) items st' = Ok (items, st').
Proof.
  exists [[PObject 0; PObject 1]], (SavedJob Unreadable (fun _ => Some 1)), (SavedJob Missing (fun _ => Some 1)).
  split; [eapply job_once; reflexivity|].
  split; [reflexivity|]. split; [eapply job_once; reflexivity|].
  split; reflexivity.
Qed.
Print Assumptions C96_object_refuted.

(** C96 is false of several nodes: all of them save their own inputs as config.json of the
    same directory, so the job is refused on all nodes but one; *)
Theorem C96_nodes_refuted : exists (inputs : list value) a b st,
  Forall plain inputs /\ map_sequentially 2 0 1 inputs = Ok a /\ map_sequentially 2 1 1 inputs = Ok b /\
  bind (begin true 1 a (SavedJob Missing (fun _ => None))) (fun r => begin true 1 b (snd r)) = Err ValueError /\
  bind (begin true 1 b (SavedJob Missing (fun _ => None))) (fun r => Ok (snd r)) = Ok st /\
  begin true 1 a st = Err ValueError.
Proof.
  exists [PStr (codes "a"); PStr (codes "b")], [[PStr (codes "a")]], [[PStr (codes "b")]],
    (SavedJob (Config 1 (PList [PList [PStr (codes "b")]])) (fun _ => None)).
  split; [repeat constructor|]. vm_compute. auto.
Qed.
Print Assumptions C96_nodes_refuted.

(** and a worker of another node than the first looks for the checkpoint of a worker of the
    first node instead of its own. *)
Theorem C96_rank_refuted : exists num_workers node w uuid,
  length uuid = 32 /\ 0 < node /\ w < num_workers /\
  remove_uuid (codes "/out/.checkpoints/" ++ checkpoint_name (node * num_workers + w) uuid)%list <>
    (codes "/out/.checkpoints/" ++ checkpoint_read w)%list /\
  remove_uuid (codes "/out/.checkpoints/" ++ checkpoint_name (0 * num_workers + w) uuid)%list =
    (codes "/out/.checkpoints/" ++ checkpoint_read w)%list.
Proof.
  exists 2, 1, 0, (codes "9fe2c4e93f654fdbb24c02b15259716c"). split; [reflexivity|]. split; [repeat constructor|]. split; [repeat constructor|].
  vm_compute. split; [discriminate|reflexivity].
Qed.
Print Assumptions C96_rank_refuted.
