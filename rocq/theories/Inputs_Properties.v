(** Properties C121 to C125: inputs of map and optimize. *)
From Coq Require Import String NArith ZArith Lia Permutation.
From Verif Require Import Base Names_Model Size_Model Paths_Model Assign_Model Distrib_Model Distrib_Spec Distrib_Properties Inputs_Model Inputs_Spec Inputs_Proofs.
Local Open Scope list_scope.
Local Open Scope nat_scope.

(** ** C121: with an input directory, inputs are accepted if each names a file that is not empty *)

(** If every input names something that exists and nothing that is empty, every worker gets its share; otherwise an
    error is raised before any worker starts. *)
Theorem C121_partial perm nodes rank nw fs items dir :
  (forall w n, Permutation (perm w n) (seq 0 n)) -> rank < nodes -> 1 <= nw -> real fs -> dir <> [] ->
  (Forall (readable fs) items -> exists out, shares perm nodes rank nw fs items None true (Some dir) = Ok out /\ length out = nw) /\
  (~ Forall (readable fs) items -> shares perm nodes rank nw fs items None true (Some dir) = Err RuntimeError \/
    shares perm nodes rank nw fs items None true (Some dir) = Err ValueError).
Proof.
  intros Hp Hr Hw R Hd. destruct dir as [|c dir]; [congruence|]. cbn [shares]. split.
  - intros H. destruct (filesizes_ok fs items R H) as (sizes & -> & L & F). cbn [bind].
    destruct (C27_weighted (fun _ => perm) nodes nw items None (Some sizes) sizes (fun _ => Hp) ltac:(lia) Hw (or_intror (conj eq_refl eq_refl)) L F) as (out & H1 & _).
    exists (out rank). apply H1, Hr.
  - intros H. destruct (filesizes_bad fs items R H) as [->|(sizes & -> & Hs)]; cbn [bind]; [left; reflexivity|].
    right. apply (C27_bad_weights perm nodes rank nw items None (Some sizes) sizes); auto.
Qed.
Print Assumptions C121_partial.

Local Ltac is_readable p := split; [exists (codes p); split; [left; reflexivity|vm_compute; discriminate]|
  intros s Hs; cbn in Hs; repeat (destruct Hs as [Hs|Hs]; [first [discriminate Hs|injection Hs as <-]; vm_compute; split; discriminate|]); destruct Hs].
Definition at_path (p : string) (x : found) (fs : machine) : machine := fun q => if list_eq_dec N.eq_dec q (codes p) then x else fs q.
Definition nothing : machine := fun _ => Missing.
Example C121_example :
  let fs := at_path "/d/a.txt" (File 7) (at_path "/d/b.txt" (File 3) nothing) in
  let items := [[Text (codes "/d/a.txt"); Other 1]; [Text (codes "/d/b.txt"); Text (codes "cat")]] in
  real fs /\ Forall (readable fs) items /\
  shares (fun _ n => seq 0 n) 1 0 2 fs items None true (Some (codes "/d")) = Ok [[[Text (codes "/d/a.txt"); Other 1]]; [[Text (codes "/d/b.txt"); Text (codes "cat")]]] /\
  shares (fun _ n => seq 0 n) 1 0 2 fs [[Text (codes "cat")]] None true (Some (codes "/d")) = Err ValueError.
Proof.
  intros fs items. split; [|split; [|split; vm_compute; reflexivity]].
  - intros p n. unfold fs, at_path, nothing. repeat destruct (list_eq_dec N.eq_dec _ _); intros [H|H]; (injection H as <- || discriminate H); lia.
  - apply Forall_cons; [is_readable "/d/a.txt"%string|]. apply Forall_cons; [is_readable "/d/b.txt"%string|]. constructor.
Qed.

(** A label that happens to be the name of an empty file in the working directory stops the job. *)
Theorem C121_refuted : exists fs path label dir, real fs /\ fs path = File 7 /\
  forall perm nodes rank nw, shares perm nodes rank nw fs [[Text path; Text label]] None true (Some dir) = Err RuntimeError.
Proof.
  exists (at_path "/d/a.txt" (File 7) (at_path "cat" (File 0) nothing)), (codes "/d/a.txt"), (codes "cat"), (codes "/d").
  split; [|split; [reflexivity|intros; reflexivity]].
  intros p n. unfold at_path, nothing. repeat destruct (list_eq_dec N.eq_dec _ _); intros [H|H]; (injection H as <- || discriminate H); lia.
Qed.
Print Assumptions C121_refuted.

(** ** C122: on several nodes every input is processed exactly once, also when the nodes do not see the same files *)

(** It holds if the nodes have the same files at the paths of the inputs. *)
Theorem C122_partial perm nodes nw fs items dir :
  (forall r w n, Permutation (perm r w n) (seq 0 n)) -> 1 <= nodes -> 1 <= nw -> dir <> [] ->
  (forall r, r < nodes -> same_files (fs r) (fs 0) items) -> real (fs 0) -> Forall (readable (fs 0)) items ->
  exists out, (forall r, r < nodes -> shares (perm r) nodes r nw (fs r) items None true (Some dir) = Ok (out r)) /\
    Permutation (concat (all_nodes nodes out)) items.
Proof.
  intros Hp Hn Hw Hd Hs R H. destruct dir as [|c dir]; [congruence|]. destruct (filesizes_ok (fs 0) items R H) as (sizes & E & L & F).
  destruct (C27_weighted perm nodes nw items None (Some sizes) sizes Hp Hn Hw (or_intror (conj eq_refl eq_refl)) L F) as (out & H1 & H2).
  exists out. split; [|exact H2]. intros r Hr. cbn [shares]. rewrite (filesizes_same _ _ _ (Hs r Hr)), E. cbn [bind]. apply H1, Hr.
Qed.
Print Assumptions C122_partial.

Example C122_example :
  let fs := at_path "/d/a" (File 7) (at_path "/d/b" (File 3) nothing) in let items := [[Text (codes "/d/a")]; [Text (codes "/d/b")]] in
  Forall (readable fs) items /\
  shares (fun _ n => seq 0 n) 2 0 1 fs items None true (Some (codes "/d")) = Ok [[[Text (codes "/d/a")]]] /\
  shares (fun _ n => seq 0 n) 2 1 1 fs items None true (Some (codes "/d")) = Ok [[[Text (codes "/d/b")]]].
Proof.
  intros fs items. split; [|split; vm_compute; reflexivity].
  apply Forall_cons; [is_readable "/d/a"%string|]. apply Forall_cons; [is_readable "/d/b"%string|]. constructor.
Qed.

(** Two nodes with different versions of the files: both process the same input and nobody the other. *)
Theorem C122_refuted : exists fs0 fs1 kept lost dir, kept <> lost /\ real fs0 /\ real fs1 /\
  Forall (readable fs0) [kept; lost] /\ Forall (readable fs1) [kept; lost] /\
  forall perm, (forall w n, Permutation (perm w n) (seq 0 n)) ->
    shares perm 2 0 1 fs0 [kept; lost] None true (Some dir) = Ok [[kept]] /\
    shares perm 2 1 1 fs1 [kept; lost] None true (Some dir) = Ok [[kept]].
Proof.
  exists (at_path "/d/a" (File 7) (at_path "/d/b" (File 3) nothing)), (at_path "/d/a" (File 7) (at_path "/d/b" (File 9) nothing)),
    [Text (codes "/d/a")], [Text (codes "/d/b")], (codes "/d").
  split; [discriminate|]. split; [|split; [|split; [|split]]].
  - intros p n. unfold at_path, nothing. repeat destruct (list_eq_dec N.eq_dec _ _); intros [H|H]; (injection H as <- || discriminate H); lia.
  - intros p n. unfold at_path, nothing. repeat destruct (list_eq_dec N.eq_dec _ _); intros [H|H]; (injection H as <- || discriminate H); lia.
  - apply Forall_cons; [is_readable "/d/a"%string|]. apply Forall_cons; [is_readable "/d/b"%string|]. constructor.
  - apply Forall_cons; [is_readable "/d/a"%string|]. apply Forall_cons; [is_readable "/d/b"%string|]. constructor.
  - intros perm Hp. pose proof (Permutation_length_1_inv (Permutation_sym (Hp 0 1))) as P0. pose proof (Permutation_length_1_inv (Permutation_sym (Hp 1 1))) as P1.
    split; vm_compute; [rewrite P0|rewrite P1]; reflexivity.
Qed.
Print Assumptions C122_refuted.

(** ** C123: all nodes use the same directories *)

(** On the platform, for every order of the requests of the nodes: the answers under a key are the same for all, and one of
    the values that they asked for. *)
Theorem C123_partial rs m got : requests true [] rs = (m, got) -> length got = length rs /\
  forall i j k v w, nth_error rs i = Some (k, v) -> nth_error rs j = Some (k, w) ->
    exists g, nth_error got i = Some g /\ nth_error got j = Some g /\ In (k, g) rs.
Proof.
  unfold requests. intros E. pose proof (requests_spec rs [] []) as H. rewrite E in H. destruct H as (_ & B & new & E' & L & C). cbn [app] in E'. subst new.
  split; [exact L|]. intros i j k v w Hi Hj. destruct (C i k v Hi) as (g & G1 & x & F1 & <-). destruct (C j k w Hj) as (g' & G2 & y & F2 & <-).
  exists (snd x). split; [exact G1|]. split; [congruence|]. destruct (B k x F1) as [H|[H1 H2]]; [discriminate|]. destruct x as [k' v']. cbn [fst snd] in *. subst k'. exact H1.
Qed.
Print Assumptions C123_partial.

Example C123_example :
  snd (requests true [] [("input_dir", codes "/in"); ("output_dir", codes "/out/12:00"); ("input_dir", codes "/in"); ("output_dir", codes "/out/12:01")]%string)
  = [codes "/in"; codes "/out/12:00"; codes "/in"; codes "/out/12:00"].
Proof. vm_compute. reflexivity. Qed.

(** Elsewhere, nodes that resolve the time in the name of a directory at different moments use different directories. *)
Theorem C123_refuted : exists path t0 t1 m, resolve_time t0 path <> resolve_time t1 path /\
  let '(m0, (_, o0)) := node_dirs false m (codes "/in") (resolve_time t0 path) in
  let '(_, (_, o1)) := node_dirs false m0 (codes "/in") (resolve_time t1 path) in
  o0 <> o1.
Proof. exists (codes "/out/{%M}"), (fun _ => codes "00"), (fun _ => codes "01"), []. split; vm_compute; discriminate. Qed.
Print Assumptions C123_refuted.

(** ** C124: a call works in the directories that it is given *)

(** Outside of the platform; on it, if all earlier requests of the application under the same key had the same value. *)
Theorem C124_partial m rs k v i o :
  snd (node_dirs false m i o) = (i, o) /\ snd (node_dirs true [] i o) = (i, o) /\
  snd (requests false m rs) = map snd rs /\
  ((forall w, In (k, w) rs -> w = v) -> exists got, snd (requests true [] (rs ++ [(k, v)])) = got ++ [v] /\ length got = length rs).
Proof.
  split; [reflexivity|]. split; [reflexivity|]. split.
  - unfold requests. assert (H : forall rs m got, snd (fold_left (request false) rs (m, got)) = got ++ map snd rs); [|exact (H rs m [])].
    clear. induction rs as [|[k v] rs IH]; intros m got; cbn [fold_left map]; [rewrite app_nil_r; reflexivity|]. change (request false (m, got) (k, v)) with (m, got ++ [v]). rewrite IH, <- app_assoc. reflexivity.
  - intros H. destruct (requests true [] (rs ++ [(k, v)])) as [m' got] eqn:E. destruct (C123_partial _ _ _ E) as [L K]. cbn [snd].
    assert (Hn : nth_error (rs ++ [(k, v)]) (length rs) = Some (k, v)) by (rewrite nth_error_app2, Nat.sub_diag by lia; reflexivity).
    destruct (K _ _ k v v Hn Hn) as (g & Hg & _ & Hin).
    assert (g = v) as -> by (apply in_app_or in Hin; destruct Hin as [Hin|[Hin|[]]]; [apply H, Hin|congruence]).
    rewrite app_length in L. cbn [length] in L. destruct (@exists_last _ got) as (got' & x & ->); [intros ->; cbn in L; lia|].
    rewrite app_length in L. cbn [length] in L. exists got'. assert (length got' = length rs) as L' by lia. split; [|exact L'].
    rewrite <- L', nth_error_app2, Nat.sub_diag in Hg by lia. cbn in Hg. injection Hg as ->. reflexivity.
Qed.
Print Assumptions C124_partial.
Example C124_example :
  snd (requests false [] [("output_dir", codes "/text"); ("output_dir", codes "/tokens")]%string) = [codes "/text"; codes "/tokens"] /\
  snd (requests true [] [("output_dir", codes "/text"); ("input_dir", codes "/raw"); ("output_dir", codes "/text")]%string) = [codes "/text"; codes "/raw"; codes "/text"].
Proof. split; vm_compute; reflexivity. Qed.

(** The second call of the same application gets the directories of the first one. *)
Theorem C124_refuted : exists i1 o1 i2 o2, i1 <> i2 /\ o1 <> o2 /\
  let m := fst (node_dirs true [] i1 o1) in snd (node_dirs true m i2 o2) = (i1, o1).
Proof. exists (codes "/raw"), (codes "/text"), (codes "/text"), (codes "/tokens"). split; [discriminate|]. split; [discriminate|]. vm_compute. reflexivity. Qed.
Print Assumptions C124_refuted.

(** ** C125: weights balance the work *)

(** With [map], without batches: the weights of the shares of any two workers of any nodes differ by at most the largest weight. *)
Theorem C125_partial (wt : item -> Z) perm nodes nw fs resolve studio resolve_dir inputs reorder dir W r r' :
  (forall w n, Permutation (perm w n) (seq 0 n)) -> r < nodes -> r' < nodes -> 1 <= nw -> (0 <= W)%Z ->
  Forall (fun i => (0 < wt i <= W)%Z) inputs -> dir <> [] ->
  exists out out',
    processed Map perm nodes r nw fs resolve studio resolve_dir inputs (Some (map wt inputs)) reorder 1 (Some dir) = Ok out /\
    processed Map perm nodes r' nw fs resolve studio resolve_dir inputs (Some (map wt inputs)) reorder 1 (Some dir) = Ok out' /\
    forall a b, In a out -> In b out' -> (weight_of wt a <= weight_of wt b + W)%Z.
Proof.
  intros Hp Hr Hr' Hw H0 HW Hd. destruct dir as [|c dir]; [congruence|]. unfold processed. cbn [bind]. change (batch_inputs 1 inputs) with (@None (list (list item))). cbv beta iota zeta. unfold shares.
  destruct (weighted_balance wt perm nodes nw inputs W Hp ltac:(lia) Hw HW) as (bins & E & H).
  destruct (H r Hr) as (out & E1 & H1). destruct (H r' Hr') as (out' & E2 & H2). exists out, out'. split; [exact E1|]. split; [exact E2|].
  intros a b Ha Hb. destruct (H1 a Ha) as (x & Hx & ->). destruct (H2 b Hb) as (y & Hy & ->).
  apply (C26_gap inputs (map wt inputs) (nodes * nw) W bins); auto; [rewrite map_length; reflexivity|nia|].
  apply Forall_forall. intros w Hin. apply in_map_iff in Hin. destruct Hin as (j & <- & Hj). rewrite Forall_forall in HW. apply HW, Hj.
Qed.
Print Assumptions C125_partial.

Definition four : list item := [[Other 10]; [Other 10]; [Other 1]; [Other 1]].
Definition worth (i : item) : Z := match i with [Other n] => Z.of_nat n | _ => 1%Z end.
Example C125_example :
  Forall (fun i => (0 < worth i <= 10)%Z) four /\
  processed Map (fun _ n => seq 0 n) 1 0 2 nothing id false id four (Some (map worth four)) true 1 (Some (codes "/d"))
    = Ok [[[Other 10]; [Other 1]]; [[Other 10]; [Other 1]]].
Proof. split; [repeat constructor; cbn; lia|vm_compute; reflexivity]. Qed.

(** With batches, one weight for each input is refused. *)
Theorem C125_refuted : exists inputs weights, length weights = length inputs /\ Forall (fun w => (0 < w)%Z) weights /\
  forall perm nodes rank nw fs resolve studio resolve_dir reorder,
    processed Map perm nodes rank nw fs resolve studio resolve_dir inputs (Some weights) reorder 2 (Some (codes "/d")) = Err ValueError.
Proof.
  exists four, (map worth four). split; [reflexivity|]. split; [repeat constructor|]. intros. unfold processed, shares. change (Some (codes "/d")) with (Some (47%N :: codes "d")). cbn [bind].
  vm_compute (match batch_inputs 2 four with Some l => map (@concat leaf) l | None => four end). cbv zeta. eapply C27_bad_weights; [left; reflexivity|]. left. cbn. discriminate.
Qed.
Print Assumptions C125_refuted.

(** [optimize] takes the weights and does not use them: the shares can differ by more than the largest weight. *)
Theorem C125_optimize_refuted : exists (wt : item -> Z) inputs W, Forall (fun i => (0 < wt i <= W)%Z) inputs /\
  forall perm fs resolve studio resolve_dir,
  exists a b, processed Optimize perm 1 0 2 fs resolve studio resolve_dir inputs (Some (map wt inputs)) false 1 (Some (codes "/d")) = Ok [a; b] /\
    (weight_of wt a > weight_of wt b + W)%Z.
Proof.
  exists worth, four, 10%Z. split; [repeat constructor; cbn; lia|]. intros. exists [[Other 10]; [Other 10]], [[Other 1]; [Other 1]]. split; [|vm_compute; reflexivity].
  unfold processed. change (Some (codes "/d")) with (Some (47%N :: codes "d")). cbn [bind]. change (batch_inputs 1 four) with (@None (list (list item))). cbv beta iota zeta. unfold shares.
  vm_compute. match goal with |- context[resolve_dir ?x] => destruct (resolve_dir x) as [[|]|] end; reflexivity.
Qed.
Print Assumptions C125_optimize_refuted.

(** ** C126: without an input directory, one is found that contains the files of the inputs *)

(** It contains all files which agree with the first one in the first three parts of their paths; for remote files, those in
    the same folder as the first one. *)
Theorem C126_partial fs resolve studio i rest p ps :
  paths_of fs i = p :: ps ->
  (forall parts, is_remote_file p = false -> resolve p = spell parts -> proper parts -> parts <> [] -> contains (codes "/.project") (resolve p) = false ->
   (get_input_dir fs resolve studio (i :: rest) = Ok None /\ studio = false /\ starts (codes "/teamspace") (resolve p) = false \/
    exists d, get_input_dir fs resolve studio (i :: rest) = Ok (Some d) /\ below d (resolve p) /\
      forall parts', proper parts' -> firstn 3 parts' = firstn 3 parts -> below d (spell parts'))) /\
  (forall folder name, is_remote_file p = true -> p = folder ++ 47%N :: name -> ~ In 47%N name -> folder <> [] -> ends [47%N] folder = false ->
   get_input_dir fs resolve studio (i :: rest) = Ok (Some folder)).
Proof.
  intros E. split.
  - intros parts Hr Ep HF Hn Hc. unfold get_input_dir. rewrite E, Hr. cbv zeta. rewrite Hc. destruct (studio || starts (codes "/teamspace") (resolve p)) eqn:Es.
    + right. rewrite Ep, first4_spell by assumption. exists (spell (firstn 3 parts)). split; [reflexivity|]. split; [apply below_firstn, HF|].
      intros parts' HF' <-. apply below_firstn, HF'.
    + left. apply orb_false_iff in Es. split; [reflexivity|exact Es].
  - intros folder name Hr Ep Hs Hn He. unfold get_input_dir. rewrite E, Hr, Ep. change 47%N with slash. rewrite dirname_at by assumption. reflexivity.
Qed.
Print Assumptions C126_partial.

Definition here : machine := at_path "/teamspace/studios/a/x/1" (File 1) (at_path "/teamspace/studios/b/2" (File 1) nothing).
Example C126_example :
  get_input_dir here id false [[Other 5; Text (codes "/teamspace/studios/a/x/1")]] = Ok (Some (codes "/teamspace/studios/a")) /\
  codes "/teamspace/studios/a/x/1" = spell (map codes ["teamspace"; "studios"; "a"; "x"; "1"]%string) /\
  proper (map codes ["teamspace"; "studios"; "a"; "x"; "1"]%string) /\
  get_input_dir nothing id false [[Text (codes "s3://bucket/x/1")]] = Ok (Some (codes "s3://bucket/x")) /\
  get_input_dir (at_path "/home/1" (File 1) nothing) id false [[Text (codes "/home/1")]] = Ok None.
Proof.
  split; [vm_compute; reflexivity|]. split; [vm_compute; reflexivity|]. split; [|split; vm_compute; reflexivity].
  repeat (apply Forall_cons; [split; [discriminate|vm_compute; intros H; repeat (destruct H as [H|H]; [discriminate H|]); exact H]|]). constructor.
Qed.

(** It need not contain the files of the second input. *)
Theorem C126_refuted : exists p q d resolve,
  get_input_dir nothing resolve false [[Text p]; [Text q]] = Ok (Some d) /\ is_remote_file p = true /\ is_remote_file q = true /\ ~ below d q.
Proof.
  exists (codes "s3://bucket/x/1"), (codes "s3://bucket/y/2"), (codes "s3://bucket/x"), id. repeat (split; [vm_compute; reflexivity|]). intros (r & E & _). vm_compute in E. discriminate E.
Qed.
Print Assumptions C126_refuted.

(** ** C127: inputs of which only some name files are refused *)

(** If the first input names none and the second one does. *)
Theorem C127_partial c perm nodes rank nw fs resolve studio resolve_dir i j rest weights reorder b : plain fs i -> names fs j ->
  processed c perm nodes rank nw fs resolve studio resolve_dir (i :: j :: rest) weights reorder b None = Err ValueError.
Proof.
  intros Hi Hj. unfold processed, get_input_dir. rewrite (plain_paths _ _ Hi). pose proof (names_paths _ _ Hj). destruct (paths_of fs j); [congruence|reflexivity].
Qed.
Print Assumptions C127_partial.

Example C127_example : plain here [Text (codes "label"); Text (codes "http://label: 3")] /\ names here [Other 3; Text (codes "/teamspace/studios/b/2")] /\
  processed Map (fun _ n => seq 0 n) 1 0 1 here id false id [[Text (codes "label"); Text (codes "http://label: 3")]; [Other 3; Text (codes "/teamspace/studios/b/2")]] None true 1 None = Err ValueError.
Proof.
  split; [|split; [|vm_compute; reflexivity]].
  - intros s [H|[H|[]]]; injection H as <-; (split; [vm_compute; reflexivity|]); intros (a & b & r & H & _); discriminate H.
  - exists (codes "/teamspace/studios/b/2"). split; [right; left; reflexivity|]. left. vm_compute. discriminate.
Qed.

(** Inputs of which none names a file are all processed, each one once. *)
Theorem C127_accepted c perm nodes nw fs resolve studio inputs reorder : Forall (plain fs) inputs -> inputs <> [] -> 1 <= nodes -> 1 <= nw ->
  exists out, (forall r, r < nodes -> processed c perm nodes r nw fs resolve studio (fun d => d) inputs None reorder 1 None = Ok (out r)) /\
    concat (all_nodes nodes out) = inputs.
Proof.
  intros H Hn H1 H2. destruct (C27_sequential perm nodes nw inputs H1 H2) as (out & Ho & Hc & _). exists out. split; [|exact Hc].
  intros r Hr. unfold processed. assert (E : get_input_dir fs resolve studio inputs = Ok None).
  { unfold get_input_dir. destruct H as [|i inputs Hi H]; [congruence|]. rewrite (plain_paths _ _ Hi). destruct H as [|j inputs Hj H]; [reflexivity|]. rewrite (plain_paths _ _ Hj). reflexivity. }
  rewrite E. cbn [bind]. change (batch_inputs 1 inputs) with (@None (list (list item))). cbv beta iota zeta. unfold shares. destruct c; apply Ho, Hr.
Qed.
Print Assumptions C127_accepted.

(** A third input is not looked at: it is processed with the others, and without an input directory. *)
Theorem C127_refuted : exists fs i j k, plain fs i /\ plain fs j /\ names fs k /\
  forall perm resolve studio, processed Map perm 1 0 1 fs resolve studio (fun d => d) [i; j; k] None true 1 None = Ok [[i; j; k]].
Proof.
  exists here, [Other 1], [Other 2], [Text (codes "/teamspace/studios/b/2")]. split; [intros s [H|[]]; discriminate H|]. split; [intros s [H|[]]; discriminate H|].
  split; [exists (codes "/teamspace/studios/b/2"); split; [left; reflexivity|left; vm_compute; discriminate]|]. intros. vm_compute. reflexivity.
Qed.
Print Assumptions C127_refuted.
