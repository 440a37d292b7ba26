(** Properties C175 - C180: how [map] and [optimize] call the function of the user, and what they take. *)
From Coq Require Import String Permutation Arith Lia NArith.
From Verif Require Import Base Worker_Model Worker_Proofs Worker_Properties Distrib_Model Distrib_Properties Names_Model Names_Proofs Size_Model Paths_Model Platform_Model Platform_Spec
  Platform_Proofs Calls_Model Calls_Spec Calls_Proofs.
Local Open Scope list_scope.
Local Open Scope nat_scope.

(** ** C175: the function of [map] gets the arguments it asks for

    For a function or an object with [__call__]: in every call of a worker the first parameter is the input, the second
    the directory, [device] the device of the worker, [is_last] whether it is the last input, and each other
    parameter has its default.  Partial: not for bound methods and partials (see below). *)
Theorem C175_arguments_partial {S} (c : callable S) f gpus rank calls :
  c = Function f \/ c = Object f -> plain f -> for_map (f_params f) ->
  exists es,
    Forall2 (fun x e => right_call (f_params f) (fst (fst x)) (snd (fst x))
                          (match gpus with Some g => Cuda (rank mod g) | None => VNone end) (VBool (snd x)) e) calls es /\
    map_calls c gpus rank None calls = map (fun e => bind (f_body f e) (fun _ => Ok tt)) es.
Proof.
  intros Hc Hp Hm. destruct (map_calls_named c f gpus rank calls Hc Hp Hm None (or_introl eq_refl)) as (es & F & E).
  exists es. split; [|exact E]. destruct gpus; exact F.
Qed.
Print Assumptions C175_arguments_partial.

(** Bound methods and partials get neither [device] nor [is_last]: they are called with the input and the directory only. *)
Theorem C175_methods_get_two {S} (c : callable S) gpus rank device item dir l :
  (exists f, c = Method f) \/ (exists c' args kws, c = Partial c' args kws) ->
  snd (prepare_item c gpus rank device item dir l) = bind (call c [item; dir] []) (fun _ => Ok tt).
Proof. apply prepare_hidden. Qed.
Print Assumptions C175_methods_get_two.

(** With these two arguments the function inside of a partial, also of a partial of a partial, gets the positional arguments
    that are bound in front of them, those of the inner partials first, and for each keyword the value that the outermost
    partial that has it binds. *)
Theorem C175_partials {S} (c : callable S) gpus rank device item dir l :
  (exists c' args kws, c = Partial c' args kws) ->
  exists f named, inside c f /\
    snd (prepare_item c gpus rank device item dir l) =
      bind (bind (bind_params (f_params f) (bound_args c ++ [item; dir]) named) (f_body f)) (fun _ => Ok tt) /\
    forall n, option_map snd (find (fun kv => String.eqb (fst kv) n) named) = bound_kw c n.
Proof.
  intros H. destruct (call_partials c [item; dir] []) as (f & named & F & E & K). exists f, named. split; [exact F|].
  split; [|intros n; transitivity (find_kw n named); [rewrite find_kw_find; destruct (find _ named); reflexivity|rewrite K; reflexivity]]. rewrite (prepare_hidden c gpus rank device item dir l (or_intror H)), E. reflexivity.
Qed.
Print Assumptions C175_partials.

(** A function for the examples: it raises KeyError when it is told that the input is the last one. *)
Definition asks (last_default : option val) : list param :=
  [Param "item" Positional None; Param "output_dir" Positional None; Param "scale" Positional (Some (VObj 7));
   Param "device" Positional None; Param "is_last" KeywordOnly last_default; Param "rest" VarKeyword None].
Definition tells (e : env) : res (outcome nat) :=
  match find (fun x => String.eqb (fst x) "is_last") e with Some (_, One (VBool true)) => Err KeyError | _ => Ok (Value (Some 1)) end.
Definition told (last_default : option val) : func nat := Func (asks last_default) (asks last_default) false tells.
Definition shows (ps : list param) : func nat :=
  Func ps ps true (fun e => Ok (Generator (map (fun x => match snd x with One (VObj n) => Some n | _ => None end) e))).
Lemma asks_for_map d : for_map (asks d).
Proof.
  exists (Param "item" Positional None), (Param "output_dir" Positional None), (tl (tl (asks d))). split; [reflexivity|].
  repeat (split; [first [reflexivity|intros [H|H]; discriminate]|]). split.
  { cbn [asks tl]; repeat apply Forall_cons; try apply Forall_nil; cbn [optional q_kind q_name q_default]; first [right; discriminate|left; left; reflexivity|left; right; reflexivity|intros [H|H]; discriminate]. }
  split; [repeat constructor; cbn; intuition discriminate|].
  intros l p l' E K. destruct l as [|? [|? [|? [|? l]]]]; injection E as; subst; try discriminate; [reflexivity|]. destruct l; discriminate.
Qed.
Example C175_case :
  for_map (asks None) /\ plain (told None) /\
  bind_params (asks None) [VObj 1; VObj 2] [("device"%string, Cuda 1); ("is_last"%string, VBool true)] =
    Ok [("item"%string, One (VObj 1)); ("output_dir"%string, One (VObj 2)); ("scale"%string, One (VObj 7));
        ("device"%string, One (Cuda 1)); ("is_last"%string, One (VBool true)); ("rest"%string, Named [])] /\
  map_calls (Object (told None)) (Some 2) 3 None [(VObj 1, VObj 2, false); (VObj 3, VObj 4, true)] = [Ok tt; Err KeyError] /\
  (** a partial: positional arguments in front, keyword arguments of the call replace the ones that are bound *)
  call (Partial (Function (shows [Param "x" Positional None; Param "y" Positional None; Param "z" KeywordOnly None])) [VObj 5] [("z"%string, VObj 6)])
    [VObj 1] [("z"%string, VObj 7)] = Ok (Generator [Some 5; Some 1; Some 7]) /\
  call (Partial (Function (shows [Param "x" Positional None; Param "y" Positional None; Param "z" KeywordOnly None])) [VObj 5] [("z"%string, VObj 6)])
    [VObj 1] [] = Ok (Generator [Some 5; Some 1; Some 6]) /\
  bind_params [Param "x" Positional None; Param "args" VarPositional None; Param "z" KeywordOnly (Some VNone)] [VObj 1; VObj 2; VObj 3] [] =
    Ok [("x"%string, One (VObj 1)); ("args"%string, Many [VObj 2; VObj 3]); ("z"%string, One VNone)] /\
  bind_params [Param "x" Positional None] [VObj 1; VObj 2] [] = Err TypeError /\
  bind_params [Param "x" Positional None] [VObj 1] [("x"%string, VObj 2)] = Err TypeError.
Proof. split; [apply asks_for_map|]. split; [reflexivity|]. repeat (apply conj; [vm_compute; reflexivity|]). vm_compute; reflexivity. Qed.

Example C175_partials_case :
  let f := shows [Param "a" Positional None; Param "b" Positional None; Param "c" Positional None; Param "d" Positional None; Param "z" KeywordOnly None] in
  let c := Partial (Partial (Function f) [VObj 5] [("z"%string, VObj 6)]) [VObj 8] [("z"%string, VObj 7)] in
  inside c f /\ bound_args c = [VObj 5; VObj 8] /\ bound_kw c "z" = Some (VObj 7) /\
  call c [VObj 1; VObj 2] [] = Ok (Generator [Some 5; Some 8; Some 1; Some 2; Some 7]).
Proof. cbv zeta. split; [reflexivity|]. split; [reflexivity|]. split; vm_compute; reflexivity. Qed.

(** A function that works, but not as a bound method or as a partial: the call raises TypeError, because [device] and
    [is_last] are missing. *)
Theorem C175_methods_refuted : exists f : func nat, for_map (f_params f) /\ plain f /\
  (forall gpus rank device item dir, snd (prepare_item (Function f) gpus rank device item dir false) = Ok tt) /\
  (forall gpus rank device item dir l, snd (prepare_item (Method f) gpus rank device item dir l) = Err TypeError /\
     snd (prepare_item (Partial (Function f) [] []) gpus rank device item dir l) = Err TypeError /\
     snd (prepare_item (Partial (Function f) [] [("scale"%string, VObj 9)]) gpus rank device item dir l) = Err TypeError).
Proof.
  exists (told None). split; [apply asks_for_map|]. split; [reflexivity|]. split.
  - intros [g|] rank [k|] item dir; reflexivity.
  - intros [g|] rank [k|] item dir l; repeat split; reflexivity.
Qed.
Print Assumptions C175_methods_refuted.

(** If the parameters have defaults, a bound method is silently told that no input is the last one. *)
Definition kindly : func nat :=
  let ps := [Param "item" Positional None; Param "output_dir" Positional None; Param "is_last" Positional (Some (VBool false))] in
  Func ps ps false tells.
Theorem C175_silent_refuted : exists f : func nat, for_map (f_params f) /\ plain f /\
  forall item dir, snd (prepare_item (Function f) None 0 None item dir true) = Err KeyError /\
    snd (prepare_item (Method f) None 0 None item dir true) = Ok tt.
Proof.
  exists kindly. split.
  { eexists _, _, _. split; [reflexivity|]. repeat (split; [first [reflexivity|intros [H|H]; discriminate]|]). split.
    { apply Forall_cons; [|apply Forall_nil]. left. right. reflexivity. }
    split; [repeat constructor; cbn; intuition discriminate|].
    intros l p l' E K. destruct l as [|? l]; injection E as; subst; try discriminate. destruct l; discriminate. }
  split; [reflexivity|]. intros item dir. split; reflexivity.
Qed.
Print Assumptions C175_silent_refuted.

(** A function behind a decorator made with [functools.wraps] is called with what the wrapped function asks for. *)
Theorem C175_wrapped_refuted : exists f : func nat, for_map (f_params f) /\
  (forall item dir, call (Function f) [item; dir] [] = Ok (Value (Some 1))) /\
  forall gpus rank device item dir l, snd (prepare_item (Function f) gpus rank device item dir l) = Err TypeError.
Proof.
  exists (Func (firstn 2 (asks None)) (asks None) false tells). split.
  { eexists _, _, []. split; [reflexivity|]. repeat (split; [first [reflexivity|intros [H|H]; discriminate|apply Forall_nil|repeat constructor; cbn; intuition discriminate]|]).
    intros l p l' E. destruct l; discriminate. }
  split; [reflexivity|]. intros [g|] rank [k|] item dir l; reflexivity.
Qed.
Print Assumptions C175_wrapped_refuted.

(** ** C176: what a generator yields is stored value by value

    For functions, objects with [__call__] and partials (also several) of functions: the samples that are stored are
    the values that are not None.  Partial: a call gives a generator only if the body of the function contains [yield];
    not for bound methods and partials of methods or objects. *)
Theorem C176_generators_partial {S} (c : callable S) f item o r :
  around c f \/ c = Object f -> honest f -> call c [item] [] = Ok o -> gives o r -> store_outputs c item = Ok r.
Proof. apply store_right. Qed.
Print Assumptions C176_generators_partial.

Definition both : func nat :=
  let ps := [Param "x" Positional None; Param "scale" Positional (Some (VObj 7))] in
  Func ps ps true (fun e => Ok (Generator [Some 1; None; Some 2])).
Example C176_case : honest both /\ around (Partial (Partial (Function both) [] []) [] [("scale"%string, VObj 1)]) both /\
  store_outputs (Partial (Partial (Function both) [] []) [] [("scale"%string, VObj 1)]) (VObj 3) = Ok [1; 2] /\
  store_outputs (Object both) (VObj 3) = Ok [1; 2] /\ store_outputs (Function (told None)) (VObj 3) = Err RuntimeError.
Proof.
  split; [intros e r H; injection H as <-; split; [eexists; reflexivity|reflexivity]|]. split; [reflexivity|]. repeat (split; [vm_compute; reflexivity|]). vm_compute. reflexivity.
Qed.

(** A generator that is a bound method, a partial of an object, or what a function without [yield] returns, makes
    [optimize] raise. *)
Theorem C176_generators_refuted : exists f : func nat, honest f /\
  (forall item, store_outputs (Function f) item = Ok [1; 2]) /\
  (forall item, exists o, call (Method f) [item] [] = Ok o /\ gives o [1; 2] /\ store_outputs (Method f) item = Err RuntimeError /\
     store_outputs (Partial (Method f) [] []) item = Err RuntimeError /\ store_outputs (Partial (Object f) [] []) item = Err RuntimeError) /\
  (forall item, store_outputs (Function (Func (f_params f) (f_shown f) false (f_body f))) item = Err RuntimeError).
Proof.
  exists both. split; [intros e r H; injection H as <-; split; [eexists; reflexivity|reflexivity]|]. split; [reflexivity|]. split; [|reflexivity].
  intros item. eexists. split; [reflexivity|]. split; [|repeat split; reflexivity]. apply gives_all. repeat constructor.
Qed.
Print Assumptions C176_generators_refuted.

(** ** C177: [is_last] marks the last call of a worker

    In every execution of a worker with [n] inputs at most one call is marked, and once it has ended exactly one (if
    it has inputs). *)
Theorem C177_marked_once m paths broken bad remove n k s :
  0 < m -> steps m paths broken bad remove (setup m n) k s ->
  (map (last_index n) (k_done s) = repeat false (List.length (k_done s)) \/
   exists a b, map (last_index n) (k_done s) = repeat false a ++ true :: repeat false b) /\
  (k_status s = Ended -> 0 < n -> exists a b, map (last_index n) (k_done s) = repeat false a ++ true :: repeat false b).
Proof.
  intros Hm H. destruct (C45_each_once _ _ _ _ _ _ _ _ Hm H) as (H1 & H2 & H3). split; [apply flags_once; assumption|].
  intros E Hn. apply flags_exactly; [exact Hn|apply H3; exact E].
Qed.
Print Assumptions C177_marked_once.
(** It is the last call if there are no downloaders, or one.  Partial: see below. *)
Theorem C177_last_partial n : 0 < n ->
  (forall m fuel, 0 < m -> n + m <= fuel -> exists l, fake_loop fuel m (seq 0 n) 0 [] = Ok l /\ map (last_index n) l = repeat false (n - 1) ++ [true]) /\
  (forall paths broken bad remove k s, steps 1 paths broken bad remove (setup 1 n) k s -> k_status s = Ended ->
     map (last_index n) (k_done s) = repeat false (n - 1) ++ [true]).
Proof.
  intros Hn. split.
  - intros m fuel Hm Hf. exists (seq 0 n). split; [apply C45_no_downloader; assumption|apply flags_seq; exact Hn].
  - intros paths broken bad remove k s H E. destruct (C45_each_once _ _ _ _ _ _ _ _ Nat.lt_0_1 H) as (_ & _ & H3). destruct (H3 E) as (P & _).
    destruct (C45_one_downloader _ _ _ _ _ _ _ H) as (rest & R). assert (rest = []).
    { apply Permutation_length in P. apply (f_equal (@List.length nat)) in R. rewrite app_length in R. rewrite P in R. destruct rest; [reflexivity|cbn [List.length] in R; lia]. }
    subst rest. rewrite app_nil_r in R. rewrite R. apply flags_seq. exact Hn.
Qed.
Print Assumptions C177_last_partial.
Example C177_case : map (last_index 3) (seq 0 3) = [false; false; true].
Proof. reflexivity. Qed.

(** With two downloaders (the default) the marked call may come first. *)
Theorem C177_last_refuted : exists k s, steps 2 (fun i => [i]) (fun _ => false) (fun _ => false) true (setup 2 2) k s /\
  k_status s = Ended /\ map (last_index 2) (k_done s) = [true; false].
Proof. destruct C45_case as (k & s & H & E & D). exists k, s. split; [exact H|]. split; [exact E|]. rewrite D. reflexivity. Qed.
Print Assumptions C177_last_refuted.

(** ** C178: the workers of a node are spread evenly over its devices

    On every node each of the [g] devices is used by [nw / g] workers or one more, by exactly as many if [g] divides
    [nw]; no other device is used. *)
Theorem C178_devices g nw node : 0 < g ->
  (forall w, w < nw -> exists d, find_device (Some g) (global_rank nw node w) = Some d /\ d < g) /\
  (forall d, d < g ->
     let u := users (fun w => find_device (Some g) (global_rank nw node w)) nw d in
     nw / g <= u <= S (nw / g) /\ (nw mod g = 0 -> u = nw / g)).
Proof.
  intros Hg. split.
  - intros w _. eexists. split; [reflexivity|]. apply Nat.mod_upper_bound. lia.
  - intros d Hd. cbn zeta. rewrite users_count by exact Hd. exact (count_residues g d Hd nw (node * nw)).
Qed.
Print Assumptions C178_devices.
Example C178_case : map (users (fun w => find_device (Some 4) (global_rank 6 1 w)) 6) (seq 0 4) = [1; 1; 2; 2] /\
  map (users (fun w => find_device (Some 4) (global_rank 8 1 w)) 8) (seq 0 4) = [2; 2; 2; 2].
Proof. split; reflexivity. Qed.

(** ** C179: inputs may be given as any sequence

    A list that is not empty is taken as it is, or cut into batches.  Partial: for other sequences only with batches. *)
Theorem C179_inputs_partial {A} (l : list A) batch i :
  l <> [] -> i = AList l \/ (i = ASequence l /\ exists b, batch = Some b /\ 2 <= b) ->
  exists bs, take_inputs i batch = Ok bs /\ concat bs = l /\
    (forall b, batch = Some b -> 2 <= b -> Forall (fun x => 1 <= List.length x <= b) bs /\ forall x, In x (removelast bs) -> List.length x = b) /\
    (match batch with Some b => b <= 1 | None => True end -> Forall (fun x => List.length x = 1) bs).
Proof.
  intros Hl Hi. assert (Hc : match batch with Some b => 2 <= b | None => False end \/ match batch with Some b => b <= 1 | None => True end) by (destruct batch as [b|]; [lia|tauto]).
  destruct Hc as [Hb|Hb].
  - destruct batch as [b|]; [|tauto]. destruct (C49_batches b l Hb) as (bs & E & C & F & R). exists bs. split.
    { destruct l as [|x l]; [congruence|]. unfold take_inputs. destruct Hi as [-> |[-> _]]; rewrite E; reflexivity. }
    split; [exact C|]. split; [intros b' Eb _; injection Eb as <-; split; assumption|lia].
  - destruct Hi as [-> |(-> & b & Eb & H2)]; [|subst batch; lia]. exists (map (fun a => [a]) l). split.
    { destruct l as [|x l]; [congruence|]. unfold take_inputs. rewrite C49_no_batches; [reflexivity|]. destruct batch; lia. }
    split; [clear; induction l as [|x l IH]; [reflexivity|]; cbn [map concat app]; rewrite IH; reflexivity|].
    split; [intros b Eb H2; subst batch; lia|]. intros _. apply Forall_map. clear. induction l; constructor; [reflexivity|assumption].
Qed.
Print Assumptions C179_inputs_partial.
Example C179_case : take_inputs (AList [1; 2; 3]) None = Ok [[1]; [2]; [3]] /\ take_inputs (ASequence [1; 2; 3]) (Some 2) = Ok [[1; 2]; [3]] /\
  take_inputs (AList (@nil nat)) None = Err ValueError.
Proof. repeat split. Qed.
(** A tuple or a range passes the check of the inputs and is refused afterwards. *)
Theorem C179_sequences_refuted : exists l : list nat, l <> [] /\ take_inputs (AList l) None = Ok (map (fun x => [x]) l) /\
  take_inputs (ASequence l) None = Err ValueError /\ take_inputs (ASequence l) (Some 1) = Err ValueError.
Proof. exists [1; 2]. split; [discriminate|]. repeat split. Qed.
Print Assumptions C179_sequences_refuted.

(** ** C180: every directory but those of studios can be an output directory

    A directory in another studio is refused; one in a mounted bucket is taken, if neither the address of the bucket nor one
    of the names contains the word "cloudspaces". *)
Definition word : str := codes "cloudspaces".
Theorem C180_studio_refused : forall lower studios clusters connections project this_studio name rest s k,
  Forall name_ok (name :: rest) -> ~ like_this_studio name ->
  the_one (fun s => goes_by lower s name) studios s -> the_one (fun k => k_id k = s_cluster s) clusters k ->
  bind (resolve lower studios clusters connections project this_studio (path (codes "teamspace" :: codes "studios" :: name :: rest))) check_output = Err ValueError.
Proof.
  intros lower studios clusters connections project this_studio name rest s k H1 H2 H3 H4.
  rewrite (resolve_in_studio lower studios clusters connections project this_studio name rest s k H1 H2 H3 H4). cbn [bind]. unfold check_output.
  change (codes "/cloudspaces/") with (codes "/" ++ codes "cloudspaces" ++ codes "/"). rewrite <- !app_assoc.
  replace (codes "s3://" ++ k_bucket k ++ codes "/projects/" ++ project ++ codes "/" ++ codes "cloudspaces" ++ codes "/" ++ s_id s ++ codes "/code/content" ++ path rest)
    with ((codes "s3://" ++ k_bucket k ++ codes "/projects/" ++ project ++ codes "/") ++ codes "cloudspaces" ++ (codes "/" ++ s_id s ++ codes "/code/content" ++ path rest))
    by (rewrite <- !app_assoc; reflexivity).
  rewrite contains_app. reflexivity.
Qed.
Print Assumptions C180_studio_refused.
Theorem C180_bucket_partial : forall lower studios clusters connections project this_studio folder name rest c base,
  In folder [codes "s3_connections"; codes "s3_folders"] ->
  Forall name_ok (name :: rest) -> the_one (fun c => d_name c = name) connections c ->
  base <> [] -> ends [slash] base = false -> d_source c = base \/ (d_source c = base ++ [slash] /\ rest <> []) ->
  contains word base = false -> Forall (fun n => contains word n = false) rest ->
  bind (resolve lower studios clusters connections project this_studio (path (codes "teamspace" :: folder :: name :: rest))) check_output = Ok tt.
Proof.
  intros lower studios clusters connections project this_studio folder name rest c base H1 H2 H3 H4 H5 H6 H7 H8.
  rewrite (resolve_in_connection lower studios clusters connections project this_studio folder name rest c base H1 H2 H3 H4 H5 H6). cbn [bind]. unfold check_output.
  change (codes "cloudspaces") with word. rewrite contains_path; [reflexivity|discriminate| |assumption|assumption].
  cbn. intuition discriminate.
Qed.
Print Assumptions C180_bucket_partial.
Definition archive : connection := Connection (codes "archive") (codes "s3://old-cloudspaces-archive").
Example C180_case :
  bind (resolve (fun s => s) [] [] [Connection (codes "data") (codes "s3://bkt/a")] [] [] (codes "/teamspace/s3_connections/data/x")) check_output = Ok tt.
Proof. vm_compute. reflexivity. Qed.
(** The word in the name of a bucket, or of a folder in it, is enough to be refused. *)
Theorem C180_word_refuted : exists connections,
  bind (resolve (fun s => s) [] [] connections [] [] (codes "/teamspace/s3_connections/archive/x")) check_output = Err ValueError /\
  resolve (fun s => s) [] [] connections [] [] (codes "/teamspace/s3_connections/archive/x") = Ok (Some (codes "s3://old-cloudspaces-archive/x")) /\
  check_output (Some (codes "s3://bucket/about-cloudspaces/v1")) = Err ValueError.
Proof. exists [archive]. repeat split; vm_compute; reflexivity. Qed.
Print Assumptions C180_word_refuted.
