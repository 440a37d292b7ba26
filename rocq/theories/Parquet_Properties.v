(** Properties about Parquet directories. *)
From Coq Require Import String NArith Lia Permutation.
From Verif Require Import Base Names_Model Size_Model Paths_Model Format_Model Assign_Model Config_Model Config_Spec Parquet_Model Parquet_Spec Parquet_Proofs.
Local Open Scope list_scope.
Local Open Scope nat_scope.

(** ** C114: indexing lists every Parquet file once, with its rows and its size *)

(** For every directory, local or remote, whose Parquet files have columns of the same types: the index has one entry per
    Parquet file, in the order of the listing, with its name, size and number of rows; row [i] of the dataset is row [i] of
    these files one after the other.  Partial: outside of buckets no folder has a name that ends with ".parquet". *)
Theorem C114_partial pq s listing files ms types :
  parquet_files listing files -> (s <> Cloud -> forall e, In e listing -> named_parquet e -> e_folder e = false) ->
  Forall2 (fun e m => parquet_file pq (e_data e) m /\ map snd (snd m) = types) files ms ->
  exists chunks fmt, index_parquet pq s listing = Ok (chunks, fmt) /\
    chunks = map (fun x => described (fst x) (snd x)) (combine files ms) /\
    forall A (rows : list (list A)) i, map (@length A) rows = map fst ms ->
      row_at chunks rows i = match at_index (concat rows) i with Some r => Ok r | None => Err ValueError end.
Proof.
  intros Hl Hf H. pose proof (chosen_files s listing files Hf Hl) as Ec.
  assert (H' : Forall2 (fun e m => e_folder e = false /\ parquet_file pq (e_data e) m /\ map snd (snd m) = types) files ms).
  { clear Ec Hf. revert ms H. induction Hl as [|e l l' H1 H2 P IH|e l l' H1 P IH]; intros ms H; [inversion H; constructor| |exact (IH _ H)].
    inversion H as [|? m ? ms' K1 K2]; subst. constructor; [split; [exact H2|exact K1]|exact (IH _ K2)]. }
  rewrite <- Ec in H'. destruct (index_ok _ _ _ _ _ H') as [fmt E]. rewrite Ec in E. do 2 eexists. split; [exact E|]. split; [reflexivity|].
  intros A rows i Hr. apply rows_ok. rewrite Hr, map_map. clear - H. induction H as [|e m l ms' _ _ IH]; [reflexivity|]. cbn [combine map fst snd]. rewrite IH. reflexivity.
Qed.
Print Assumptions C114_partial.

(** Two files with footers of two bytes and rows numbered in the last byte of the footer, and a file of another kind. *)
Definition demo_pq (l : list N) : res metadata := match rev l with _ :: _ :: _ :: _ :: _ :: _ :: _ :: _ :: n :: _ => Ok (N.to_nat n, [(codes "x", codes "int64")]) | _ => Err ValueError end.
Definition demo_file (n : N) : list N := ([80; 65; 7; 7; 7] ++ [1; n] ++ [2; 0; 0; 0] ++ [80; 65; 82; 49])%N.
Definition demo_listing : list entry :=
  [Entry (codes "b/two.parquet") false (demo_file 2); Entry (codes "b/README.md") false [1%N]; Entry (codes "b/one.parquet") false (demo_file 1)].
Definition demo_files : list entry := [Entry (codes "b/two.parquet") false (demo_file 2); Entry (codes "b/one.parquet") false (demo_file 1)].
Example C114_example :
  parquet_files demo_listing demo_files /\
  Forall2 (fun e m => parquet_file demo_pq (e_data e) m /\ map snd (snd m) = [codes "int64"]) demo_files [(2, [(codes "x", codes "int64")]); (1, [(codes "x", codes "int64")])] /\
  index_parquet demo_pq Cloud demo_listing = Ok ([PChunk (codes "two.parquet") 15 2; PChunk (codes "one.parquet") 15 1], [codes "int64"]) /\
  row_at [PChunk (codes "two.parquet") 15 2; PChunk (codes "one.parquet") 15 1] [["x"; "y"]; ["z"]]%string 2 = Ok "z"%string.
Proof.
  split.
  { apply a_file; [exists (codes "b/two"); reflexivity|reflexivity|]. apply another.
    - intros [[stem E] _]. apply (f_equal (@rev N)) in E. cbn [e_name] in E. rewrite rev_app_distr in E. vm_compute in E. discriminate E.
    - apply a_file; [exists (codes "b/one"); reflexivity|reflexivity|constructor]. }
  split; [|split; vm_compute; reflexivity].
  repeat constructor; try reflexivity; [exists [80; 65; 7; 7; 7]%N, [1; 2]%N, [80; 65; 82; 49]%N | exists [80; 65; 7; 7; 7]%N, [1; 1]%N, [80; 65; 82; 49]%N];
    repeat split; vm_compute; reflexivity.
Qed.

(** A folder whose name ends with ".parquet", as other tools write, makes a local directory unusable, while the same
    listing in a bucket is indexed. *)
Theorem C114_folder_refuted : exists pq listing files ms chunks fmt, parquet_files listing files /\
  Forall2 (fun e m => parquet_file pq (e_data e) m /\ map snd (snd m) = [codes "int64"]) files ms /\
  index_parquet pq Local listing = Err GenericException /\ index_parquet pq Cloud listing = Ok (chunks, fmt).
Proof.
  exists demo_pq, [Entry (codes "a.parquet") false (demo_file 2); Entry (codes "b.parquet") true []], [Entry (codes "a.parquet") false (demo_file 2)],
    [(2, [(codes "x", codes "int64")])]. do 2 eexists. split.
  { apply a_file; [exists (codes "a"); reflexivity|reflexivity|]. apply another; [|constructor]. intros [_ E]. discriminate. }
  split; [|split; vm_compute; reflexivity].
  repeat constructor. exists [80; 65; 7; 7; 7]%N, [1; 2]%N, [80; 65; 82; 49]%N. repeat split; vm_compute; reflexivity.
Qed.
Print Assumptions C114_folder_refuted.

(** The order of the rows is the order of the listing, which the operating system does not fix for a local directory:
    the same files give datasets with different rows at 0. *)
Theorem C114_order_refuted : exists pq listing listing' chunks chunks' fmt fmt' (rows rows' : list (list nat)),
  Permutation listing listing' /\ index_parquet pq Local listing = Ok (chunks, fmt) /\ index_parquet pq Local listing' = Ok (chunks', fmt') /\
  (forall n l, In (n, l) (combine (map p_name chunks) rows) <-> In (n, l) (combine (map p_name chunks') rows')) /\
  row_at chunks rows 0 <> row_at chunks' rows' 0.
Proof.
  exists demo_pq, [Entry (codes "a.parquet") false (demo_file 2); Entry (codes "b.parquet") false (demo_file 1)],
    [Entry (codes "b.parquet") false (demo_file 1); Entry (codes "a.parquet") false (demo_file 2)].
  exists [PChunk (codes "a.parquet") 15 2; PChunk (codes "b.parquet") 15 1], [PChunk (codes "b.parquet") 15 1; PChunk (codes "a.parquet") 15 2], [codes "int64"], [codes "int64"],
    [[10; 11]; [20]], [[20]; [10; 11]].
  split; [constructor|]. split; [vm_compute; reflexivity|]. split; [vm_compute; reflexivity|]. split.
  - intros n l. cbn [map combine In]. tauto.
  - vm_compute. discriminate.
Qed.
Print Assumptions C114_order_refuted.

(** ** C115: files with different columns are refused *)

(** If the directory is indexed then all its files (that have a column) have the same types of columns. *)
Theorem C115_partial pq s listing files ms chunks fmt :
  parquet_files listing files -> (s <> Cloud -> forall e, In e listing -> named_parquet e -> e_folder e = false) ->
  Forall2 (fun e m => parquet_file pq (e_data e) m /\ snd m <> []) files ms ->
  index_parquet pq s listing = Ok (chunks, fmt) -> forall m m', In m ms -> In m' ms -> map snd (snd m) = map snd (snd m').
Proof.
  intros Hl Hf H E. unfold index_parquet in E. rewrite (chosen_files s listing files Hf Hl) in E. eapply index_loop_types; [|exact E]. clear Hf E.
  revert ms H. induction Hl as [|e l l' H1 H2 P IH|e l l' H1 P IH]; intros ms H; [inversion H; constructor| |exact (IH _ H)].
  inversion H as [|? m ? ms' (K1 & K2) K3]; subst. constructor; [split; [apply task_ok; assumption|exact K2]|exact (IH _ K3)].
Qed.
Print Assumptions C115_partial.

Definition typed_pq (l : list N) : res metadata := match rev l with _ :: _ :: _ :: _ :: _ :: _ :: _ :: _ :: n :: _ => Ok (3, repeat (codes "x", codes "int64") (N.to_nat n)) | _ => Err ValueError end.
Definition named_pq (l : list N) : res metadata := match rev l with _ :: _ :: _ :: _ :: _ :: _ :: _ :: _ :: n :: _ => Ok (3, [([n], codes "int64")]) | _ => Err ValueError end.
Example C115_example :
  index_parquet typed_pq Local [Entry (codes "a.parquet") false (demo_file 2); Entry (codes "b.parquet") false (demo_file 1)] = Err GenericException /\
  exists r, index_parquet typed_pq Local [Entry (codes "a.parquet") false (demo_file 2); Entry (codes "b.parquet") false (demo_file 2)] = Ok r.
Proof. split; [vm_compute; reflexivity|]. eexists. vm_compute. reflexivity. Qed.

(** The names of the columns are not compared: files with columns a and b are indexed together. *)
Theorem C115_refuted : exists pq s listing ms chunks fmt,
  parquet_files listing listing /\ Forall2 (fun e m => parquet_file pq (e_data e) m) listing ms /\
  index_parquet pq s listing = Ok (chunks, fmt) /\ exists m m', In m ms /\ In m' ms /\ map fst (snd m) <> map fst (snd m').
Proof.
  exists named_pq, Local, [Entry (codes "a.parquet") false (demo_file 2); Entry (codes "b.parquet") false (demo_file 1)],
    [(3, [([2%N], codes "int64")]); (3, [([1%N], codes "int64")])]. do 2 eexists.
  split; [apply a_file; [exists (codes "a"); reflexivity|reflexivity|]; apply a_file; [exists (codes "b"); reflexivity|reflexivity|constructor]|].
  split; [|split; [vm_compute; reflexivity|]].
  - repeat constructor; try reflexivity; [exists [80; 65; 7; 7; 7]%N, [1; 2]%N, [80; 65; 82; 49]%N | exists [80; 65; 7; 7; 7]%N, [1; 1]%N, [80; 65; 82; 49]%N];
      repeat split; vm_compute; reflexivity.
  - exists (3, [([2%N], codes "int64")]), (3, [([1%N], codes "int64")]). split; [left; reflexivity|]. split; [right; left; reflexivity|]. discriminate.
Qed.
Print Assumptions C115_refuted.

(** ** C116: a pattern selects the files that it names *)

(** A name without the characters * ? [ selects exactly the files of this name; "pre*suf" selects exactly the names that
    begin with pre and go on with something and then suf; the order is that of the index, and no file at all is an error. *)
Theorem C116_partial chunks :
  (forall p, plain p -> select p chunks = match filter (fun c => if list_eq_dec N.eq_dec (p_name c) p then true else false) chunks with [] => Err AssertionError | l => Ok l end) /\
  (forall p q, plain p -> plain q ->
    (forall l, select (p ++ star :: q) chunks = Ok l ->
      (forall c, In c l <-> In c chunks /\ exists m, p_name c = p ++ m ++ q) /\ exists keep, l = filter keep chunks) /\
    ((forall l, select (p ++ star :: q) chunks <> Ok l) -> forall c, In c chunks -> ~ exists m, p_name c = p ++ m ++ q)).
Proof.
  split.
  - intros p Hp. unfold select. assert (E : forall c, fnmatch (p_name c) p = if list_eq_dec N.eq_dec (p_name c) p then true else false).
    { intros c. pose proof (fnmatch_plain p (p_name c) Hp). destruct (list_eq_dec N.eq_dec (p_name c) p); [apply H; assumption|].
      destruct (fnmatch (p_name c) p); [destruct n; apply H; reflexivity|reflexivity]. }
    rewrite (filter_ext _ _ E). reflexivity.
  - intros p q Hp Hq. assert (G : forall c, In c (filter (fun c => fnmatch (p_name c) (p ++ star :: q)) chunks) <-> In c chunks /\ exists m, p_name c = p ++ m ++ q).
    { intros c. rewrite filter_In, (fnmatch_star p q (p_name c) Hp Hq). reflexivity. }
    unfold select. destruct (filter _ chunks) as [|x l'] eqn:E; split.
    + intros l Hl. discriminate.
    + intros _ c Hc Hm. destruct (proj2 (G c) (conj Hc Hm)).
    + intros l Hl. injection Hl as <-. split; [exact G|]. eexists. symmetry. exact E.
    + intros Hn. destruct (Hn _ eq_refl).
Qed.
Print Assumptions C116_partial.

Example C116_example : plain (codes "train-") /\ plain (codes ".parquet") /\
  select (codes "train-" ++ star :: codes ".parquet") [PChunk (codes "train-0.parquet") 9 3; PChunk (codes "test-0.parquet") 9 4; PChunk (codes "train-.parquet") 9 5]
  = Ok [PChunk (codes "train-0.parquet") 9 3; PChunk (codes "train-.parquet") 9 5].
Proof.
  split; [|split]; [..|vm_compute; reflexivity]; (repeat split; intros H; cbn in H; repeat (destruct H as [H|H]; [discriminate H|]); exact H).
Qed.

(** The same for all patterns: exactly the files whose names the pattern describes are selected, in the order of the index; if
    there is none the call raises. *)
Theorem C116_patterns chunks p : Forall fine_part p ->
  (forall l, select (pattern_text p) chunks = Ok l -> (forall c, In c l <-> In c chunks /\ describes p (p_name c)) /\ exists keep, l = filter keep chunks) /\
  ((exists c, In c chunks /\ describes p (p_name c)) <-> exists l, select (pattern_text p) chunks = Ok l) /\
  (forall e, select (pattern_text p) chunks = Err e -> e = AssertionError).
Proof.
  intros Hf.
  assert (G : forall c, In c (filter (fun c => fnmatch (p_name c) (pattern_text p)) chunks) <-> In c chunks /\ describes p (p_name c)).
  { intros c. rewrite filter_In, (fnmatch_pattern p (p_name c) Hf). reflexivity. }
  unfold select. destruct (filter _ chunks) as [|x l'] eqn:E; split; [|split| |split].
  - intros l Hl. discriminate.
  - split; [intros (c & Hc); apply G in Hc; destruct Hc|intros (l & Hl); discriminate].
  - congruence.
  - intros l Hl. injection Hl as <-. split; [exact G|]. eexists. symmetry. exact E.
  - split; [eauto|]. intros _. exists x. apply G. left. reflexivity.
  - discriminate.
Qed.
Print Assumptions C116_patterns.

Example C116_patterns_case :
  let p := [Anything; Char 45%N; Class false [Range 48 53; One 55]%N; Class true [One 120%N]; AnyChar] ++ map Char (codes ".parquet") in
  Forall fine_part p /\ pattern_text p = codes "*-[0-57][!x]?.parquet" /\
  option_map (map p_rows) (match select (pattern_text p) [PChunk (codes "train-3ab.parquet") 9 1; PChunk (codes "test-6ab.parquet") 9 2;
    PChunk (codes "-7-1.parquet") 9 3; PChunk (codes "a-0xx.parquet") 9 4; PChunk (codes "a-5ax.parquet") 9 5; PChunk (codes "a-5a.parquet") 9 6] with Ok l => Some l | Err _ => None end) = Some [1; 3; 5].
Proof.
  split; [|split; vm_compute; reflexivity]. repeat (apply Forall_cons || apply Forall_nil); cbn; repeat split; try discriminate; repeat (apply Forall_cons || apply Forall_nil); cbn; repeat split; discriminate.
Qed.

(** C116: an opening bracket that is not closed stands for itself; a closing one directly after the beginning of a set (or after its
    exclamation mark) belongs to the set. *)
Theorem C116_brackets name :
  (forall l, ~ In 42%N l -> ~ In 63%N l -> ~ In 93%N l -> fnmatch name l = true <-> name = l) /\
  (forall negated l, ~ In 45%N l -> ~ In 93%N l ->
     fnmatch name (codes "[" ++ (if negated : bool then codes "!" else []) ++ codes "]" ++ l ++ codes "]") = true <->
     exists c, name = [c] /\ (if negated then ~ (c = 93%N \/ In c l) else c = 93%N \/ In c l)).
Proof.
  split.
  - intros l H1 H2 H3. unfold fnmatch.
    assert (U : forall q, ~ In ket q -> until_ket q = None).
    { induction q as [|c q IH]; intros H; [reflexivity|]. cbn [until_ket].
      destruct (N.eqb_spec c ket) as [->|_]; [destruct H; left; reflexivity|]. rewrite IH; [reflexivity|]. intros X. apply H. right. exact X. }
    assert (T : tokens (List.length l) l = map Lit l).
    { clear -H1 H2 H3 U. induction l as [|c l IH]; [reflexivity|]. cbn [List.length tokens map].
      destruct (N.eqb_spec c star) as [->|_]; [destruct H1; left; reflexivity|].
      destruct (N.eqb_spec c mark) as [->|_]; [destruct H2; left; reflexivity|].
      rewrite IH by (intros X; auto using in_cons).
      destruct (c =? bra)%N; [|reflexivity].
      assert (Hl : ~ In ket l) by (intros X; apply H3; right; exact X).
      assert (E : set_at l = None).
      { unfold set_at. destruct l as [|x l]; [reflexivity|].
        assert (Hx : (x =? ket)%N = false) by (apply N.eqb_neq; intros ->; apply Hl; left; reflexivity).
        destruct (x =? bang)%N.
        - destruct l as [|y l]; [reflexivity|].
          assert (Hy : (y =? ket)%N = false) by (apply N.eqb_neq; intros ->; apply Hl; right; left; reflexivity).
          rewrite Hy, U; [reflexivity|]. intros X. apply Hl. right. exact X.
        - rewrite Hx, U by exact Hl. reflexivity. }
      rewrite E. reflexivity. }
    rewrite T. clear. revert name. induction l as [|c l IH]; intros [|x name]; cbn [map matches]; try (split; congruence).
    rewrite andb_true_iff, N.eqb_eq, IH. split; [intros [-> ->]; reflexivity|intros X; injection X; auto].
  - intros negated l H1 H2. unfold fnmatch.
    set (text := (codes "[" ++ _)%list).
    assert (T : tokens (List.length text) text = [Set_ negated (ket :: l)]).
    { pose proof (until_ket_app l [] H2) as U. unfold text. destruct negated; change (codes "[") with [bra]; change (codes "]") with [ket]; [change (codes "!") with [bang]|]; cbn [app List.length tokens].
      - change (bra =? star)%N with false. change (bra =? mark)%N with false. change (bra =? bra)%N with true. cbv iota.
        unfold set_at. change (bang =? bang)%N with true. cbv iota beta.
        change (ket =? ket)%N with true. cbv iota. rewrite U. cbv iota beta.
        destruct (List.length (l ++ [ket])%list); reflexivity.
      - change (bra =? star)%N with false. change (bra =? mark)%N with false. change (bra =? bra)%N with true. cbv iota.
        unfold set_at. change (ket =? bang)%N with false. cbv iota beta.
        change (ket =? ket)%N with true. cbv iota. rewrite U. cbv iota beta.
        destruct (List.length (l ++ [ket])%list); reflexivity. }
    rewrite T. clear T text.
    assert (G : forall c, in_set (ket :: l) c = true <-> c = ket \/ In c l).
    { intros c. assert (G : forall items, ~ In 45%N items -> in_set items c = true <-> In c items).
      { clear. induction items as [|a items IH]; intros H; [split; [discriminate|intros []]|].
        assert (E : in_set (a :: items) c = (a =? c)%N || in_set items c).
        { cbn [in_set]. destruct items as [|h [|b rest]]; [reflexivity|reflexivity|].
          destruct (N.eqb_spec h 45) as [->|_]; [destruct H; right; left; reflexivity|reflexivity]. }
        rewrite E, orb_true_iff, N.eqb_eq, IH by (intros X; apply H; right; exact X). reflexivity. }
      rewrite G; [cbn [In]; intuition congruence|]. intros [X|X]; [discriminate X|exact (H1 X)]. }
    change 93%N with ket. cbn [matches]. destruct name as [|c [|d name]].
    + split; [discriminate|intros (c & X & _); discriminate X].
    + rewrite andb_true_r. specialize (G c). destruct negated; cbn [xorb].
      * split.
        -- intros X. exists c. split; [reflexivity|]. intros Y. apply G in Y. rewrite Y in X. discriminate X.
        -- intros (c' & X & Y). injection X as <-. destruct (in_set (ket :: l) c); [|reflexivity]. exfalso. apply Y, G. reflexivity.
      * split.
        -- intros X. exists c. split; [reflexivity|]. apply G. destruct (in_set (ket :: l) c); [reflexivity|discriminate X].
        -- intros (c' & X & Y). injection X as <-. apply G in Y. rewrite Y. reflexivity.
    + rewrite andb_false_r. split; [discriminate|intros (c' & X & _); discriminate X].
Qed.
Print Assumptions C116_brackets.
Example C116_brackets_case :
  fnmatch (codes "a[1.parquet") (codes "a[1.parquet") = true /\ fnmatch (codes "a1.parquet") (codes "a[1.parquet") = false /\
  fnmatch (codes "]") (codes "[]x]") = true /\ fnmatch (codes "x") (codes "[]x]") = true /\ fnmatch (codes "]") (codes "[!]x]") = false.
Proof. repeat (apply conj; [vm_compute; reflexivity|]). vm_compute; reflexivity. Qed.

(** A file with brackets in its name is not selected by its name, and another one is. *)
Theorem C116_refuted : exists chunks name other, In name (map p_name chunks) /\ name <> other /\
  exists l, select name chunks = Ok l /\ map p_name l = [other].
Proof.
  exists [PChunk (codes "data[1].parquet") 9 3; PChunk (codes "data1.parquet") 9 4], (codes "data[1].parquet"), (codes "data1.parquet").
  split; [left; reflexivity|]. split; [discriminate|]. eexists. split; vm_compute; reflexivity.
Qed.
Print Assumptions C116_refuted.

(** ** C117: indexing changes nothing but the index *)

(** Of the local files and those in the bucket, only the two named index.json in the cache directory and in the
    directory of the Parquet files may change; the index can be read at the directory afterwards (in the cache directory
    for Hugging Face, and for local files when one is given). *)
Theorem C117_partial s dir cache fallback index d remote d' remote' :
  write_index s dir cache fallback index d remote = (d', remote') ->
  let c := match cache with Some c => c | None => match s with Local => dir | _ => fallback end end in
  (forall p, p <> join c index_file -> d' p = d p) /\
  (forall p, p <> join dir index_file -> remote' p = remote p) /\
  (s <> Cloud -> d' (join c index_file) = Some index /\ remote' (join dir index_file) = remote (join dir index_file)) /\
  (s = Cloud -> remote' (join dir index_file) = Some index).
Proof.
  intros E c. destruct s; cbn [write_index] in E; cbv zeta in E; injection E as <- <-; subst c; cbn beta.
  - split; [intros p Hp; apply set_other; exact Hp|]. split; [reflexivity|]. split; [|congruence]. intros _. split; [apply set_same|reflexivity].
  - split; [intros p Hp; rewrite !set_other by exact Hp; reflexivity|]. split; [intros p Hp; apply set_other; exact Hp|]. split; [congruence|].
    intros _. rewrite set_same. apply set_same.
  - split; [intros p Hp; apply set_other; exact Hp|]. split; [reflexivity|]. split; [|congruence]. intros _. split; [apply set_same|reflexivity].
Qed.
Print Assumptions C117_partial.

Example C117_example : let d := fun p => if list_eq_dec N.eq_dec p (codes "/cache/notes.txt") then Some [7%N] else None in
  let r := write_index Cloud (codes "s3://b/data") (Some (codes "/cache")) (codes "/tmp") [1%N; 2%N] d (fun _ => None) in
  fst r (codes "/cache/notes.txt") = Some [7%N] /\ fst r (codes "/cache/index.json") = None /\ snd r (codes "s3://b/data/index.json") = Some [1%N; 2%N].
Proof. vm_compute. repeat split; reflexivity. Qed.

(** With a bucket, an index.json that was in the directory given as [cache_dir] is gone afterwards. *)
Theorem C117_refuted : exists dir cache fallback index d remote old,
  d (join cache index_file) = Some old /\ fst (write_index Cloud dir (Some cache) fallback index d remote) (join cache index_file) = None.
Proof.
  exists (codes "s3://b/data"), (codes "/my/dataset"), (codes "/tmp"), [1%N], (fun _ => Some [9%N]), (fun _ => None), [9%N]. vm_compute. split; reflexivity.
Qed.
Print Assumptions C117_refuted.

(** ** C118: a Hugging Face dataset is opened with the files that it has *)

(** The first time, the index is that of the files of the dataset; as long as these do not change it is returned
    again, without reading them. *)
Theorem C118_partial pq dump fallback listing d x :
  d (join fallback index_file) = None -> index_parquet pq Hub listing = Ok x ->
  exists d', index_hub pq dump fallback listing d = Ok (dump x, d') /\
    (forall p, p <> join fallback index_file -> d' p = d p) /\
    forall listing', index_hub pq dump fallback listing' d' = Ok (dump x, d').
Proof.
  intros Hd Hx. unfold index_hub at 1. rewrite Hd, Hx. cbn [bind]. eexists. split; [reflexivity|]. split.
  - intros p Hp. cbn [write_index fst]. apply set_other. exact Hp.
  - intros listing'. unfold index_hub. cbn [write_index fst]. rewrite set_same. reflexivity.
Qed.
Print Assumptions C118_partial.

Example C118_example : let dump := fun x : list pchunk * list str => map (fun c => N.of_nat (p_rows c)) (fst x) in
  exists d', index_hub demo_pq dump (codes "/c") [Entry (codes "hf/a.parquet") false (demo_file 2)] (fun _ => None) = Ok ([2%N], d').
Proof. eexists. vm_compute. reflexivity. Qed.

(** After files were added, the dataset is still opened with the old list. *)
Theorem C118_refuted : exists pq dump fallback listing listing' d x x' index d',
  index_parquet pq Hub listing = Ok x /\ index_parquet pq Hub listing' = Ok x' /\
  index_hub pq dump fallback listing d = Ok (index, d') /\ dump x <> dump x' /\
  exists d'', index_hub pq dump fallback listing' d' = Ok (dump x, d'').
Proof.
  exists demo_pq, (fun x => map (fun c => N.of_nat (p_rows c)) (fst x)), (codes "/c"), [Entry (codes "hf/a.parquet") false (demo_file 2)],
    [Entry (codes "hf/a.parquet") false (demo_file 2); Entry (codes "hf/b.parquet") false (demo_file 5)], (fun _ => None).
  do 4 eexists. split; [vm_compute; reflexivity|]. split; [vm_compute; reflexivity|]. split; [vm_compute; reflexivity|]. split; [vm_compute; discriminate|].
  eexists. unfold index_hub. vm_compute (join _ _). vm_compute. reflexivity.
Qed.
Print Assumptions C118_refuted.
