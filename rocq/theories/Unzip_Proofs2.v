(** Downloads, deletions and the size of the cache directory. *)
From Coq Require Import String NArith Lia.
From Verif Require Import Base Names_Model Names_Spec Names_Proofs Size_Model Paths_Model Paths_Proofs Unzip_Model Unzip_Spec Unzip_Proofs.
Local Open Scope list_scope.
Local Open Scope nat_scope.
Local Ltac Zify.zify_post_hook ::= idtac.

Lemma count_app i l m : count i (l ++ m) = count i l + count i m.
Proof. induction l as [|j l IH]; cbn [app count]; [reflexivity|]. rewrite IH. lia. Qed.

Definition here (o : option (list N)) : nat := match o with Some _ => 1 | None => 0 end.

(** The files of chunk [i] in the cache: one, or the compressed and the decompressed one. *)
Definition held (c : unzip) (d : files) (i : nat) : nat :=
  here (d (read_path c i)) + match u_comp c with Some _ => here (d (chunk_file c i)) | None => 0 end.

(** The other chunks are not touched. *)
Lemma request_other c i d log d' log' : paths_ok c -> i < length (u_chunks c) -> request c i (d, log) = Ok (d', log') ->
  forall j, j < length (u_chunks c) -> j <> i -> d' (read_path c j) = d (read_path c j) /\ d' (chunk_file c j) = d (chunk_file c j).
Proof.
  intros (P1 & P2 & P3 & P4 & P5) Hi H j Hj Hne.
  assert (Q1 : chunk_file c j <> chunk_file c i) by (intros E; apply Hne, P1; assumption).
  assert (Q2 : read_path c j <> read_path c i) by (intros E; apply Hne, P2; assumption).
  assert (Q3 : read_path c j <> chunk_file c i).
  { destruct (u_comp c) as [comp|] eqn:Ec.
    - intros E. symmetry in E. revert E. apply P3; [discriminate|assumption|assumption].
    - unfold read_path. rewrite Ec. exact Q1. }
  assert (Q4 : chunk_file c j <> read_path c i).
  { destruct (u_comp c) as [comp|] eqn:Ec; [apply P3; [discriminate|assumption|assumption]|]. unfold read_path. rewrite Ec. exact Q1. }
  assert (Hun : forall e e', unpack c i e = Ok e' -> e' (read_path c j) = e (read_path c j) /\ e' (chunk_file c j) = e (chunk_file c j)).
  { intros e e'. unfold unpack. destruct (u_comp c); [|intros E; injection E as <-; auto].
    destruct (e (read_path c i)); [intros E; injection E as <-; auto|]. destruct (e (chunk_file c i)); [|discriminate]. cbv zeta.
    destruct (u_decompress c _); cbn [bind]; [|discriminate]. destruct (u_dir c _); [|discriminate]. intros E; injection E as <-.
    rewrite !(set_other _ (read_path c i)) by assumption. destruct (u_remote c); [rewrite !set_other by assumption|]; auto. }
  unfold request in H. destruct (d (chunk_file c i)).
  - destruct (unpack c i d) as [e|] eqn:E; cbn [bind] in H; [|discriminate]. injection H as <- <-. apply Hun, E.
  - destruct (u_remote c).
    + destruct (unpack c i _) as [e|] eqn:E; cbn [bind] in H; [|discriminate]. injection H as <- <-. apply Hun in E.
      rewrite !set_other in E by assumption. exact E.
    + injection H as <- <-. auto.
Qed.

Lemma delete_other c i d : paths_ok c -> i < length (u_chunks c) ->
  forall j, j < length (u_chunks c) -> j <> i ->
  set_file d (read_path c i) None (read_path c j) = d (read_path c j) /\
  set_file d (read_path c i) None (chunk_file c j) = d (chunk_file c j).
Proof.
  intros (P1 & P2 & P3 & P4 & P5) Hi j Hj Hne. split; apply set_other.
  - intros E. apply Hne, P2; assumption.
  - destruct (u_comp c) as [comp|] eqn:Ec; [apply P3; [discriminate|assumption|assumption]|].
    unfold read_path. rewrite Ec. intros E. apply Hne, P1; assumption.
Qed.

(** A request downloads at most once, and then one file more is held. *)
Lemma request_held c i d log d' log' : paths_ok c -> u_remote c = true -> i < length (u_chunks c) ->
  request c i (d, log) = Ok (d', log') ->
  (log' = log /\ held c d' i = held c d i) \/ (log' = log ++ [i] /\ held c d' i = S (held c d i)).
Proof.
  intros (P1 & P2 & P3 & P4 & P5) Hr Hi H. unfold request in H. unfold held. rewrite Hr in H. unfold unpack in H. rewrite Hr in H.
  destruct (u_comp c) as [comp|] eqn:Ec.
  - assert (Q : chunk_file c i <> read_path c i) by (apply P3; [discriminate|assumption|assumption]).
    assert (Q' : read_path c i <> chunk_file c i) by congruence.
    destruct (d (chunk_file c i)) as [z|] eqn:Ez.
    + destruct (d (read_path c i)) as [t|] eqn:Et.
      * cbn [bind] in H. injection H as <- <-. left. rewrite Et, Ez. auto.
      * cbv zeta in H. rewrite ?Ez in H. destruct (u_decompress c z); cbn [bind] in H; [|discriminate]. destruct (u_dir c _); cbn [bind] in H; [|discriminate].
        injection H as <- <-. left. rewrite set_same, (set_other _ _ _ _ Q), set_same. auto.
    + rewrite (set_other _ _ _ _ Q'), set_same in H.
      destruct (d (read_path c i)) as [t|] eqn:Et.
      * cbn [bind] in H. injection H as <- <-. right. rewrite (set_other _ _ _ _ Q'), set_same, Et. auto.
      * cbv zeta in H. destruct (u_decompress c _); cbn [bind] in H; [|discriminate]. destruct (u_dir c _); cbn [bind] in H; [|discriminate].
        injection H as <- <-. right. rewrite set_same, (set_other _ _ _ _ Q), set_same. auto.
  - assert (Ep : read_path c i = chunk_file c i) by (unfold read_path; rewrite Ec; reflexivity). rewrite Ep.
    destruct (d (chunk_file c i)) as [z|] eqn:Ez; cbn [bind] in H; injection H as <- <-.
    + left. rewrite Ez. auto.
    + right. rewrite set_same. auto.
Qed.

(** Downloads are paid for by deletions or by files held. *)
Lemma downloads c i : paths_ok c -> u_remote c = true -> i < length (u_chunks c) ->
  forall es d log d' log', events_ok c es -> handle_all c (d, log) es = Ok (d', log') ->
  count i log' + held c d i <= count i log + deletions i es + held c d' i.
Proof.
  intros Hp Hr Hi. induction es as [|e es IH]; intros d log d' log' He H; cbn [handle_all] in H.
  - injection H as <- <-. lia.
  - inversion He as [|? ? H1 H2]; subst. destruct (handle c (d, log) e) as [[d1 log1]|] eqn:E; cbn [bind] in H; [|discriminate].
    pose proof (IH _ _ _ _ H2 H) as K. destruct e as [j|j]; cbn [about handle] in *.
    + change (deletions i (Request j :: es)) with (deletions i es). destruct (Nat.eq_dec j i) as [->|Hne].
      * destruct (request_held c i d log d1 log1 Hp Hr Hi E) as [[-> A]|[-> A]]; [lia|].
        rewrite count_app in K. cbn [count] in K. rewrite Nat.eqb_refl in K. lia.
      * destruct (request_other c j d log d1 log1 Hp H1 E i Hi) as [B1 B2]; [congruence|].
        assert (A : held c d1 i = held c d i) by (unfold held; rewrite B1, B2; reflexivity).
        destruct (request_held c j d log d1 log1 Hp Hr H1 E) as [[-> _]|[-> _]]; [lia|].
        rewrite count_app in K. cbn [count] in K. destruct (Nat.eqb_spec i j); [congruence|]. lia.
    + injection E as <- <-. cbn [fst snd] in *. unfold deletions at 1. cbn [filter]. destruct (Nat.eqb_spec i j) as [<-|Hne].
      * cbn [length]. fold (deletions i es).
        assert (A : held c d i <= S (held c (set_file d (read_path c i) None) i)).
        { unfold held. rewrite set_same. destruct Hp as (P1 & P2 & P3 & P4 & P5). destruct (u_comp c) as [comp|] eqn:Ec.
          - rewrite (set_other _ _ _ (chunk_file c i)) by (apply P3; [discriminate|assumption|assumption]). destruct (d (read_path c i)); cbn [here]; lia.
          - destruct (d (read_path c i)); cbn [here]; lia. }
        lia.
      * fold (deletions i es). destruct (delete_other c j d Hp H1 i Hi) as [B1 B2]; [congruence|].
        assert (A : held c (set_file d (read_path c j) None) i = held c d i) by (unfold held; rewrite B1, B2; reflexivity). lia.
Qed.

Theorem download_bound c chunk d0 es i :
  dataset_ok c chunk -> (forall comp, u_comp c = Some comp -> contains (dot :: comp) (u_cache c) = false) ->
  u_remote c = true -> cache_ok c d0 -> events_ok c es -> i < length (u_chunks c) ->
  exists d log, handle_all c (d0, []) es = Ok (d, log) /\
    count i log <= deletions i es + match u_comp c with Some _ => 2 | None => 1 end.
Proof.
  intros Hds Hn Hr Hc He Hi. pose proof (dataset_paths c chunk Hds Hn) as Hp.
  destruct (cached_all c chunk d0 Hds Hp (or_introl Hr) es d0 [] (cached_start c chunk d0 Hds (or_introl Hr) Hc) He) as (d & log & E & _).
  exists d, log. split; [exact E|]. pose proof (downloads c i Hp Hr Hi es d0 [] d log He E) as K. cbn [count] in K.
  assert (A : held c d i <= match u_comp c with Some _ => 2 | None => 1 end).
  { unfold held. destruct (u_comp c), (d (read_path c i)), (d (chunk_file c i)); cbn [here]; lia. }
  lia.
Qed.

(** ** What a deletion leaves *)

Lemma others_keep c i : paths_ok c -> i < length (u_chunks c) ->
  forall es d log d' log', events_ok c es -> Forall (fun e => about e <> i) es -> handle_all c (d, log) es = Ok (d', log') ->
  d' (read_path c i) = d (read_path c i) /\ d' (chunk_file c i) = d (chunk_file c i).
Proof.
  intros Hp Hi. induction es as [|e es IH]; intros d log d' log' He Hne H; cbn [handle_all] in H; [injection H as <- <-; auto|].
  inversion He as [|? ? H1 H2]; subst. inversion Hne as [|? ? H3 H4]; subst.
  destruct (handle c (d, log) e) as [[d1 log1]|] eqn:E; cbn [bind] in H; [|discriminate].
  destruct (IH _ _ _ _ H2 H4 H) as [-> ->]. destruct e as [j|j]; cbn [about handle] in *.
  - apply (request_other c j d log d1 log1 Hp H1 E i Hi). congruence.
  - injection E as <- <-. cbn [fst]. apply delete_other; auto.
Qed.

(** Without compression: after a deletion the file is gone until the next request. *)
Theorem delete_plain c chunk d0 es1 i es2 :
  dataset_ok c chunk -> u_comp c = None -> u_remote c = true -> cache_ok c d0 ->
  events_ok c (es1 ++ Delete i :: es2) -> ~ In (Request i) es2 ->
  exists d log, handle_all c (d0, []) (es1 ++ Delete i :: es2) = Ok (d, log) /\
    d (read_path c i) = None /\ d (chunk_file c i) = None.
Proof.
  intros Hds Ec Hr Hc He Hreq. assert (Hn : forall comp, u_comp c = Some comp -> contains (dot :: comp) (u_cache c) = false) by congruence.
  pose proof (dataset_paths c chunk Hds Hn) as Hp.
  assert (Ep : read_path c i = chunk_file c i) by (unfold read_path; rewrite Ec; reflexivity).
  unfold events_ok in He. apply Forall_app in He. destruct He as [He1 He2]. inversion He2 as [|? ? Hi He3]; subst. cbn [about] in Hi.
  rewrite handle_all_app.
  destruct (cached_all c chunk d0 Hds Hp (or_introl Hr) es1 d0 [] (cached_start c chunk d0 Hds (or_introl Hr) Hc) He1) as (d1 & log1 & -> & C1 & _).
  cbn [bind handle_all handle]. destruct (cached_delete c chunk d0 d1 log1 i Hp C1 Hi) as (d2 & E2 & C2 & _). rewrite E2. cbn [bind].
  assert (N2 : d2 (read_path c i) = None). { unfold delete in E2. cbn [fst snd] in E2. injection E2 as <-. apply set_same. }
  destruct (cached_all c chunk d0 Hds Hp (or_introl Hr) es2 d2 log1 C2 He3) as (d & log & E & C & _). exists d, log. split; [exact E|].
  rewrite <- Ep. assert (G : d (read_path c i) = None); [|auto].
  clear E2 C1 C2 C He2 He1. revert d2 log1 N2 E. induction es2 as [|e es IH]; intros d2 log1 N2 E; cbn [handle_all] in E; [injection E as <- <-; exact N2|].
  inversion He3 as [|? ? H1 H2]; subst. destruct (handle c (d2, log1) e) as [[d3 log3]|] eqn:E3; cbn [bind] in E; [|discriminate].
  apply IH with (d2 := d3) (log1 := log3); [intros H; apply Hreq; right; exact H|exact H2| |exact E].
  destruct e as [j|j]; cbn [about handle] in *.
  - destruct (request_other c j d2 log1 d3 log3 Hp H1 E3 i Hi) as [-> _]; [intros ->; apply Hreq; left; reflexivity|exact N2].
  - injection E3 as <- <-. cbn [fst]. destruct (Nat.eq_dec j i) as [->|Hne]; [apply set_same|].
    destruct (delete_other c j d2 Hp H1 i Hi) as [-> _]; [congruence|exact N2].
Qed.

(** With compression: if the chunk was requested only once. *)
Theorem delete_once c chunk d0 es1 i es2 es3 :
  dataset_ok c chunk -> (forall comp, u_comp c = Some comp -> contains (dot :: comp) (u_cache c) = false) ->
  u_remote c = true -> cache_ok c d0 ->
  events_ok c (es1 ++ Request i :: es2 ++ Delete i :: es3) ->
  Forall (fun e => about e <> i) es1 -> Forall (fun e => about e <> i) es2 -> Forall (fun e => about e <> i) es3 ->
  exists d log, handle_all c (d0, []) (es1 ++ Request i :: es2 ++ Delete i :: es3) = Ok (d, log) /\
    d (read_path c i) = None /\ d (chunk_file c i) = None.
Proof.
  intros Hds Hn Hr Hc0 He H1 H2 H3. pose proof (dataset_paths c chunk Hds Hn) as Hp.
  unfold events_ok in He. apply Forall_app in He. destruct He as [E1 He]. inversion He as [|? ? Hi He']; subst. cbn [about] in Hi.
  apply Forall_app in He'. destruct He' as [E2 He']. inversion He' as [|? ? _ E3]; subst.
  destruct (cached_all c chunk d0 Hds Hp (or_introl Hr) es1 d0 [] (cached_start c chunk d0 Hds (or_introl Hr) Hc0) E1) as (d1 & l1 & R1 & C1 & _).
  destruct (cached_request c chunk d0 d1 l1 i Hds Hp (or_introl Hr) C1 Hi) as (d2 & l2 & R2 & C2 & _).
  destruct (cached_all c chunk d0 Hds Hp (or_introl Hr) es2 d2 l2 C2 E2) as (d3 & l3 & R3 & C3 & _).
  destruct (cached_delete c chunk d0 d3 l3 i Hp C3 Hi) as (d4 & R4 & C4 & _).
  destruct (cached_all c chunk d0 Hds Hp (or_introl Hr) es3 d4 l3 C4 E3) as (d5 & l5 & R5 & _).
  exists d5, l5. split.
  { rewrite handle_all_app, R1. cbn [bind handle_all handle]. rewrite R2. cbn [bind]. rewrite handle_all_app, R3. cbn [bind handle_all handle].
    rewrite R4. cbn [bind]. exact R5. }
  destruct (others_keep c i Hp Hi _ _ _ _ _ E3 H3 R5) as [-> ->].
  destruct (others_keep c i Hp Hi _ _ _ _ _ E2 H2 R3) as [A3 B3].
  destruct (others_keep c i Hp Hi _ _ _ _ _ E1 H1 R1) as [A1 B1].
  unfold delete in R4. cbn [fst snd] in R4. injection R4 as <-. split; [apply set_same|].
  destruct (Hc0 i Hi) as [Z1 Z2]. rewrite Hr in Z1. destruct (u_comp c) as [comp|] eqn:Ec.
  - specialize (Z2 ltac:(discriminate)). destruct Hp as (P1 & P2 & P3 & P4 & P5). rewrite Ec in *.
    assert (Q : chunk_file c i <> read_path c i) by (apply P3; [discriminate|assumption|assumption]).
    assert (Q' : read_path c i <> chunk_file c i) by congruence.
    rewrite set_other by exact Q. rewrite B3. unfold request in R2. rewrite B1, Z1, Hr in R2. unfold unpack in R2. rewrite Ec, Hr in R2.
    rewrite (set_other _ _ _ _ Q'), A1, Z2, set_same in R2. cbv zeta in R2.
    destruct (u_decompress c _); cbn [bind] in R2; [|discriminate]. destruct (u_dir c _); cbn [bind] in R2; [|discriminate].
    injection R2 as <- <-. rewrite (set_other _ _ _ _ Q). apply set_same.
  - replace (chunk_file c i) with (read_path c i) by (unfold read_path; rewrite Ec; reflexivity). apply set_same.
Qed.

(** ** The size *)

Lemma size_name comp r k : (forall s, comp = Some s -> comp_ok s) ->
  replace (dot :: match comp with Some s => s | None => codes "None" end) [] (chunk_name comp r k) = chunk_name None r k.
Proof.
  intros H. destruct comp as [s|]; [apply replace_name, H; reflexivity|].
  unfold chunk_name. set (pre := codes "chunk-" ++ dec r ++ [dash] ++ dec k).
  replace (codes "chunk-" ++ dec r ++ [dash] ++ dec k ++ [] ++ codes ".bin") with (pre ++ codes ".bin")
    by (unfold pre; rewrite <- !app_assoc; reflexivity).
  rewrite replace_plain by apply name_prefix_plain. f_equal.
Qed.

Lemma known_chunk comp chunks r k n : (forall s, comp = Some s -> comp_ok s) -> NoDup (map fst chunks) -> In ((r, k), n) chunks ->
  known_size (size_map comp chunks) (chunk_name None r k) = Some n.
Proof.
  intros Hc. induction chunks as [|[[r' k'] n'] chunks IH]; intros Hnd Hin; [destruct Hin|].
  cbn [size_map map fst snd] in *. inversion Hnd as [|? ? H1 H2]; subst. cbn [known_size]. rewrite size_name by exact Hc.
  destruct (list_eq_dec N.eq_dec (chunk_name None r k) (chunk_name None r' k')) as [E|E].
  - apply chunk_name_inj in E. destruct E as [-> ->]. destruct Hin as [Hin|Hin]; [congruence|].
    destruct H1. change (r', k') with (fst ((r', k'), n)). apply in_map, Hin.
  - destruct Hin as [Hin|Hin]; [congruence|]. apply IH; assumption.
Qed.

Lemma ends_iff p s : ends p s = true <-> exists a, s = a ++ p.
Proof.
  unfold ends. rewrite starts_iff. split; intros [r H].
  - exists (rev r). rewrite <- (rev_involutive s), H, rev_app_distr, rev_involutive. reflexivity.
  - exists (rev r). rewrite H, rev_app_distr. reflexivity.
Qed.

Lemma known_none comp chunks name : (forall s, comp = Some s -> comp_ok s) -> ends (codes ".bin") name = false ->
  known_size (size_map comp chunks) name = None.
Proof.
  intros Hc Hn. induction chunks as [|[[r k] n] chunks IH]; [reflexivity|]. cbn [size_map map fst snd known_size]. rewrite size_name by exact Hc.
  destruct (list_eq_dec N.eq_dec name (chunk_name None r k)) as [->|]; [|exact IH].
  assert (ends (codes ".bin") (chunk_name None r k) = true); [|congruence]. apply ends_iff.
  exists (codes "chunk-" ++ dec r ++ [dash] ++ dec k). unfold chunk_name. rewrite <- !app_assoc. reflexivity.
Qed.

Lemma sum_zero {A} (f : A -> nat) l : Forall (fun x => f x = 0) l -> sum (map f l) = 0.
Proof. induction 1 as [|x l H _ IH]; [reflexivity|]. cbn [map sum]. rewrite H. exact IH. Qed.

Lemma last_char p s c d : ends (p ++ [c]) s = true -> ends [d] s = true -> c = d.
Proof.
  rewrite !ends_iff. intros [a ->] [b E]. rewrite app_assoc in E. apply app_inj_tail in E. tauto.
Qed.

Lemma known_other comp chunks name : (forall s, comp = Some s -> comp_ok s) ->
  (forall x, In x chunks -> name <> chunk_name None (fst (fst x)) (snd (fst x))) -> known_size (size_map comp chunks) name = None.
Proof.
  intros Hc Hn. induction chunks as [|[[r k] n] chunks IH]; [reflexivity|]. cbn [size_map map fst snd known_size]. rewrite size_name by exact Hc.
  destruct (list_eq_dec N.eq_dec name (chunk_name None r k)) as [E|]; [|apply IH; intros x Hx; apply Hn; right; exact Hx].
  destruct (Hn ((r, k), n)); [left; reflexivity|exact E].
Qed.

Theorem folder_exact comp chunks present temp aux :
  (forall s, comp = Some s -> comp_ok s) -> NoDup (map fst chunks) -> incl present chunks ->
  Forall (fun f => contains (codes ".bin") (fst f) = true /\
    existsb (fun x => ends (codes x) (fst f)) [".cnt"; ".lock"; ".json"; ".zstd.bin"]%string = false /\
    forall x, In x chunks -> fst f <> chunk_name None (fst (fst x)) (snd (fst x))) temp ->
  Forall (fun f => existsb (fun x => ends (codes x) (fst f)) [".cnt"; ".lock"; ".json"]%string = true) aux ->
  forall on_disk,
  folder_size (size_map comp chunks) (map (fun x => (chunk_name None (fst (fst x)) (snd (fst x)), on_disk x)) present ++ temp ++ aux) =
  sum (map snd present) + sum (map snd temp).
Proof.
  intros Hc Hnd Hin Htemp Haux on_disk. unfold folder_size. rewrite !map_app, !sum_app. rewrite (sum_zero _ aux).
  - rewrite Nat.add_0_r, map_map. f_equal; f_equal; apply map_ext_in.
    + intros [[r k] n] Hx. unfold file_size. cbn [fst snd]. rewrite (known_chunk comp chunks r k n Hc Hnd (Hin _ Hx)). reflexivity.
    + intros [name n] Hf. rewrite Forall_forall in Htemp. destruct (Htemp _ Hf) as (H1 & H2 & H3). cbn [fst] in *. unfold file_size.
      cbn [fst snd]. rewrite known_other by assumption. rewrite H2, H1. reflexivity.
  - apply Forall_forall. intros [name n] Hf. rewrite Forall_forall in Haux. specialize (Haux _ Hf). cbn [fst] in Haux.
    unfold file_size. cbn [fst snd]. rewrite known_none; [|exact Hc|].
    + replace (existsb _ _) with true; [reflexivity|]. symmetry. cbn [existsb] in *.
      rewrite !orb_true_iff in *. tauto.
    + destruct (ends (codes ".bin") name) eqn:E; [|reflexivity]. exfalso. cbn [existsb] in Haux. rewrite !orb_true_iff in Haux.
      assert (En : ends [110%N] name = true). { apply ends_iff in E. destruct E as [a ->]. apply ends_iff. exists (a ++ codes ".bi"). rewrite <- app_assoc. reflexivity. }
      destruct Haux as [H|[H|[H|H]]]; try discriminate.
      * assert (Q : 116%N = 110%N) by exact (last_char (codes ".cn") name 116%N 110%N H En). discriminate.
      * assert (Q : 107%N = 110%N) by exact (last_char (codes ".loc") name 107%N 110%N H En). discriminate.
      * apply ends_iff in H, E. destruct H as [a ->], E as [b E]. change (codes ".json") with (codes ".j" ++ codes "son") in E.
        change (codes ".bin") with (codes "." ++ codes "bin") in E. rewrite !app_assoc in E.
        apply (f_equal (@rev N)) in E. rewrite !(rev_app_distr _ (codes "son")), !(rev_app_distr _ (codes "bin")) in E. discriminate.
Qed.
