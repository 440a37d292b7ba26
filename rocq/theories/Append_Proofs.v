From Verif Require Import Base Dict Shuffle_Proofs Assign_Model Config_Model
  Format_Model Codec_Model Codec_Spec Codec_Proofs Tree_Model Tree_Spec Tree_Proofs Sample_Model Sample_Spec Sample_Proofs
  Writer_Model Encrypt_Model Encrypt_Spec Encrypt_Proofs Dataset_Model Dataset_Spec Dataset_Proofs Dataset_Proofs2
  Distrib_Model Distrib_Spec Distrib_Proofs Names_Model Names_Proofs Merge_Model Merge_Spec Merge_Proofs
  Config_Proofs Optimize_Model Optimize_Spec Optimize_Proofs Optimize_Proofs2 Append_Model Append_Spec.
From Coq Require Import NArith Cantor Sorted.
Local Open Scope nat_scope.
Local Ltac Zify.zify_post_hook ::= idtac.

Lemma same_aconfig_ok a b : same_aconfig a b = true <-> a = b.
Proof. unfold same_aconfig. destruct (aconfig_eq_dec a b); split; congruence. Qed.

(** ** The numbers of new chunks *)
Definition step (w s : nat) (c : cinfo * nat) : nat :=
  let (rank, index) := of_nat (k_file (fst c)) in if (rank =? w) && (s <=? index) then index + 1 else s.
Lemma step_le w s c : s <= step w s c.
Proof. unfold step. destruct (of_nat (k_file (fst c))) as [r i]. destruct (r =? w); cbn [andb]; [|lia]. destruct (Nat.leb_spec s i); lia. Qed.
Lemma steps_le w chunks : forall s, s <= fold_left (step w) chunks s.
Proof. induction chunks as [|c chunks IH]; intros s; [reflexivity|]. cbn [fold_left]. etransitivity; [apply (step_le w s c)|apply IH]. Qed.
Lemma steps_above w k chunks : forall s, In (file_id w k) (map (fun c : cinfo * nat => k_file (fst c)) chunks) -> k < fold_left (step w) chunks s.
Proof.
  induction chunks as [|c chunks IH]; intros s; [intros []|]. cbn [map fold_left]. intros [E|Hin]; [|apply IH; exact Hin].
  assert (H : k < step w s c).
  { unfold step. rewrite E. unfold file_id. rewrite cancel_of_to, Nat.eqb_refl. cbn [andb]. destruct (Nat.leb_spec s k); lia. }
  pose proof (steps_le w chunks (step w s c)). lia.
Qed.
Lemma start_fresh w k chunks : ~ In (file_id w (start_of chunks w + k)) (map (fun c : cinfo * nat => k_file (fst c)) chunks).
Proof. intros H. apply (steps_above w _ chunks 0) in H. change (fold_left (step w) chunks 0) with (start_of chunks w) in H. lia. Qed.
Lemma shift_file s r k : shift_id s (file_id r k) = file_id r (s + k).
Proof. unfold shift_id, file_id. rewrite cancel_of_to. reflexivity. Qed.

(** ** Files *)
Lemma find_put_old new old f : ~ In f (map fst new) -> find (fun h => fst h =? f) (put_files new old) = find (fun h : nat * bytes => fst h =? f) old.
Proof.
  intros Hn. unfold put_files. induction new as [|a new IH].
  - cbn [app map]. induction old as [|b old IH]; [reflexivity|]. cbn [filter existsb negb find]. destruct (fst b =? f); [reflexivity|exact IH].
  - cbn [map] in Hn. cbn [app find]. destruct (Nat.eqb_spec (fst a) f) as [E|E]; [exfalso; apply Hn; left; exact E|].
    assert (Hn' : ~ In f (map fst new)) by (intros H; apply Hn; right; exact H). specialize (IH Hn'). rewrite <- IH.
    clear IH. induction new as [|b new IH]; cbn [app find].
    + induction old as [|b old IHo]; [reflexivity|]. cbn [map filter existsb]. rewrite orb_false_r.
      destruct (Nat.eqb_spec (fst b) (fst a)) as [E2|E2]; cbn [negb find].
      * destruct (Nat.eqb_spec (fst b) f); [congruence|]. exact IHo.
      * cbn [negb]. destruct (fst b =? f); [reflexivity|exact IHo].
    + destruct (Nat.eqb_spec (fst b) f) as [E2|E2]; [reflexivity|].
      assert (G : forall p q : nat * bytes -> bool, (forall h, fst h = f -> p h = q h) ->
        find (fun h => fst h =? f) (new ++ filter p old) = find (fun h => fst h =? f) (new ++ filter q old)).
      { clear -f. intros p q Hpq. induction new as [|x new IH]; cbn [app find]; [|destruct (fst x =? f); [reflexivity|exact IH]].
        induction old as [|y old IH]; [reflexivity|]. cbn [filter]. destruct (Nat.eqb_spec (fst y) f) as [E|E].
        - rewrite (Hpq y E). destruct (q y); [cbn [find]; rewrite (proj2 (Nat.eqb_eq _ _) E); reflexivity|exact IH].
        - destruct (p y), (q y); cbn [find]; rewrite ?(proj2 (Nat.eqb_neq _ _) E); exact IH. }
      apply G. intros h Eh. cbn [map existsb]. f_equal. rewrite Eh. destruct (Nat.eqb_spec f (fst a)) as [E3|E3]; [congruence|]. reflexivity.
Qed.
Lemma find_app_l {B} (p : B -> bool) l m x : find p l = Some x -> find p (l ++ m) = Some x.
Proof. induction l as [|a l IH]; [discriminate|]. cbn [app find]. destruct (p a); [auto|exact IH]. Qed.
Lemma find_put_new new old f : NoDup (map fst new) -> In f new -> find (fun h => fst h =? fst f) (put_files new old) = Some f.
Proof. intros HN Hin. apply find_app_l. apply find_nodup; assumption. Qed.

(** ** Any run on one machine names its files with new numbers *)
Lemma write_ids isfile pickle rw g rank ts p : write_outputs isfile pickle rw g rank ts = Ok p ->
  forall f, In f (p_files p) -> exists k, fst f = file_id rank k.
Proof.
  unfold write_outputs. destruct ts as [|t ts].
  - destruct (create_writer _ _); [|discriminate]. cbn [bind]. intros H; injection H as <-. intros f [].
  - destruct (write_dataset _ _ _ _ _ _ _ _) as [x|]; [|discriminate]. cbn [bind]. intros H; injection H as <-. cbn [p_files].
    intros f Hf. apply in_map_iff in Hf. destruct Hf as (y & <- & _). exists (fst y). reflexivity.
Qed.

Section Names.
Context {A : Type} (isfile : list N -> bool) (pickle : leaf -> bytes) (rw : nat -> bool) (u : job A) (d : store).

Definition fresh_name (f : nat) : Prop := exists w k, f = file_id w (start_of (entries_of d) w + k).

Lemma node_fresh os : node_outputs isfile pickle rw u d 0 = Ok os -> forall f, In f (flat_map q_files os) -> fresh_name (fst f).
Proof.
  unfold node_outputs. destruct (run_node isfile pickle rw (u_fn u) (u_args u) (u_perm u) (u_order u) 0 (u_inputs u)) as [ws|] eqn:E; [|discriminate].
  cbn [bind]. intros H; injection H as <-. unfold run_node in E.
  destruct (distribute _ _ _ _ _ _ _) as [shares|]; [|discriminate]. cbn [bind] in E.
  set (l := limit_items (g_fast (u_args u)) shares) in *. clearbody l.
  assert (G : forall l k ws, mapM (fun ws => bind (run_worker isfile pickle rw (u_fn u) (u_args u) (u_order u) (rank_of (u_args u) 0 (fst ws)) (snd ws))
      (fun p => Ok (rank_of (u_args u) 0 (fst ws), p))) (combine (seq k (length l)) l) = Ok ws ->
    forall f, In f (flat_map q_files (map (fun wr => output_of u (start_of (entries_of d) (fst wr)) (snd wr)) (combine (seq k (length ws)) ws))) ->
      fresh_name (fst f)).
  { clear. induction l as [|s l IH]; intros k ws; cbn [length seq combine].
    - cbn [mapM]. intros H; injection H as <-. intros f [].
    - rewrite mapM_cons. cbn [fst snd]. destruct (run_worker _ _ _ _ _ _ _ s) as [p|] eqn:Ep; [|discriminate]. cbn [bind].
      destruct (mapM _ (combine (seq (S k) (length l)) l)) as [ws'|] eqn:Ew; [|discriminate]. cbn [bind]. intros H; injection H as <-.
      intros f Hf. cbn [length seq combine map flat_map] in Hf. apply in_app_or in Hf. destruct Hf as [Hf|Hf]; [|exact (IH (S k) ws' Ew f Hf)].
      cbn [output_of q_files fst snd] in Hf. apply in_map_iff in Hf. destruct Hf as (y & <- & Hy). cbn [fst].
      unfold run_worker in Ep. destruct (run_inputs _ _) as [ts|]; [|discriminate]. cbn [bind] in Ep.
      destruct (write_ids _ _ _ _ _ _ _ Ep y Hy) as (i & ->). rewrite shift_file. exists k, i. reflexivity. }
  exact (G l 0 ws E).
Qed.

Lemma left_fresh : Forall (fun l => fst (fst l) = 0) (u_left u) -> forall f, In f (left_files u d) -> fresh_name (fst f).
Proof.
  intros HF f Hf. unfold left_files in Hf. apply in_map_iff in Hf. destruct Hf as (l & <- & Hl). rewrite Forall_forall in HF. specialize (HF l Hl).
  cbn [fst]. rewrite HF. unfold rank_of. cbn [Nat.mul Nat.add]. exists (snd (fst l)), (fst (snd l)). reflexivity.
Qed.

(** A run that fails changes the index not at all, and no file of the index. *)
Lemma failed_keeps d' e : g_nodes (u_args u) = 1 -> Forall (fun l => fst (fst l) = 0) (u_left u) ->
  append isfile pickle rw u d = (d', Err e) ->
  st_index d' = st_index d /\
  exists new, st_files d' = put_files new (st_files d) /\ forall f, In f new -> fresh_name (fst f).
Proof.
  intros Hn HF. unfold append. rewrite Hn. cbn [seq mapM]. destruct (u_killed u).
  { intros H; injection H as <- _. split; [reflexivity|]. exists (left_files u d). split; [reflexivity|apply left_fresh; exact HF]. }
  destruct (node_outputs isfile pickle rw u d 0) as [os|e0] eqn:E; cbn [bind].
  - cbn [map concat]. rewrite app_nil_r. destruct (finish _ _ _) as [[|[nm i] [|? ?]]|e1]; intros H; try discriminate H; injection H as <- _;
      (split; [reflexivity|]; exists (flat_map q_files os); split; [reflexivity|exact (node_fresh os E)]).
  - intros H; injection H as <- _. split; [reflexivity|]. exists (left_files u d). split; [reflexivity|apply left_fresh; exact HF].
Qed.
End Names.

(** ** A run that succeeds *)
Section OneRun.
Context {A : Type} (isfile : list N -> bool) (pickle : leaf -> bytes) (unpickle : bytes -> res leaf) (rw rr : nat -> bool).
Context (Hpickle : forall x, unpickle (pickle x) = Ok x).
Context (u : job A) (d : store).
Notation g := (u_args u).
Context (Hsound : sound u).
Context (Hkey : key_ok (g_cipher g)) (Hlim : match g_cipher g with Some c => e_limit c = None | None => True end).
Context (Hsizes : (is_none (g_bytes g) && is_none (g_size g)) || (truthy (g_bytes g) && truthy (g_size g)) = false).
Context (all : list (tree leaf)) (Hall : uniform isfile rw rr all) (t0 : tree leaf) (Ht0 : In t0 all) (j0 : spec json).
Context (Hj0 : spec_to_json rw (spec_of t0) = Ok j0).
Context (ts : list (tree leaf)) (Hout : outputs (u_fn u) (u_inputs u) ts) (Hincl : incl ts all).
Definition ca : aconfig := (((Some (formats isfile t0), Some j0), option_map enc_state (g_cipher g)), settings_of u).
Definition cf := (formats isfile t0, spec_of t0).
Definition P (v : nat * list (tree leaf)) : produced :=
  match write_outputs isfile pickle rw g (fst v) (snd v) with Ok p => p | Err _ => no_product end.
Definition O (v : nat * list (tree leaf)) : output := output_of u (start_of (entries_of d) (fst v)) (fst v, P v).

Lemma P_ok v : incl (snd v) all ->
  (snd v = [] -> i_chunks (p_index (P v)) = []) /\
  (snd v <> [] -> i_chunks (p_index (P v)) <> [] /\ i_config (p_index (P v)) = Some (fst ca)) /\
  (exists n, map fst (p_files (P v)) = map (file_id (fst v)) (seq 0 n)) /\
  (Forall (fun c => (N.of_nat (snd c) < two32)%N) (i_chunks (p_index (P v))) ->
     exists zs, map z_row zs = i_chunks (p_index (P v)) /\ map z_file zs = p_files (P v) /\ flat_map z_group zs = snd v /\
       Forall (good_piece unpickle (g_compress g) (g_cipher g) cf) zs).
Proof.
  intros Hi. exact (proj2 (worker_ok isfile pickle unpickle rw rr Hpickle g Hkey Hlim Hsizes all Hall t0 Ht0 j0 Hj0 v Hi)).
Qed.

Lemma O_ok v : incl (snd v) all ->
  (snd v = [] -> i_chunks (q_index (O v)) = []) /\
  (snd v <> [] -> i_chunks (q_index (O v)) <> [] /\ i_config (q_index (O v)) = Some ca) /\
  (exists n, map fst (q_files (O v)) = map (fun k => file_id (fst v) (start_of (entries_of d) (fst v) + k)) (seq 0 n)) /\
  (Forall (fun c => (N.of_nat (snd c) < two32)%N) (i_chunks (q_index (O v))) ->
     exists zs, map z_row zs = i_chunks (q_index (O v)) /\ map z_file zs = q_files (O v) /\ flat_map z_group zs = snd v /\
       Forall (good_piece unpickle (g_compress g) (g_cipher g) cf) zs).
Proof.
  intros Hi. destruct (P_ok v Hi) as (H1 & H2 & (n & H3) & H4). unfold O, output_of. cbn [fst snd q_index q_files i_chunks i_config].
  set (s := start_of (entries_of d) (fst v)). split; [intros E; rewrite (H1 E); reflexivity|]. split.
  { intros Hne. destruct (H2 Hne) as [H5 H6]. split; [intros E; apply map_eq_nil in E; congruence|]. rewrite H6. reflexivity. }
  split.
  { exists n. rewrite map_map. cbn [fst]. rewrite <- (map_map fst (shift_id s)), H3, map_map. apply map_ext. intros k. apply shift_file. }
  intros Hsm. destruct H4 as (zs & Z1 & Z2 & Z3 & Z4).
  { apply Forall_forall. intros c Hc. rewrite Forall_forall in Hsm. exact (Hsm (shift s c) (in_map _ _ _ Hc)). }
  exists (map (fun z : piece => (shift s (z_row z), (shift_id s (fst (z_file z)), snd (z_file z)), z_group z)) zs).
  split; [rewrite map_map, <- Z1, map_map; reflexivity|].
  split; [rewrite map_map, <- Z2, map_map; reflexivity|].
  split; [rewrite flat_map_concat_map, map_map, <- flat_map_concat_map; exact Z3|].
  apply Forall_map. eapply Forall_impl; [|exact Z4]. intros [[row file] grp]. unfold good_piece, z_row, z_file, z_group. cbn [fst snd].
  intros (G1 & G2 & G3 & f & raws & G4 & G5 & G6 & G7). unfold shift. cbn [fst snd k_file k_size].
  rewrite G1. repeat (apply conj; [assumption || reflexivity|]). exists f, raws. auto.
Qed.

Lemma os_pieces vs : Forall (fun v => incl (snd v) all) vs ->
  Forall (fun c => (N.of_nat (snd c) < two32)%N) (flat_map (fun v => i_chunks (q_index (O v))) vs) ->
  exists zs, map z_row zs = flat_map (fun v => i_chunks (q_index (O v))) vs /\ map z_file zs = flat_map (fun v => q_files (O v)) vs /\
    flat_map z_group zs = flat_map snd vs /\ Forall (good_piece unpickle (g_compress g) (g_cipher g) cf) zs.
Proof.
  induction vs as [|v vs IH]; intros Hv Hs; [exists []; repeat split; constructor|].
  inversion Hv as [|? ? Hv1 Hv2]; subst. cbn [flat_map] in Hs. apply Forall_app in Hs. destruct Hs as [Hs1 Hs2].
  destruct (O_ok v Hv1) as (_ & _ & _ & Hz). destruct (Hz Hs1) as (z1 & A1 & A2 & A3 & A4).
  destruct (IH Hv2 Hs2) as (z2 & B1 & B2 & B3 & B4). exists (z1 ++ z2). cbn [flat_map]. rewrite !map_app, flat_map_app, A1, A2, A3, B1, B2, B3.
  repeat (apply conj; [reflexivity|]). apply Forall_app. auto.
Qed.

Lemma os_nodup vs : Forall (fun v => incl (snd v) all) vs -> NoDup (map fst vs) ->
  NoDup (map fst (flat_map (fun v => q_files (O v)) vs)).
Proof.
  intros Hv HN.
  assert (G : forall vs, Forall (fun v => incl (snd v) all) vs -> forall f, In f (map fst (flat_map (fun v => q_files (O v)) vs)) ->
     exists r k, In r (map fst vs) /\ f = file_id r k).
  { clear vs Hv HN. intros vs Hv f Hf. apply in_map_iff in Hf. destruct Hf as (fl & <- & Hf). apply in_flat_map in Hf. destruct Hf as (v & Hin & Hf).
    rewrite Forall_forall in Hv. destruct (O_ok v (Hv v Hin)) as (_ & _ & (n & E) & _).
    assert (H : In (fst fl) (map fst (q_files (O v)))) by (apply in_map; exact Hf). rewrite E in H. apply in_map_iff in H.
    destruct H as (k & <- & _). eexists. eexists. split; [apply in_map; exact Hin|reflexivity]. }
  induction vs as [|v vs IH]; [constructor|]. inversion Hv as [|? ? Hv1 Hv2]; subst. cbn [map flat_map] in *. inversion HN as [|? ? Hn HN']; subst.
  rewrite map_app. apply Config_Proofs.NoDup_app_intro.
  - destruct (O_ok v Hv1) as (_ & _ & (n & E) & _). rewrite E. apply FinFun.Injective_map_NoDup; [|apply seq_NoDup].
    intros a b H. unfold file_id in H. apply to_nat_inj in H. injection H as H. lia.
  - apply IH; assumption.
  - intros f H1 H2. destruct (G vs Hv2 f H2) as (r & k & Hr & ->).
    destruct (O_ok v Hv1) as (_ & _ & (n & E) & _). rewrite E in H1. apply in_map_iff in H1. destruct H1 as (k' & H1 & _).
    unfold file_id in H1. apply to_nat_inj in H1. injection H1 as H1 _. apply Hn. rewrite H1. exact Hr.
Qed.

Lemma number_team (vs : list (nat * list (tree leaf))) : forall k, map fst vs = seq k (length vs) ->
  map (fun wr => output_of u (start_of (entries_of d) (fst wr)) (snd wr)) (combine (seq k (length vs)) (map (fun v => (fst v, P v)) vs)) = map O vs.
Proof.
  induction vs as [|v vs IH]; intros k H; [reflexivity|]. cbn [length seq map combine] in *. injection H as H1 H2.
  rewrite IH by exact H2. f_equal. unfold O. cbn [fst snd]. rewrite H1. reflexivity.
Qed.

(** The workers of the run: their ranks and the samples of each. *)
Lemma run_outputs : exists vs,
  node_outputs isfile pickle rw u d 0 = Ok (map O vs) /\ map fst vs = seq 0 (g_workers g) /\ Forall (fun v => incl (snd v) all) vs /\
  Permutation (flat_map snd vs) ts /\ (in_sequence u -> flat_map snd vs = ts).
Proof.
  destruct Hsound as (Hn & Hw & Hf & _ & Hperm & Hord & _ & Hsz).
  destruct (outputs_made _ _ _ Hout) as [Hrun Hts].
  assert (Hi : incl (flat_map (made (u_fn u)) (u_inputs u)) all) by (rewrite Hts; exact Hincl).
  assert (Hn1 : 1 <= g_nodes g) by lia.
  destruct (shares_ok g (u_perm u) Hperm Hn1 Hw (u_inputs u) Hsz) as (out & S1 & S2 & S3).
  assert (H0 : 0 < g_nodes g) by lia. destruct (S1 0 H0) as [Sd Sl].
  destruct (run_node_ok isfile pickle unpickle rw rr Hpickle (u_fn u) g (u_perm u) (u_order u) Hkey Hlim Hsizes Hperm Hord Hn1 Hw Hf all Hall t0 Ht0 j0 Hj0
    (u_inputs u) Hrun Hi 0 out H0 S2 Sd) as [R1 R2].
  pose proof (team_ranks (u_fn u) g (u_order u) 0 (out 0) Sl) as Hr. cbn [Nat.mul] in Hr.
  set (vs := team (u_fn u) g (u_order u) 0 (out 0)) in *.
  assert (Hl : length vs = g_workers g) by (rewrite <- (map_length fst), Hr; apply seq_length).
  exists vs. split; [|split; [exact Hr|split; [exact R2|split]]].
  - unfold node_outputs. rewrite R1. cbn [bind]. rewrite map_length. f_equal. apply number_team. rewrite Hl. exact Hr.
  - unfold vs. rewrite team_perm by exact Hord. rewrite <- Hts. apply Permutation_flat_map. unfold all_nodes in S2. rewrite Hn in S2.
    cbn [seq flat_map] in S2. rewrite app_nil_r in S2. exact S2.
  - intros (Q1 & Q2 & _). unfold vs. rewrite team_eq by exact Q2. rewrite <- Hts. destruct (S3 Q1) as [S4 _]. unfold all_nodes in S4. rewrite Hn in S4.
    cbn [seq flat_map] in S4. rewrite app_nil_r in S4. rewrite S4. reflexivity.
Qed.

(** The index of the directory: none, one without chunks, or one of the configuration of this run. *)
Definition index_fits : Prop :=
  match st_index d with
  | None => True
  | Some i => (i_chunks i = [] /\ i_config i = None) \/ (i_chunks i <> [] /\ i_config i = Some ca)
  end.

Lemma rows_of_files (vs : list (nat * list (tree leaf))) :
  flat_map (fun f : str * index (cinfo * nat) aconfig => i_chunks (snd f)) (flat_map (fun o => index_file (q_rank o) (q_index o)) (map O vs)) =
  flat_map (fun v => i_chunks (q_index (O v))) vs.
Proof.
  induction vs as [|v vs IH]; [reflexivity|]. cbn [map flat_map]. rewrite flat_map_app, IH. f_equal.
  unfold index_file. destruct (i_chunks (q_index (O v))) eqn:E; [reflexivity|]. cbn [flat_map snd]. rewrite app_nil_r. exact E.
Qed.

Lemma run_merges vs : index_fits -> map fst vs = seq 0 (g_workers g) -> Forall (fun v => incl (snd v) all) vs ->
  exists i new, finish same_aconfig [u_listdir u (flat_map (fun o => index_file (q_rank o) (q_index o)) (map O vs))] (st_index d) = Ok [(index_json, i)] /\
    i_chunks i = entries_of d ++ new /\ Permutation new (flat_map (fun v => i_chunks (q_index (O v))) vs) /\
    (g_workers g <= 10 -> new = flat_map (fun v => i_chunks (q_index (O v))) vs) /\
    ((i_chunks i = [] /\ i_config i = None) \/ (i_chunks i <> [] /\ i_config i = Some ca)).
Proof.
  intros Hfit Hr HF. destruct Hsound as (_ & _ & _ & _ & _ & _ & Hlist & _). cbn [finish].
  set (files := u_listdir u (flat_map (fun o => index_file (q_rank o) (q_index o)) (map O vs))).
  assert (HPf : Permutation files (flat_map (fun o => index_file (q_rank o) (q_index o)) (map O vs))) by apply Hlist. clearbody files.
  assert (HC : Forall (fun f : str * index (cinfo * nat) aconfig => i_config (snd f) = Some ca) files).
  { apply Forall_forall. intros f Hf. eapply Permutation_in in Hf; [|exact HPf]. apply in_flat_map in Hf. destruct Hf as (o & Ho & Hf).
    apply in_map_iff in Ho. destruct Ho as (v & <- & Hv). rewrite Forall_forall in HF. destruct (O_ok v (HF v Hv)) as (H1 & H2 & _).
    unfold index_file in Hf. destruct (i_chunks (q_index (O v))) eqn:E; [destruct Hf|]. destruct Hf as [<-|[]]. cbn [snd].
    apply H2. intros E'. specialize (H1 E'). congruence. }
  assert (Hrows : Permutation (flat_map (fun f : str * index (cinfo * nat) aconfig => i_chunks (snd f)) files) (flat_map (fun v => i_chunks (q_index (O v))) vs)).
  { rewrite (Permutation_flat_map _ HPf), rows_of_files. reflexivity. }
  destruct (flat_map (fun v => i_chunks (q_index (O v))) vs) as [|c0 l0] eqn:Erows.
  - (* no chunk at all *)
    assert (files = []).
    { apply Permutation_nil. rewrite HPf. clear -Erows. induction vs as [|v vs IH]; [reflexivity|]. cbn [flat_map map] in *. apply app_eq_nil in Erows.
      destruct Erows as [E1 E2]. rewrite <- (IH E2). unfold index_file. cbn [O output_of q_rank]. fold (O v). rewrite E1. reflexivity. }
    subst files. unfold index_fits in Hfit. unfold entries_of. destruct (st_index d) as [i|].
    + rewrite merge_nothing. exists i, []. rewrite app_nil_r. repeat (split; [reflexivity|]). exact Hfit.
    + exists (Index [] None), []. repeat (split; [reflexivity|]). left. split; reflexivity.
  - rewrite <- Erows in *.
    assert (Hne : files <> []) by (intros ->; cbn [flat_map] in Hrows; apply Permutation_nil in Hrows; rewrite Erows in Hrows; discriminate).
    assert (G : exists name chunks, merge_no_wait same_aconfig files None (st_index d) = Ok [(name, Index chunks (Some ca))] /\ name = index_json /\
      exists new, chunks = entries_of d ++ new /\ Permutation new (flat_map (fun f : str * index (cinfo * nat) aconfig => i_chunks (snd f)) files)).
    { unfold index_fits, entries_of in *. destruct (st_index d) as [i|] eqn:Ei.
      - destruct Hfit as [[F1 F2]|[F1 F2]].
        + rewrite F1. destruct i as [ic icf]. cbn [i_chunks i_config] in *. subst ic icf.
          exact (merge_all_once same_aconfig same_aconfig_ok files None None ca I HC Hne).
        + exact (merge_all_once same_aconfig same_aconfig_ok files (Some i) None ca F2 HC Hne).
      - exact (merge_all_once same_aconfig same_aconfig_ok files None None ca I HC Hne). }
    destruct G as (name & chunks & E & -> & new & -> & HP). exists (Index (entries_of d ++ new) (Some ca)), new.
    split; [exact E|]. split; [reflexivity|]. split; [etransitivity; eassumption|]. split.
    + intros Hten. set (ws := map (fun v => (fst v, q_index (O v))) vs).
      assert (Ews : map fst ws = seq 0 (g_workers g)) by (unfold ws; rewrite map_map; exact Hr).
      assert (Hio : in_order ws = flat_map (fun v => i_chunks (q_index (O v))) vs) by (unfold in_order, ws; rewrite flat_map_concat_map, map_map, <- flat_map_concat_map; reflexivity).
      assert (B : by_rank ws) by (unfold by_rank; rewrite Ews; apply seq_sorted).
      assert (W : same_width ws).
      { unfold same_width. rewrite Ews. intros a b Ha Hb. apply in_seq in Ha, Hb. rewrite !dec_one_digit by lia. reflexivity. }
      assert (HPw : Permutation files (flat_map (fun w => index_file (fst w) (snd w)) ws)).
      { etransitivity; [exact HPf|]. unfold ws. rewrite !flat_map_concat_map, !map_map. reflexivity. }
      assert (HFw : Forall (fun w => i_chunks (snd w) <> [] -> i_config (snd w) = Some ca) ws).
      { unfold ws. apply Forall_map, Forall_forall. intros v Hv. cbn [snd]. rewrite Forall_forall in HF. destruct (O_ok v (HF v Hv)) as (U1 & U2 & _).
        intros Hn. apply U2. intros E'. apply Hn, U1, E'. }
      assert (Hnw : in_order ws <> []) by (rewrite Hio, Erows; discriminate).
      assert (G : merge_no_wait same_aconfig files None (st_index d) = Ok [(index_json, Index (entries_of d ++ in_order ws) (Some ca))]).
      { unfold index_fits, entries_of in *. destruct (st_index d) as [i|] eqn:Ei.
        - destruct Hfit as [[F1 F2]|[F1 F2]].
          + rewrite F1. destruct i as [ic icf]. cbn [i_chunks i_config] in *. subst ic icf.
            exact (merge_workers same_aconfig same_aconfig_ok ws files None ca B W HPw Hnw HFw I).
          + exact (merge_workers same_aconfig same_aconfig_ok ws files (Some i) ca B W HPw Hnw HFw F2).
        - exact (merge_workers same_aconfig same_aconfig_ok ws files None ca B W HPw Hnw HFw I). }
      rewrite E in G. assert (Eq : entries_of d ++ new = entries_of d ++ in_order ws) by congruence.
      apply app_inv_head in Eq. rewrite Eq. exact Hio.
    + right. split; [|reflexivity]. cbn [i_chunks]. intros E'. apply app_eq_nil in E'. destruct E' as [_ ->].
      rewrite <- HP in Hrows. apply Permutation_nil in Hrows. rewrite Erows in Hrows. discriminate.
Qed.

(** The whole run. *)
Lemma run_ok : index_fits -> exists i new vs,
  append isfile pickle rw u d = (Store (Some i) (put_files (flat_map (fun v => q_files (O v)) vs) (st_files d)), Ok tt) /\
  i_chunks i = entries_of d ++ new /\ Permutation new (flat_map (fun v => i_chunks (q_index (O v))) vs) /\
  (g_workers g <= 10 -> new = flat_map (fun v => i_chunks (q_index (O v))) vs) /\
  ((i_chunks i = [] /\ i_config i = None) \/ (i_chunks i <> [] /\ i_config i = Some ca)) /\
  Forall (fun v => incl (snd v) all) vs /\ NoDup (map fst vs) /\ Permutation (flat_map snd vs) ts /\ (in_sequence u -> flat_map snd vs = ts).
Proof.
  intros Hfit. destruct run_outputs as (vs & R1 & R2 & R3 & R4 & R5). destruct (run_merges vs Hfit R2 R3) as (i & new & M1 & M2 & M3 & M4 & M5).
  exists i, new, vs. split.
  - destruct Hsound as (Hn & _ & _ & Hk & _). unfold append. rewrite Hk, Hn. cbn [seq mapM]. rewrite R1. cbn [bind map concat]. rewrite app_nil_r, M1.
    f_equal. f_equal. rewrite !flat_map_concat_map, map_map. reflexivity.
  - split; [exact M2|]. split; [exact M3|]. split; [exact M4|]. split; [exact M5|]. split; [exact R3|].
    split; [rewrite R2; apply seq_NoDup|]. split; [exact R4|exact R5].
Qed.
End OneRun.

(** ** Histories *)
Section Histories.
Context {A : Type} (isfile : list N -> bool) (pickle : leaf -> bytes) (unpickle : bytes -> res leaf) (rw rr : nat -> bool) (m : terms).
Context (Hpickle : forall x, unpickle (pickle x) = Ok x).
Context (Hkey : key_ok (m_cipher m)) (Hlim : match m_cipher m with Some c => e_limit c = None | None => True end).
Context (Hsizes : (is_none (m_bytes m) && is_none (m_size m)) || (truthy (m_bytes m) && truthy (m_size m)) = false).
Context (all : list (tree leaf)) (Hall : uniform isfile rw rr all) (t0 : tree leaf) (Ht0 : In t0 all) (j0 : spec json).
Context (Hj0 : spec_to_json rw (spec_of t0) = Ok j0).
Definition cm : aconfig := (((Some (formats isfile t0), Some j0), option_map enc_state (m_cipher m)), (m_bytes m, m_size m, m_codec m)).

Lemma ca_terms (u : job A) : on_terms m u -> ca isfile u t0 j0 = cm.
Proof. intros (H1 & H2 & _ & H4 & H5). unfold ca, cm, settings_of. rewrite H1, H2, H4, H5. reflexivity. Qed.

Definition holds_runs (d : store) (h : list (job A * list (tree leaf))) : Prop :=
  match st_index d with
  | None => flat_map snd h = []
  | Some i => (i_chunks i = [] /\ i_config i = None /\ flat_map snd h = []) \/ (i_chunks i <> [] /\ i_config i = Some cm)
  end /\
  (Forall (fun c => (N.of_nat (snd c) < two32)%N) (entries_of d) ->
   exists zs uss, map z_row zs = entries_of d /\
     (forall z, In z zs -> find (fun f => fst f =? fst (z_file z)) (st_files d) = Some (z_file z)) /\
     Forall (good_piece unpickle (m_compress m) (m_cipher m) (cf isfile t0)) zs /\ flat_map z_group zs = concat uss /\
     Forall2 (fun ut us => Permutation us (snd ut) /\ (in_sequence (fst ut) -> us = snd ut)) h uss).

Lemma holds_none : holds_runs empty_store [].
Proof.
  split; [reflexivity|]. intros _. exists [], []. split; [reflexivity|]. split; [intros z []|]. split; [constructor|]. split; [reflexivity|constructor].
Qed.

(** New files do not hide the ones of the index. *)
Lemma pieces_keep d (new : list (nat * bytes)) zs : map z_row zs = entries_of d ->
  Forall (good_piece unpickle (m_compress m) (m_cipher m) (cf isfile t0)) zs ->
  (forall f, In f new -> fresh_name d (fst f)) ->
  (forall z, In z zs -> find (fun f => fst f =? fst (z_file z)) (st_files d) = Some (z_file z)) ->
  forall z, In z zs -> find (fun f => fst f =? fst (z_file z)) (put_files new (st_files d)) = Some (z_file z).
Proof.
  intros Hz Hg Hf Hfind z Hin. rewrite find_put_old; [apply Hfind; exact Hin|]. intros Hc. apply in_map_iff in Hc. destruct Hc as (f & Ef & Hin').
  destruct (Hf f Hin') as (w & k & E). apply (start_fresh w k (entries_of d)). rewrite <- E, Ef.
  rewrite Forall_forall in Hg. destruct (Hg z Hin) as (-> & _). rewrite <- Hz, map_map. apply in_map with (f := fun z => k_file (fst (z_row z))). exact Hin.
Qed.

Lemma holds_failed {B} (u : job B) d h d' e : holds_runs d h -> g_nodes (u_args u) = 1 -> Forall (fun l => fst (fst l) = 0) (u_left u) ->
  append isfile pickle rw u d = (d', Err e) -> holds_runs d' h.
Proof.
  intros [H1 H2] Hn HF HE. destruct (failed_keeps isfile pickle rw u d d' e Hn HF HE) as (Ei & new & Ef & Hnew).
  assert (Ee : entries_of d' = entries_of d) by (unfold entries_of; rewrite Ei; reflexivity).
  split; [rewrite Ei; exact H1|]. rewrite Ee, Ef. intros Hs. destruct (H2 Hs) as (zs & uss & Z1 & Z2 & Z3 & Z4 & Z5). exists zs, uss.
  split; [exact Z1|]. split; [exact (pieces_keep d new zs Z1 Z3 Hnew Z2)|]. auto.
Qed.

Lemma concat_snoc {B} (l : list (list B)) x : concat (l ++ [x]) = concat l ++ x.
Proof. rewrite concat_app. cbn [concat]. rewrite app_nil_r. reflexivity. Qed.

Lemma holds_step (u : job A) d h ts : holds_runs d h -> on_terms m u -> sound u -> outputs (u_fn u) (u_inputs u) ts -> incl ts all ->
  exists d', append isfile pickle rw u d = (d', Ok tt) /\ holds_runs d' (h ++ [(u, ts)]).
Proof.
  intros [H1 H2] Hm Hs Hout Hincl. pose proof (ca_terms u Hm) as Eca. destruct Hm as (M1 & M2 & M3 & M4 & M5).
  assert (Hfit : index_fits isfile u d t0 j0).
  { unfold index_fits. destruct (st_index d) as [i|]; [|exact I]. rewrite Eca. tauto. }
  assert (K1 : key_ok (g_cipher (u_args u))) by (rewrite M5; exact Hkey).
  assert (K2 : match g_cipher (u_args u) with Some c => e_limit c = None | None => True end) by (rewrite M5; exact Hlim).
  assert (K3 : (is_none (g_bytes (u_args u)) && is_none (g_size (u_args u))) || (truthy (g_bytes (u_args u)) && truthy (g_size (u_args u))) = false) by (rewrite M1, M2; exact Hsizes).
  destruct (run_ok isfile pickle unpickle rw rr Hpickle u d Hs K1 K2 K3 all Hall t0 Ht0 j0 Hj0 ts Hout Hincl Hfit)
    as (i & new & vs & E & I1 & I2 & I3 & I4 & V1 & V2 & V3 & V4).
  eexists. split; [exact E|]. rewrite Eca in I4. unfold holds_runs. cbn [st_index st_files].
  change (entries_of (Store (Some i) _)) with (i_chunks i). split.
  - destruct I4 as [[C1 C2]|C]; [left|right; exact C]. split; [exact C1|]. split; [exact C2|]. rewrite I1 in C1. apply app_eq_nil in C1. destruct C1 as [C1 C3].
    rewrite flat_map_app. cbn [flat_map snd]. rewrite app_nil_r.
    assert (Hh : flat_map snd h = []).
    { unfold entries_of in C1. destruct (st_index d) as [i'|]; [|exact H1]. destruct H1 as [(_ & _ & H1)|(H1 & _)]; [exact H1|congruence]. }
    rewrite Hh. cbn [app]. subst new. apply Permutation_nil in I2. apply Permutation_nil. rewrite <- V3.
    assert (G : flat_map snd vs = []); [|rewrite G; reflexivity].
    clear -V1 I2 Hpickle K1 K2 K3 Hall Ht0 Hj0. induction V1 as [|v vs Hv _ IH]; [reflexivity|]. cbn [flat_map] in *. apply app_eq_nil in I2. destruct I2 as [I2 I3].
    rewrite (IH I3), app_nil_r. destruct (O_ok isfile pickle unpickle rw rr Hpickle u d K1 K2 K3 all Hall t0 Ht0 j0 Hj0 v Hv) as (_ & O2 & _).
    destruct (snd v) as [|t l]; [reflexivity|]. destruct O2 as [O2 _]; [discriminate|]. congruence.
  - rewrite I1. intros Hsm. apply Forall_app in Hsm. destruct Hsm as [S1 S2].
    destruct (H2 S1) as (zs & uss & Z1 & Z2 & Z3 & Z4 & Z5).
    destruct (os_pieces isfile pickle unpickle rw rr Hpickle u d K1 K2 K3 all Hall t0 Ht0 j0 Hj0 vs V1 (Permutation_Forall I2 S2)) as (ns & N1 & N2 & N3 & N4).
    rewrite M3, M5 in N4.
    assert (HN : exists ns', map z_row ns' = new /\ Permutation ns' ns /\ (in_sequence u -> ns' = ns)).
    { rewrite <- N1 in I2, I3. destruct (le_gt_dec (g_workers (u_args u)) 10) as [Hten|Hten].
      - exists ns. split; [symmetry; exact (I3 Hten)|]. split; [reflexivity|auto].
      - destruct (Permutation_map_inv _ _ I2) as (ns' & Hn' & HPn). exists ns'. split; [symmetry; exact Hn'|]. split; [symmetry; exact HPn|].
        intros (_ & _ & Q). lia. }
    destruct HN as (ns' & Hrow & HPn & Hseq).
    assert (Hfresh : forall f, In f (flat_map (fun v => q_files (O isfile pickle rw u d v)) vs) -> fresh_name d (fst f)).
    { intros f Hf. apply in_flat_map in Hf. destruct Hf as (v & Hv & Hf). rewrite Forall_forall in V1.
      destruct (O_ok isfile pickle unpickle rw rr Hpickle u d K1 K2 K3 all Hall t0 Ht0 j0 Hj0 v (V1 v Hv)) as (_ & _ & (n & En) & _).
      assert (Hi : In (fst f) (map fst (q_files (O isfile pickle rw u d v)))) by (apply in_map; exact Hf). rewrite En in Hi.
      apply in_map_iff in Hi. destruct Hi as (k & <- & _). exists (fst v), k. reflexivity. }
    exists (zs ++ ns'), (uss ++ [flat_map z_group ns']). split; [rewrite map_app, Z1, Hrow; reflexivity|]. split.
    { intros z Hz. apply in_app_or in Hz. destruct Hz as [Hz|Hz]; [exact (pieces_keep d _ zs Z1 Z3 Hfresh Z2 z Hz)|].
      apply find_put_new.
      - exact (os_nodup isfile pickle unpickle rw rr Hpickle u d K1 K2 K3 all Hall t0 Ht0 j0 Hj0 vs V1 V2).
      - rewrite <- N2. apply in_map. eapply Permutation_in; [exact HPn|exact Hz]. }
    split; [apply Forall_app; split; [exact Z3|eapply Permutation_Forall; [symmetry; exact HPn|exact N4]]|].
    split; [rewrite flat_map_app, concat_snoc, Z4; reflexivity|].
    apply Forall2_app; [exact Z5|]. constructor; [|constructor]. cbn [fst snd]. split.
    + rewrite (Permutation_flat_map _ HPn), N3. exact V3.
    + intros Q. rewrite (Hseq Q), N3. exact (V4 Q).
Qed.

Lemma appended_holds d h : appended isfile pickle rw m d h -> incl (flat_map snd h) all -> holds_runs d h.
Proof.
  induction 1 as [|d h u ts d' _ IH Hm Hs Hout HE|d h B u e d' _ IH Hn HF HE]; intros Hi.
  - apply holds_none.
  - rewrite flat_map_app in Hi. cbn [flat_map snd] in Hi. rewrite app_nil_r in Hi.
    destruct (holds_step u d h ts) as (d2 & E2 & H2); try assumption.
    + apply IH. intros t Ht. apply Hi, in_or_app. left; exact Ht.
    + intros t Ht. apply Hi, in_or_app. right; exact Ht.
    + rewrite HE in E2. injection E2 as <-. exact H2.
  - exact (holds_failed u d h d' e (IH Hi) Hn HF HE).
Qed.
End Histories.

(** ** What users see *)
Lemma plain_spec isfile rw rr ts t0 : uniform isfile rw rr ts -> In t0 ts ->
  exists j0, spec_to_json rw (spec_of t0) = Ok j0 /\ spec_of_json rr j0 = Ok (spec_of t0).
Proof. intros [HF _] Hin. rewrite Forall_forall in HF. destruct (HF t0 Hin) as (_ & Hp & _). exact (spec_json rw rr t0 Hp). Qed.

Theorem append_reads {A} isfile pickle unpickle rw rr m decompress d (h : list (job A * list (tree leaf))) :
  (forall x, unpickle (pickle x) = Ok x) ->
  key_ok (m_cipher m) -> match m_cipher m with Some c => e_limit c = None | None => True end -> codec_ok (m_compress m) decompress ->
  (is_none (m_bytes m) && is_none (m_size m)) || (truthy (m_bytes m) && truthy (m_size m)) = false ->
  appended isfile pickle rw m d h -> uniform isfile rw rr (flat_map snd h) -> flat_map snd h <> [] ->
  small_chunks (written_of d) ->
  exists o uss, open_store rr decompress d = Ok o /\ reads unpickle o (m_cipher m) (written_of d) (concat uss) /\
    Forall2 (fun ut us => Permutation us (snd ut) /\ (in_sequence (fst ut) -> us = snd ut)) h uss.
Proof.
  intros Hp Hk Hl Hc Hs Ha Hu Hne Hsm. destruct (flat_map snd h) as [|t0 rest] eqn:Eall; [congruence|].
  rewrite <- Eall in *. assert (Ht0 : In t0 (flat_map snd h)) by (rewrite Eall; left; reflexivity).
  destruct (plain_spec isfile rw rr _ t0 Hu Ht0) as (j0 & Ej & Dj).
  destruct (appended_holds isfile pickle unpickle rw rr m Hp Hk Hl Hs _ Hu t0 Ht0 j0 Ej d h Ha (incl_refl _)) as [H1 H2].
  unfold open_store, written_of, small_chunks, entries_of in *. destruct (st_index d) as [i|]; [|congruence].
  destruct H1 as [(_ & _ & H1)|(H1 & Hcf)]; [congruence|]. cbn [x_chunks] in *.
  destruct (H2 Hsm) as (zs & uss & Z1 & Z2 & Z3 & Z4 & Z5). rewrite Hcf.
  destruct (pieces_find unpickle rr (m_compress m) decompress (m_cipher m) (cf isfile t0)
    (Written (i_chunks i) (fst (fst (cm isfile m t0 j0))) (snd (fst (cm isfile m t0 j0))) (st_files d)) zs Hc) as (o & Ho & Hr).
  - cbn [x_format cm fst open_config]. rewrite Dj. reflexivity.
  - reflexivity.
  - exact Z1.
  - exact Z2.
  - exact Z3.
  - exists o, uss. split; [exact Ho|]. rewrite Z4 in Hr. split; [exact Hr|exact Z5].
Qed.

Theorem append_succeeds {A} isfile pickle unpickle rw rr m d (h : list (job A * list (tree leaf))) u ts :
  (forall x, unpickle (pickle x) = Ok x) ->
  key_ok (m_cipher m) -> match m_cipher m with Some c => e_limit c = None | None => True end ->
  (is_none (m_bytes m) && is_none (m_size m)) || (truthy (m_bytes m) && truthy (m_size m)) = false ->
  appended isfile pickle rw m d h -> on_terms m u -> sound u -> outputs (u_fn u) (u_inputs u) ts ->
  uniform isfile rw rr (flat_map snd h ++ ts) -> flat_map snd h ++ ts <> [] ->
  exists d', append isfile pickle rw u d = (d', Ok tt) /\ appended isfile pickle rw m d' (h ++ [(u, ts)]).
Proof.
  intros Hp Hk Hl Hs Ha Hm Hsd Hout Hu Hne. destruct (flat_map snd h ++ ts) as [|t0 rest] eqn:Eall; [congruence|].
  rewrite <- Eall in *. assert (Ht0 : In t0 (flat_map snd h ++ ts)) by (rewrite Eall; left; reflexivity).
  destruct (plain_spec isfile rw rr _ t0 Hu Ht0) as (j0 & Ej & Dj).
  pose proof (appended_holds isfile pickle unpickle rw rr m Hp Hk Hl Hs _ Hu t0 Ht0 j0 Ej d h Ha (fun t Ht => in_or_app _ _ _ (or_introl Ht))) as HH.
  destruct (holds_step isfile pickle unpickle rw rr m Hp Hk Hl Hs _ Hu t0 Ht0 j0 Ej u d h ts HH Hm Hsd Hout (fun t Ht => in_or_app _ _ _ (or_intror Ht)))
    as (d' & E & _).
  exists d'. split; [exact E|]. exact (appended_run isfile pickle rw m d h u ts d' Ha Hm Hsd Hout E).
Qed.

(** Failing runs: the same index and the same chunks of the index. *)
Theorem failed_same {A} isfile pickle rw (u : job A) d d' e : g_nodes (u_args u) = 1 -> Forall (fun l => fst (fst l) = 0) (u_left u) ->
  append isfile pickle rw u d = (d', Err e) ->
  st_index d' = st_index d /\
  forall c, In c (entries_of d) -> find (fun f => fst f =? k_file (fst c)) (st_files d') = find (fun f => fst f =? k_file (fst c)) (st_files d).
Proof.
  intros Hn HF HE. destruct (failed_keeps isfile pickle rw u d d' e Hn HF HE) as (Ei & new & Ef & Hnew). split; [exact Ei|].
  intros c Hc. rewrite Ef. apply find_put_old. intros Hin. apply in_map_iff in Hin. destruct Hin as (f & E & Hin).
  destruct (Hnew f Hin) as (w & k & Ew). apply (start_fresh w k (entries_of d)). rewrite <- Ew, E. apply in_map with (f := fun c => k_file (fst c)). exact Hc.
Qed.

Theorem only_failures {A} isfile pickle rw m d (h : list (job A * list (tree leaf))) : appended isfile pickle rw m d h -> h = [] -> st_index d = None.
Proof.
  induction 1 as [|d h u ts d' _ IH Hm Hs Hout HE|d h B u e d' _ IH Hn HF HE]; intros Hh.
  - reflexivity.
  - apply app_eq_nil in Hh. destruct Hh as [_ Hh]. discriminate.
  - destruct (failed_keeps isfile pickle rw u d d' e Hn HF HE) as (-> & _). exact (IH Hh).
Qed.
