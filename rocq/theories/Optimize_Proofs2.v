From Verif Require Import Base Dict Shuffle_Proofs Assign_Model Config_Model
  Format_Model Codec_Model Codec_Spec Codec_Proofs Tree_Model Tree_Spec Tree_Proofs Sample_Model Sample_Spec Sample_Proofs
  Writer_Model Encrypt_Model Encrypt_Spec Encrypt_Proofs Dataset_Model Dataset_Spec Dataset_Proofs Dataset_Proofs2
  Distrib_Model Distrib_Spec Distrib_Proofs Names_Model Names_Proofs Merge_Model Merge_Spec Merge_Proofs
  Config_Proofs Optimize_Model Optimize_Spec Optimize_Proofs.
From Coq Require Import NArith Cantor Sorted.
Local Open Scope nat_scope.
Local Ltac Zify.zify_post_hook ::= idtac.

(** ** Merging in any order *)
Section Finish.
Context {chunk config : Type} (same : config -> config -> bool) (same_ok : forall a b, same a b = true <-> a = b).
Notation idx := (index chunk config).

Lemma node_merges_perm c : forall (dirs : list (list (str * idx))) n,
  Forall (fun files => files <> [] /\ Forall (fun f => i_config (snd f) = Some c) files) dirs ->
  exists fs, node_merges same n dirs None = Ok fs /\ length fs = length dirs /\ Forall (fun f => i_config (snd f) = Some c) fs /\
    Permutation (flat_map (fun f => i_chunks (snd f)) fs) (flat_map (flat_map (fun f => i_chunks (snd f))) dirs).
Proof.
  induction dirs as [|files dirs IH]; intros n F.
  - exists []. repeat split; [constructor|reflexivity].
  - inversion F as [|? ? [Hn Hf] F']; subst. cbn [node_merges].
    destruct (merge_all_once same same_ok files None (Some n) c I Hf Hn) as (name & chunks & -> & _ & new & -> & P). cbn [bind].
    destruct (IH (S n) F') as (fs & -> & L & C & P'). cbn [bind app].
    eexists. split; [reflexivity|]. cbn [length]. split; [congruence|]. split; [constructor; [reflexivity|exact C]|].
    cbn [flat_map snd i_chunks]. apply Permutation_app; assumption.
Qed.

Lemma finish_perm c (dirs : list (list (str * idx))) : dirs <> [] ->
  Forall (fun files => files <> [] /\ Forall (fun f => i_config (snd f) = Some c) files) dirs ->
  exists rows, finish same dirs None = Ok [(index_json, Index rows (Some c))] /\
    Permutation rows (flat_map (flat_map (fun f => i_chunks (snd f))) dirs).
Proof.
  intros Hd F. destruct dirs as [|files [|files2 dirs]]; [congruence| |].
  - inversion F as [|? ? [Hn Hf] _]; subst. cbn [finish flat_map].
    destruct (merge_all_once same same_ok files None None c I Hf Hn) as (name & chunks & -> & -> & new & -> & P).
    exists new. rewrite app_nil_r. split; [reflexivity|exact P].
  - destruct (node_merges_perm c _ 0 F) as (fs & E & L & C & P). unfold finish. rewrite E. cbn [bind].
    assert (Hn : fs <> []) by (destruct fs; [discriminate L|discriminate]).
    destruct (merge_all_once same same_ok fs None None c I C Hn) as (name & chunks & -> & -> & new & -> & P').
    exists new. split; [reflexivity|]. etransitivity; eassumption.
Qed.
End Finish.

Lemma same_config_ok a b : same_config a b = true <-> a = b.
Proof. unfold same_config. destruct (config_eq_dec a b); split; congruence. Qed.

(** ** The inputs *)
Section Inputs.
Context {A : Type} (fn : A -> res (list (option (tree leaf)))).
Definition made (a : A) : list (tree leaf) := match fn a with Ok outs => stored_outputs outs | Err _ => [] end.
Definition runs_on (l : list A) : Prop := Forall (fun a => exists outs, fn a = Ok outs) l.

Lemma given_stored outs ts : given outs ts -> stored_outputs outs = ts.
Proof. unfold stored_outputs. induction 1 as [|t outs ts _ IH|outs ts _ IH]; cbn [flat_map app]; congruence. Qed.
Lemma outputs_made l ts : outputs fn l ts -> runs_on l /\ flat_map made l = ts.
Proof.
  induction 1 as [|a l outs ts ts' E G _ [IH1 IH2]]; [split; [constructor|reflexivity]|].
  split; [constructor; [eauto|exact IH1]|]. cbn [flat_map]. unfold made at 1. rewrite E, (given_stored _ _ G), IH2. reflexivity.
Qed.
Lemma run_inputs_ok l : runs_on l -> run_inputs fn l = Ok (flat_map made l).
Proof.
  induction 1 as [|a l [outs E] _ IH]; [reflexivity|]. cbn [run_inputs flat_map]. unfold made at 1. rewrite E. cbn [bind]. rewrite IH. reflexivity.
Qed.
End Inputs.

Lemma mapM_map {A B} (f : A -> res B) (g : A -> B) l : (forall a, In a l -> f a = Ok (g a)) -> mapM f l = Ok (map g l).
Proof.
  induction l as [|a l IH]; intros H; [reflexivity|]. rewrite mapM_cons, (H a (or_introl eq_refl)), IH by (intros; apply H; right; assumption). reflexivity.
Qed.

Section Optimize.
Context {A : Type} (isfile : list N -> bool) (pickle : leaf -> bytes) (unpickle : bytes -> res leaf) (rw rr : nat -> bool).
Context (Hpickle : forall x, unpickle (pickle x) = Ok x).
Context (fn : A -> res (list (option (tree leaf)))) (g : args).
Context (perm : nat -> nat -> nat -> list nat) (order : nat -> nat -> list nat).
Context (listdir : list (str * index (cinfo * nat) config) -> list (str * index (cinfo * nat) config)).
Context (Hkey : key_ok (g_cipher g)) (Hlim : match g_cipher g with Some c => e_limit c = None | None => True end).
Context (Hsizes : (is_none (g_bytes g) && is_none (g_size g)) || (truthy (g_bytes g) && truthy (g_size g)) = false).
Context (Hperm : forall r w n, Permutation (perm r w n) (seq 0 n)) (Horder : forall r n, Permutation (order r n) (seq 0 n)).
Context (Hlist : forall l, Permutation (listdir l) l).
Context (Hnodes : 1 <= g_nodes g) (Hworkers : 1 <= g_workers g) (Hfast : g_fast g = FdrBool false).

(** All samples; [t0] is one of them. *)
Context (all : list (tree leaf)) (Hall : uniform isfile rw rr all) (t0 : tree leaf) (Ht0 : In t0 all) (j0 : spec json).
Context (Hj0 : spec_to_json rw (spec_of t0) = Ok j0).
Let conf := (formats isfile t0, spec_of t0).
Let c0 : config := ((Some (formats isfile t0), Some j0), option_map enc_state (g_cipher g)).
Let write := write_outputs isfile pickle rw g.
Definition no_product : produced := Produced (Index [] None) [].
Let P (v : nat * list (tree leaf)) : produced := match write (fst v) (snd v) with Ok p => p | Err _ => no_product end.

Lemma creates k : exists w, create_writer (WCfg (g_bytes g) (g_size g) (chunk_seal (g_cipher g)) (g_compress g)) k = Ok w.
Proof.
  unfold create_writer. cbn [c_size c_bytes]. rewrite (andb_comm (is_none (g_size g))), (andb_comm (truthy (g_size g))), Hsizes. eauto.
Qed.

Lemma worker_ok v : incl (snd v) all ->
  write (fst v) (snd v) = Ok (P v) /\
  (snd v = [] -> i_chunks (p_index (P v)) = []) /\
  (snd v <> [] -> i_chunks (p_index (P v)) <> [] /\ i_config (p_index (P v)) = Some c0) /\
  (exists n, map fst (p_files (P v)) = map (file_id (fst v)) (seq 0 n)) /\
  (Forall (fun c => (N.of_nat (snd c) < two32)%N) (i_chunks (p_index (P v))) ->
     exists zs, map z_row zs = i_chunks (p_index (P v)) /\ map z_file zs = p_files (P v) /\ flat_map z_group zs = snd v /\
       Forall (good_piece unpickle (g_compress g) (g_cipher g) conf) zs).
Proof.
  intros Hi. destruct v as [rank ts]. cbn [fst snd] in *. unfold P. cbn [fst snd]. unfold write, write_outputs.
  destruct ts as [|t ts].
  { destruct (creates 0) as [w ->]. cbn [bind p_index p_files i_chunks]. split; [reflexivity|]. split; [reflexivity|].
    split; [congruence|]. split; [exists 0; reflexivity|]. intros _. exists []. repeat split; constructor. }
  pose proof (uniform_incl isfile rw rr all (t :: ts) Hi Hall) as Hu. pose proof (uniform_storable _ _ _ _ _ Hu) as Hst.
  destruct (dataset_written isfile pickle unpickle rw rr Hpickle (g_bytes g) (g_size g) (g_compress g) (g_cipher g) (t :: ts) Hkey Hlim Hsizes Hst) as [x Ex].
  rewrite Ex. cbn [bind p_index p_files i_chunks i_config].
  destruct (written_pieces isfile pickle unpickle rw rr Hpickle _ _ _ _ _ _ _ Hkey Hst Ex) as ((j & Ej & Efmt) & Hop & Henc & Hne & Hids & Hz).
  destruct (uniform_formats _ _ _ _ t t0 Hall (Hi t (or_introl eq_refl)) Ht0) as [Ef Es].
  rewrite Ef, Es in *. rewrite Hj0 in Ej. injection Ej as <-.
  split; [reflexivity|]. split; [discriminate|]. split.
  { intros _. split; [intros E; apply map_eq_nil in E; congruence|]. rewrite Efmt, Henc. reflexivity. }
  split.
  { exists (length (x_files x)). rewrite map_map. cbn [fst]. rewrite <- Hids, map_map. reflexivity. }
  intros Hsm. destruct Hz as (zs & Z1 & Z2 & Z3 & Z4).
  { unfold small_chunks. apply Forall_forall. intros c Hc. rewrite Forall_forall in Hsm. exact (Hsm (rename rank c) (in_map _ _ _ Hc)). }
  exists (map (fun z : piece => (rename rank (z_row z), (file_id rank (fst (z_file z)), snd (z_file z)), z_group z)) zs).
  split; [rewrite map_map, <- Z1, map_map; reflexivity|].
  split; [rewrite map_map, <- Z2, map_map; reflexivity|].
  split; [rewrite flat_map_concat_map, map_map, <- flat_map_concat_map; exact Z3|].
  apply Forall_map. eapply Forall_impl; [|exact Z4]. intros [[row file] grp]. unfold good_piece, z_row, z_file, z_group. cbn [fst snd].
  intros (G1 & G2 & G3 & f & raws & G4 & G5 & G6 & G7). unfold rename. cbn [fst snd k_file k_size].
  rewrite G1. repeat (apply conj; [assumption || reflexivity|]). exists f, raws. auto.
Qed.

(** All workers with their samples. *)
Context (inputs : list A) (Hrun : runs_on fn inputs) (Hincl : incl (flat_map (made fn) inputs) all).

Context (Hsz : match g_sizes g with None => True | Some sz => length inputs = length sz /\ Forall (fun w => (0 < w)%Z) sz end).
Lemma shares_ok : exists out,
  (forall r, r < g_nodes g -> distribute (perm r) (g_nodes g) r (g_workers g) inputs None (g_sizes g) = Ok (out r) /\ length (out r) = g_workers g) /\
  Permutation (concat (all_nodes (g_nodes g) out)) inputs /\
  (g_sizes g = None -> concat (all_nodes (g_nodes g) out) = inputs /\ even_sizes (all_nodes (g_nodes g) out)).
Proof.
  destruct (g_sizes g) as [sz|].
  - destruct (weighted_ok perm (g_nodes g) (g_workers g) inputs (Some sz) Hperm Hnodes Hworkers Hsz) as (out & H1 & H2).
    exists out. split; [exact H1|]. split; [exact H2|]. discriminate.
  - destruct (sequential_ok (g_nodes g) (g_workers g) inputs Hnodes Hworkers) as (out & H1 & H2 & H3).
    exists out. split; [exact H1|]. split; [rewrite H2; reflexivity|]. auto.
Qed.

Definition taken (r : nat) (ws : nat * list A) : list A := permute (order (rank_of g r (fst ws)) (length (snd ws))) (snd ws).
Lemma taken_perm r ws : Permutation (taken r ws) (snd ws).
Proof. apply permute_Permutation, Horder. Qed.
Definition team (r : nat) (shares : list (list A)) : list (nat * list (tree leaf)) :=
  map (fun ws => (rank_of g r (fst ws), flat_map (made fn) (taken r ws))) (combine (seq 0 (length shares)) shares).

Lemma in_shares r (out : nat -> list (list A)) ws : r < g_nodes g -> Permutation (concat (all_nodes (g_nodes g) out)) inputs ->
  In ws (combine (seq 0 (length (out r))) (out r)) -> incl (taken r ws) inputs.
Proof.
  intros Hr HP Hin a Ha. eapply Permutation_in; [exact HP|]. apply in_concat. exists (snd ws). split.
  - unfold all_nodes. apply in_flat_map. exists r. split; [apply in_seq; lia|]. destruct ws as [w s]. apply in_combine_r in Hin. exact Hin.
  - eapply Permutation_in; [apply taken_perm|exact Ha].
Qed.

Lemma runs_incl l : incl l inputs -> runs_on fn l.
Proof. intros H. unfold runs_on in *. rewrite Forall_forall in *. intros a Ha. apply Hrun, H, Ha. Qed.
Lemma made_incl l : incl l inputs -> incl (flat_map (made fn) l) all.
Proof. intros H t Ht. apply Hincl. apply in_flat_map in Ht. destruct Ht as (a & Ha & Ht). apply in_flat_map. exists a. auto. Qed.

Lemma run_node_ok r out : r < g_nodes g -> Permutation (concat (all_nodes (g_nodes g) out)) inputs ->
  distribute (perm r) (g_nodes g) r (g_workers g) inputs None (g_sizes g) = Ok (out r) ->
  run_node isfile pickle rw fn g perm order r inputs = Ok (map (fun v => (fst v, P v)) (team r (out r))) /\
  Forall (fun v => incl (snd v) all) (team r (out r)).
Proof.
  intros Hr HP Hd. unfold run_node. rewrite Hd. cbn [bind]. rewrite Hfast. cbn [limit_items].
  assert (HT : Forall (fun v => incl (snd v) all) (team r (out r))).
  { unfold team. apply Forall_map, Forall_forall. intros ws Hws. cbn [snd]. apply made_incl. exact (in_shares r out ws Hr HP Hws). }
  split; [|exact HT].
  rewrite (mapM_map _ (fun ws => (rank_of g r (fst ws), P (rank_of g r (fst ws), flat_map (made fn) (taken r ws))))).
  - unfold team. rewrite map_map. reflexivity.
  - intros ws Hws. unfold run_worker. fold (taken r ws). rewrite run_inputs_ok by (apply runs_incl; exact (in_shares r out ws Hr HP Hws)). cbn [bind].
    destruct (worker_ok (rank_of g r (fst ws), flat_map (made fn) (taken r ws))) as (E & _).
    { cbn [snd]. apply made_incl. exact (in_shares r out ws Hr HP Hws). }
    cbn [fst snd] in E. fold write. rewrite E. reflexivity.
Qed.

(** ** The files of all workers *)
Lemma all_pieces vs : Forall (fun v => incl (snd v) all) vs ->
  Forall (fun c => (N.of_nat (snd c) < two32)%N) (flat_map (fun v => i_chunks (p_index (P v))) vs) ->
  exists zs, map z_row zs = flat_map (fun v => i_chunks (p_index (P v))) vs /\ map z_file zs = flat_map (fun v => p_files (P v)) vs /\
    flat_map z_group zs = flat_map snd vs /\ Forall (good_piece unpickle (g_compress g) (g_cipher g) conf) zs.
Proof.
  induction vs as [|v vs IH]; intros Hv Hs; [exists []; repeat split; constructor|].
  inversion Hv as [|? ? Hv1 Hv2]; subst. cbn [flat_map] in Hs. apply Forall_app in Hs. destruct Hs as [Hs1 Hs2].
  destruct (worker_ok v Hv1) as (_ & _ & _ & _ & Hz). destruct (Hz Hs1) as (z1 & A1 & A2 & A3 & A4).
  destruct (IH Hv2 Hs2) as (z2 & B1 & B2 & B3 & B4). exists (z1 ++ z2). cbn [flat_map]. rewrite !map_app, flat_map_app, A1, A2, A3, B1, B2, B3.
  repeat (apply conj; [reflexivity|]). apply Forall_app. auto.
Qed.

Lemma files_nodup vs : Forall (fun v => incl (snd v) all) vs -> NoDup (map fst vs) ->
  NoDup (map fst (flat_map (fun v => p_files (P v)) vs)).
Proof.
  intros Hv HN.
  assert (G : forall vs, Forall (fun v => incl (snd v) all) vs -> forall f, In f (map fst (flat_map (fun v => p_files (P v)) vs)) ->
     exists r k, In r (map fst vs) /\ f = file_id r k).
  { clear vs Hv HN. intros vs Hv f Hf. apply in_map_iff in Hf. destruct Hf as (fl & <- & Hf). apply in_flat_map in Hf. destruct Hf as (v & Hin & Hf).
    rewrite Forall_forall in Hv. destruct (worker_ok v (Hv v Hin)) as (_ & _ & _ & (n & E) & _).
    assert (H : In (fst fl) (map fst (p_files (P v)))) by (apply in_map; exact Hf). rewrite E in H. apply in_map_iff in H.
    destruct H as (k & <- & _). exists (fst v), k. split; [apply in_map; exact Hin|reflexivity]. }
  induction vs as [|v vs IH]; [constructor|]. inversion Hv as [|? ? Hv1 Hv2]; subst. cbn [map flat_map] in *. inversion HN as [|? ? Hn HN']; subst.
  rewrite map_app. apply Config_Proofs.NoDup_app_intro.
  - destruct (worker_ok v Hv1) as (_ & _ & _ & (n & E) & _). rewrite E. apply FinFun.Injective_map_NoDup; [|apply seq_NoDup].
    intros a b H. unfold file_id in H. apply to_nat_inj in H. congruence.
  - apply IH; assumption.
  - intros f H1 H2. destruct (G vs Hv2 f H2) as (r & k & Hr & ->).
    destruct (worker_ok v Hv1) as (_ & _ & _ & (n & E) & _). rewrite E in H1. apply in_map_iff in H1. destruct H1 as (k' & H1 & _).
    unfold file_id in H1. apply to_nat_inj in H1. injection H1 as H1 _. apply Hn. rewrite H1. exact Hr.
Qed.

(** ** Their ranks and their samples *)
Lemma team_ranks r shares : length shares = g_workers g -> map fst (team r shares) = seq (r * g_workers g) (g_workers g).
Proof.
  intros Hl. unfold team. rewrite map_map. cbn [fst]. unfold rank_of. rewrite <- (map_map fst (fun w => r * g_workers g + w)), combine_seq_fst, Hl.
  assert (G : forall n b k, map (fun w => b + w) (seq k n) = seq (b + k) n).
  { clear. induction n as [|n IH]; intros b k; [reflexivity|]. cbn [seq map]. rewrite IH, Nat.add_succ_r. reflexivity. }
  rewrite G, Nat.add_0_r. reflexivity.
Qed.
Lemma team_perm r shares : Permutation (flat_map snd (team r shares)) (flat_map (made fn) (concat shares)).
Proof.
  unfold team. generalize 0 as k. induction shares as [|s shares IH]; intros k; [reflexivity|].
  cbn [length seq combine map flat_map snd concat]. rewrite flat_map_app. apply Permutation_app; [|apply IH].
  apply Permutation_flat_map. apply (taken_perm r (k, s)).
Qed.
Lemma team_eq r shares : (forall k n, order k n = seq 0 n) -> flat_map snd (team r shares) = flat_map (made fn) (concat shares).
Proof.
  intros Ho. unfold team. generalize 0 as k. induction shares as [|s shares IH]; intros k; [reflexivity|].
  cbn [length seq combine map flat_map snd concat]. rewrite flat_map_app, IH. f_equal. unfold taken. rewrite Ho. cbn [snd]. rewrite permute_id. reflexivity.
Qed.

Section Shares.
Context (out : nat -> list (list A)).
Definition teams : list (nat * list (tree leaf)) := flat_map (fun r => team r (out r)) (seq 0 (g_nodes g)).
Lemma teams_perm : Permutation (flat_map snd teams) (flat_map (made fn) (concat (all_nodes (g_nodes g) out))).
Proof.
  unfold teams, all_nodes. induction (seq 0 (g_nodes g)) as [|r l IH]; [reflexivity|]. cbn [flat_map].
  rewrite flat_map_app, concat_app, flat_map_app. apply Permutation_app; [apply team_perm|exact IH].
Qed.
Lemma teams_eq : (forall k n, order k n = seq 0 n) -> flat_map snd teams = flat_map (made fn) (concat (all_nodes (g_nodes g) out)).
Proof.
  intros Ho. unfold teams, all_nodes. induction (seq 0 (g_nodes g)) as [|r l IH]; [reflexivity|]. cbn [flat_map].
  rewrite flat_map_app, concat_app, flat_map_app, IH. f_equal. apply team_eq. exact Ho.
Qed.
Lemma teams_ranks : (forall r, r < g_nodes g -> length (out r) = g_workers g) -> map fst teams = seq 0 (g_nodes g * g_workers g).
Proof.
  intros H. rewrite <- nodes_seq. unfold teams.
  assert (G : Forall (fun r => r < g_nodes g) (seq 0 (g_nodes g))) by (apply Forall_forall; intros r Hr; apply in_seq in Hr; lia).
  induction G as [|r l Hr _ IH]; [reflexivity|]. cbn [flat_map]. rewrite map_app, IH, team_ranks by (apply H; exact Hr). reflexivity.
Qed.

(** ** The index files *)
Let ix (v : nat * list (tree leaf)) : nat * index (cinfo * nat) config := (fst v, p_index (P v)).
Definition dir_of (r : nat) : list (str * index (cinfo * nat) config) := node_files listdir (map (fun v => (fst v, P v)) (team r (out r))).
Lemma dir_perm r : Permutation (dir_of r) (flat_map (fun w => index_file (fst w) (snd w)) (map ix (team r (out r)))).
Proof.
  unfold dir_of, node_files. etransitivity; [apply Hlist|]. rewrite !flat_map_concat_map, !map_map. reflexivity.
Qed.
Lemma index_chunks (ws : list (nat * index (cinfo * nat) config)) :
  flat_map (fun f => i_chunks (snd f)) (flat_map (fun w => index_file (fst w) (snd w)) ws) = in_order ws.
Proof.
  unfold in_order. induction ws as [|w ws IH]; [reflexivity|]. cbn [flat_map]. rewrite flat_map_app, IH. f_equal.
  unfold index_file. destruct (i_chunks (snd w)) eqn:E; [reflexivity|]. cbn [flat_map snd]. rewrite app_nil_r. exact E.
Qed.

Lemma dir_config r : Forall (fun v => incl (snd v) all) (team r (out r)) ->
  Forall (fun f => i_config (snd f) = Some c0) (dir_of r).
Proof.
  intros HF. apply Forall_forall. intros f Hf. eapply Permutation_in in Hf; [|apply dir_perm].
  apply in_flat_map in Hf. destruct Hf as (w & Hw & Hf). apply in_map_iff in Hw. destruct Hw as (v & <- & Hv). cbn [ix fst snd] in Hf.
  rewrite Forall_forall in HF. destruct (worker_ok v (HF v Hv)) as (_ & H1 & H2 & _).
  unfold index_file in Hf. destruct (i_chunks (p_index (P v))) eqn:E; [destruct Hf|]. destruct Hf as [<-|[]]. cbn [snd].
  apply H2. intros E'. specialize (H1 E'). congruence.
Qed.
Lemma dir_nonempty r v : Forall (fun v => incl (snd v) all) (team r (out r)) -> In v (team r (out r)) -> snd v <> [] -> dir_of r <> [].
Proof.
  intros HF Hv Hne E. pose proof (dir_perm r) as HP. rewrite E in HP. apply Permutation_nil in HP.
  rewrite Forall_forall in HF. destruct (worker_ok v (HF v Hv)) as (_ & _ & H2 & _). destruct (H2 Hne) as [H3 _].
  assert (H : In (worker_index (fst v), p_index (P v)) (flat_map (fun w => index_file (fst w) (snd w)) (map ix (team r (out r))))).
  { apply in_flat_map. exists (ix v). split; [apply in_map; exact Hv|]. cbn [ix fst snd]. unfold index_file.
    destruct (i_chunks (p_index (P v))); [congruence|left; reflexivity]. }
  rewrite HP in H. destruct H.
Qed.

Lemma finish_ordered :
  (forall r, r < g_nodes g -> length (out r) = g_workers g /\ Forall (fun v => incl (snd v) all) (team r (out r)) /\
     exists v, In v (team r (out r)) /\ snd v <> []) ->
  g_nodes g * g_workers g <= 10 ->
  finish same_config (map dir_of (seq 0 (g_nodes g))) None =
    Ok [(index_json, Index (flat_map (fun v => i_chunks (p_index (P v))) teams) (Some c0))].
Proof.
  intros H Hten.
  assert (Hr : forall r, r < g_nodes g -> by_rank (map ix (team r (out r))) /\ same_width (map ix (team r (out r))) /\
     Forall (fun w => i_chunks (snd w) <> [] -> i_config (snd w) = Some c0) (map ix (team r (out r))) /\ in_order (map ix (team r (out r))) <> []).
  { intros r Hr. destruct (H r Hr) as (H1 & H2 & v & H3 & H4).
    assert (E : map fst (map ix (team r (out r))) = seq (r * g_workers g) (g_workers g)) by (rewrite map_map; cbn [ix fst]; apply team_ranks; exact H1).
    unfold by_rank, same_width. rewrite E. split; [apply seq_sorted|]. split.
    { intros a b Ha Hb. apply in_seq in Ha, Hb. rewrite !dec_one_digit by nia. reflexivity. }
    rewrite Forall_forall in H2. split.
    - apply Forall_map, Forall_forall. intros u Hu. cbn [ix snd]. destruct (worker_ok u (H2 u Hu)) as (_ & U1 & U2 & _).
      intros Hn. apply U2. intros E'. apply Hn, U1, E'.
    - intros E'. destruct (worker_ok v (H2 v H3)) as (_ & _ & U2 & _). destruct (U2 H4) as [U3 _]. apply U3.
      unfold in_order in E'. destruct (i_chunks (p_index (P v))) as [|c l] eqn:Ec; [reflexivity|]. exfalso.
      assert (Hc : In c (flat_map (fun w => i_chunks (snd w)) (map ix (team r (out r))))).
      { apply in_flat_map. exists (ix v). split; [apply in_map; exact H3|]. cbn [ix snd]. rewrite Ec. left; reflexivity. }
      rewrite E' in Hc. destruct Hc. }
  assert (Hcat : forall l, flat_map (fun v => i_chunks (p_index (P v))) (flat_map (fun r => team r (out r)) l) =
     flat_map (fun r => in_order (map ix (team r (out r)))) l).
  { induction l as [|r l IH]; [reflexivity|]. cbn [flat_map]. rewrite flat_map_app, IH. f_equal.
    unfold in_order. rewrite !flat_map_concat_map, map_map. reflexivity. }
  unfold teams. rewrite Hcat. destruct (Nat.eq_dec (g_nodes g) 1) as [E1|Hne].
  - rewrite E1. cbn [seq map finish flat_map]. rewrite app_nil_r. destruct (Hr 0 ltac:(lia)) as (B & W & F & N).
    exact (merge_workers same_config same_config_ok (map ix (team 0 (out 0))) (dir_of 0) None c0 B W (dir_perm 0) N F I).
  - rewrite (finish_nodes same_config same_config_ok (map (fun r => filter busy (map ix (team r (out r)))) (seq 0 (g_nodes g))) (map dir_of (seq 0 (g_nodes g))) None c0).
    + f_equal. f_equal. f_equal. f_equal. rewrite !flat_map_concat_map, map_map. f_equal. apply map_ext. intros r. apply in_order_busy.
    + assert (G : Forall (fun r => r < g_nodes g) (seq 0 (g_nodes g))) by (apply Forall_forall; intros r Hr'; apply in_seq in Hr'; lia).
      induction G as [|r l Hr' _ IH]; cbn [map]; constructor; [|exact IH]. destruct (Hr r Hr') as (B & W & F & N).
      split; [apply by_rank_filter; exact B|]. split; [apply same_width_filter; exact W|]. split.
      { unfold listing. rewrite <- index_files_busy. apply dir_perm. }
      split; [intros E; apply N; apply busy_none; exact E|]. apply Forall_forall. intros w Hw. apply filter_In in Hw. destruct Hw as [Hw Hb].
      rewrite Forall_forall in F. apply (F w Hw). unfold busy in Hb. intros E. rewrite E in Hb. discriminate.
    + exact I.
    + rewrite map_length, seq_length. nia.
Qed.
End Shares.

(** Every node has a sample. *)
Lemma node_busy out :
  (forall r, r < g_nodes g -> length (out r) = g_workers g) ->
  Permutation (concat (all_nodes (g_nodes g) out)) inputs ->
  (g_nodes g * g_workers g <= length inputs -> forall r, r < g_nodes g -> Forall (fun s => s <> []) (out r)) ->
  flat_map (made fn) inputs <> [] ->
  g_nodes g = 1 \/ (g_nodes g * g_workers g <= length inputs /\ Forall (fun a => made fn a <> []) inputs) ->
  forall r, r < g_nodes g -> exists v, In v (team r (out r)) /\ snd v <> [].
Proof.
  intros Hl HP He Hne Hc r Hr.
  assert (G : flat_map snd (team r (out r)) <> [] -> exists v, In v (team r (out r)) /\ snd v <> []).
  { intros Hn. destruct (flat_map snd (team r (out r))) as [|t l] eqn:E; [congruence|].
    assert (Ht : In t (flat_map snd (team r (out r)))) by (rewrite E; left; reflexivity). apply in_flat_map in Ht. destruct Ht as (v & H1 & H2).
    exists v. split; [exact H1|]. intros E'. rewrite E' in H2. destruct H2. }
  apply G. clear G. intros E. pose proof (team_perm r (out r)) as HT. rewrite E in HT. apply Permutation_nil in HT.
  destruct Hc as [H1|(Hlen & HF)].
  - apply Hne. assert (r = 0) by lia. subst r. unfold all_nodes in HP. rewrite H1 in HP. cbn [seq flat_map] in HP. rewrite app_nil_r in HP.
    apply Permutation_nil. rewrite <- (Permutation_flat_map _ HP), HT. reflexivity.
  - specialize (He Hlen r Hr). specialize (Hl r Hr).
    assert (Hall' : forall s, In s (out r) -> In s (all_nodes (g_nodes g) out)) by (intros s Hs'; apply in_flat_map; exists r; split; [apply in_seq; lia|exact Hs']).
    destruct (out r) as [|s shares] eqn:Eo; [cbn in Hl; lia|]. inversion He as [|? ? Hs0 _]; subst.
    destruct s as [|a s]; [congruence|]. cbn [concat flat_map app] in HT. apply app_eq_nil in HT. destruct HT as [HT _].
    rewrite Forall_forall in HF. apply (HF a); [|exact HT]. eapply Permutation_in; [exact HP|]. apply in_concat. exists (a :: s).
    split; [apply Hall'; left; reflexivity|left; reflexivity].
Qed.

Theorem optimize_reads decompress :
  codec_ok (g_compress g) decompress ->
  flat_map (made fn) inputs <> [] ->
  g_nodes g = 1 \/ (g_nodes g * g_workers g <= length inputs /\ Forall (fun a => made fn a <> []) inputs) ->
  spec_of_json rr j0 = Ok (spec_of t0) ->
  exists x, optimize isfile pickle rw fn g perm order listdir inputs = Ok x /\
    (small_chunks x -> exists o us, open_dataset rr decompress x = Ok o /\ reads unpickle o (g_cipher g) x us /\
       Permutation us (flat_map (made fn) inputs) /\
       (g_sizes g = None -> (forall k n, order k n = seq 0 n) -> g_nodes g * g_workers g <= 10 -> us = flat_map (made fn) inputs)).
Proof.
  intros Hc Hne Hbusy Hback. destruct shares_ok as (out & Hout & HP & Hseq).
  assert (Hlen : forall r, r < g_nodes g -> length (out r) = g_workers g) by (intros r Hr; apply (Hout r Hr)).
  pose proof (node_busy out Hlen HP (fun Hle r Hr => distribute_busy (perm r) _ _ _ _ _ r _ (Hperm r) Hnodes Hworkers Hle Hr (proj1 (Hout r Hr))) Hne Hbusy) as Hbz.
  assert (Hrun' : forall r, r < g_nodes g -> run_node isfile pickle rw fn g perm order r inputs = Ok (map (fun v => (fst v, P v)) (team r (out r))) /\
     Forall (fun v => incl (snd v) all) (team r (out r))).
  { intros r Hr. apply run_node_ok; [exact Hr|exact HP|]. apply (Hout r Hr). }
  assert (Hdirs : Forall (fun files => files <> [] /\ Forall (fun f => i_config (snd f) = Some c0) files) (map (dir_of out) (seq 0 (g_nodes g)))).
  { apply Forall_map, Forall_forall. intros r Hr. apply in_seq in Hr. destruct (Hrun' r ltac:(lia)) as [_ HF]. destruct (Hbz r ltac:(lia)) as (v & V1 & V2).
    split; [exact (dir_nonempty out r v HF V1 V2)|exact (dir_config out r HF)]. }
  assert (Hd0 : map (dir_of out) (seq 0 (g_nodes g)) <> []).
  { intros E. apply map_eq_nil in E. destruct (g_nodes g); [lia|discriminate]. }
  destruct (finish_perm same_config same_config_ok c0 _ Hd0 Hdirs) as (rows & Efin & Prows).
  assert (Hteams : Forall (fun v => incl (snd v) all) (teams out)).
  { unfold teams. apply Forall_forall. intros v Hv. apply in_flat_map in Hv. destruct Hv as (r & Hr & Hv). apply in_seq in Hr.
    destruct (Hrun' r ltac:(lia)) as [_ HF]. rewrite Forall_forall in HF. apply HF, Hv. }
  assert (Prows' : Permutation rows (flat_map (fun v => i_chunks (p_index (P v))) (teams out))).
  { etransitivity; [exact Prows|]. unfold teams. clear -Hlist. induction (seq 0 (g_nodes g)) as [|r l IH]; [reflexivity|]. cbn [map flat_map].
    rewrite flat_map_app. apply Permutation_app; [|exact IH]. rewrite (Permutation_flat_map _ (dir_perm out r)), index_chunks.
    unfold in_order. rewrite !flat_map_concat_map, map_map. reflexivity. }
  unfold optimize.
  rewrite (mapM_map _ (fun r => map (fun v => (fst v, P v)) (team r (out r)))) by (intros r Hr; apply in_seq in Hr; apply Hrun'; lia). cbn [bind].
  rewrite map_map. fold (dir_of out) in Efin. change (map (fun x => node_files listdir (map (fun v => (fst v, P v)) (team x (out x)))) (seq 0 (g_nodes g))) with (map (dir_of out) (seq 0 (g_nodes g))).
  rewrite Efin. cbn [bind i_chunks i_config]. eexists. split; [reflexivity|]. intros Hsm.
  assert (Hfiles : flat_map (fun w : nat * produced => p_files (snd w)) (concat (map (fun r => map (fun v => (fst v, P v)) (team r (out r))) (seq 0 (g_nodes g)))) =
     flat_map (fun v => p_files (P v)) (teams out)).
  { unfold teams. clear. induction (seq 0 (g_nodes g)) as [|r l IH]; [reflexivity|]. cbn [map concat flat_map]. rewrite !flat_map_app, IH. f_equal.
    rewrite !flat_map_concat_map, map_map. reflexivity. }
  rewrite Hfiles in *. unfold small_chunks in Hsm. cbn [x_chunks] in Hsm.
  destruct (all_pieces (teams out) Hteams (Permutation_Forall Prows' Hsm)) as (zs & Z1 & Z2 & Z3 & Z4).
  assert (HZ : exists zs', rows = map z_row zs' /\ Permutation zs zs' /\
     (g_sizes g = None -> (forall k n, order k n = seq 0 n) -> g_nodes g * g_workers g <= 10 -> zs' = zs)).
  { destruct (le_gt_dec (g_nodes g * g_workers g) 10) as [Hten|Hten].
    - assert (E : rows = flat_map (fun v => i_chunks (p_index (P v))) (teams out)).
      { pose proof (finish_ordered out) as HO. rewrite Efin in HO. assert (E : forall a b : list (cinfo * nat), Ok [(index_json, Index a (Some c0))] = Ok [(index_json, Index b (Some c0))] -> a = b) by (intros a b Hab; congruence).
        apply E. apply HO; [|exact Hten]. intros r Hr. split; [apply Hlen, Hr|]. split; [apply (Hrun' r Hr)|apply (Hbz r Hr)]. }
      exists zs. rewrite Z1. split; [exact E|]. split; [reflexivity|]. auto.
    - rewrite <- Z1 in Prows'. apply Permutation_map_inv in Prows'. destruct Prows' as (zs' & E & PZ).
      exists zs'. split; [exact E|]. split; [exact PZ|]. lia. }
  destruct HZ as (zs' & Erows & PZ & Hord).
  destruct (pieces_read unpickle rr (g_compress g) decompress (g_cipher g) conf
    (Written rows (fst c0) (snd c0) (flat_map (fun v => p_files (P v)) (teams out))) zs' Hc) as (o & Ho & Hr).
  - cbn [x_format c0 fst open_config]. rewrite Hback. reflexivity.
  - reflexivity.
  - symmetry. exact Erows.
  - intros z Hz. cbn [x_files]. rewrite <- Z2. apply in_map. eapply Permutation_in; [apply Permutation_sym; exact PZ|exact Hz].
  - cbn [x_files]. apply files_nodup; [exact Hteams|]. rewrite (teams_ranks out Hlen). apply seq_NoDup.
  - eapply Permutation_Forall; [exact PZ|exact Z4].
  - exists o, (flat_map z_group zs'). split; [exact Ho|]. split; [exact Hr|]. split.
    + rewrite <- (Permutation_flat_map _ PZ), Z3, (teams_perm out). apply Permutation_flat_map. exact HP.
    + intros Hs Ho' Hten. rewrite (Hord Hs Ho' Hten), Z3, (teams_eq out Ho'), (proj1 (Hseq Hs)). reflexivity.
Qed.
End Optimize.

Lemma all_give_made {A} (fn : A -> res (list (option (tree leaf)))) inputs : all_give fn inputs -> Forall (fun a => made fn a <> []) inputs.
Proof.
  intros H. apply Forall_forall. intros a Ha. destruct (H a Ha) as (outs & t & E & Hin). unfold made. rewrite E.
  intros E'. assert (Ht : In t (stored_outputs outs)) by (unfold stored_outputs; apply in_flat_map; exists (Some t); split; [exact Hin|left; reflexivity]).
  rewrite E' in Ht. destruct Ht.
Qed.

Theorem optimize_dataset {A} isfile pickle unpickle rw rr (fn : A -> res (list (option (tree leaf)))) g perm order listdir decompress inputs ts :
  (forall x, unpickle (pickle x) = Ok x) ->
  key_ok (g_cipher g) -> match g_cipher g with Some c => e_limit c = None | None => True end -> codec_ok (g_compress g) decompress ->
  (is_none (g_bytes g) && is_none (g_size g)) || (truthy (g_bytes g) && truthy (g_size g)) = false ->
  (forall r w n, Permutation (perm r w n) (seq 0 n)) -> (forall r n, Permutation (order r n) (seq 0 n)) ->
  (forall l, Permutation (listdir l) l) ->
  1 <= g_nodes g -> 1 <= g_workers g -> g_fast g = FdrBool false ->
  match g_sizes g with None => True | Some sz => length inputs = length sz /\ Forall (fun w => (0 < w)%Z) sz end ->
  outputs fn inputs ts -> ts <> [] -> uniform isfile rw rr ts ->
  g_nodes g = 1 \/ (g_nodes g * g_workers g <= length inputs /\ all_give fn inputs) ->
  exists x, optimize isfile pickle rw fn g perm order listdir inputs = Ok x /\
    (small_chunks x -> exists o us, open_dataset rr decompress x = Ok o /\ reads unpickle o (g_cipher g) x us /\
       Permutation us ts /\
       (g_sizes g = None -> (forall k n, order k n = seq 0 n) -> g_nodes g * g_workers g <= 10 -> us = ts)).
Proof.
  intros Hp Hk Hl Hc Hs Hperm Hord Hlist Hn Hw Hf Hsz Hout Hne Hu Hb.
  destruct (outputs_made fn inputs ts Hout) as [Hrun Hts]. destruct ts as [|t0 ts]; [congruence|].
  assert (Hplain : tree_plain rw rr t0) by (destruct Hu as [HF _]; inversion HF; tauto).
  destruct (spec_json rw rr t0 Hplain) as (j0 & Ej & Dj).
  rewrite <- Hts in *.
  assert (Hin : In t0 (flat_map (made fn) inputs)) by (rewrite Hts; left; reflexivity).
  apply (optimize_reads isfile pickle unpickle rw rr Hp fn g perm order listdir Hk Hl Hs Hperm Hord Hlist Hn Hw Hf (flat_map (made fn) inputs) Hu t0 Hin j0 Ej
    inputs Hrun (incl_refl _) Hsz decompress Hc Hne); [|exact Dj].
  destruct Hb as [Hb|(B2 & B3)]; [left; exact Hb|right]. split; [exact B2|apply all_give_made; exact B3].
Qed.
