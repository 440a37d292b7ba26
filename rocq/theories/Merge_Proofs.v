From Coq Require Import String.
From Verif Require Import Base Names_Model Names_Spec Names_Proofs Merge_Model Merge_Spec.
From Coq Require Import NArith Sorted.
Local Open Scope list_scope.
Local Open Scope nat_scope.
Local Ltac Zify.zify_post_hook ::= idtac.

Lemma str_le_total a b : str_le a b = true \/ str_le b a = true.
Proof.
  revert b; induction a as [|x a IH]; intros [|y b]; cbn; auto.
  destruct (N.ltb_spec x y), (N.ltb_spec y x); auto; lia.
Qed.
Lemma str_le_antisym a b : str_le a b = true -> str_le b a = true -> a = b.
Proof.
  revert b; induction a as [|x a IH]; intros [|y b]; cbn; intros H1 H2; try discriminate; [reflexivity|].
  destruct (N.ltb_spec x y), (N.ltb_spec y x); try discriminate; try lia. f_equal; [lia|]. apply IH; assumption.
Qed.
Lemma str_le_trans a b c : str_le a b = true -> str_le b c = true -> str_le a c = true.
Proof.
  revert b c; induction a as [|x a IH]; intros [|y b] [|z c]; cbn; intros H1 H2; try discriminate; [reflexivity..|].
  destruct (N.ltb_spec x y), (N.ltb_spec y x), (N.ltb_spec y z), (N.ltb_spec z y), (N.ltb_spec x z), (N.ltb_spec z x);
    try discriminate; try lia; try reflexivity. apply (IH b c H1 H2).
Qed.

Section Sort.
Context {chunk config : Type}.
Notation file := (str * index chunk config)%type.

Lemma insert_perm (f : file) l : Permutation (insert_file f l) (f :: l).
Proof.
  induction l as [|g l IH]; cbn; [reflexivity|]. destruct (str_le (fst f) (fst g)); [reflexivity|].
  rewrite IH. apply perm_swap.
Qed.
Lemma sort_perm (l : list file) : Permutation (sort_files l) l.
Proof. induction l as [|f l IH]; cbn; [reflexivity|]. rewrite insert_perm, IH. reflexivity. Qed.

Lemma insert_comm (f g : file) l : fst f <> fst g -> insert_file f (insert_file g l) = insert_file g (insert_file f l).
Proof.
  intros Hne. induction l as [|h l IH]; cbn.
  - destruct (str_le (fst f) (fst g)) eqn:E1, (str_le (fst g) (fst f)) eqn:E2; try reflexivity.
    + exfalso. apply Hne. apply str_le_antisym; assumption.
    + destruct (str_le_total (fst f) (fst g)); congruence.
  - destruct (str_le (fst g) (fst h)) eqn:Eg; destruct (str_le (fst f) (fst h)) eqn:Ef; cbn; rewrite ?Eg, ?Ef.
    + destruct (str_le (fst f) (fst g)) eqn:E1, (str_le (fst g) (fst f)) eqn:E2; try reflexivity.
      * exfalso. apply Hne. apply str_le_antisym; assumption.
      * destruct (str_le_total (fst f) (fst g)); congruence.
    + destruct (str_le (fst f) (fst g)) eqn:E1; [|reflexivity]. exfalso.
      rewrite (str_le_trans _ _ _ E1 Eg) in Ef. discriminate.
    + destruct (str_le (fst g) (fst f)) eqn:E1; [|reflexivity]. exfalso.
      rewrite (str_le_trans _ _ _ E1 Ef) in Eg. discriminate.
    + rewrite IH. reflexivity.
Qed.

Lemma sort_Permutation (l l' : list file) : NoDup (map fst l) -> Permutation l l' -> sort_files l = sort_files l'.
Proof.
  intros Hd H. induction H as [|f l l' H IH|f g l|l l' l'' H1 IH1 H2 IH2].
  - reflexivity.
  - change (insert_file f (sort_files l) = insert_file f (sort_files l')). inversion Hd; subst. rewrite IH by assumption. reflexivity.
  - cbn in Hd. inversion Hd as [|? ? Hn _]; subst. change (insert_file g (insert_file f (sort_files l)) = insert_file f (insert_file g (sort_files l))). apply insert_comm. intros E. apply Hn. left. symmetry. exact E.
  - rewrite IH1 by exact Hd. apply IH2. eapply Permutation_NoDup; [|exact Hd]. apply Permutation_map. exact H1.
Qed.

Lemma sort_sorted (l : list file) : StronglySorted (fun a b => str_le (fst a) (fst b) = true) l -> sort_files l = l.
Proof.
  induction 1 as [|f l _ IH H]; [reflexivity|]. change (insert_file f (sort_files l) = f :: l). rewrite IH. destruct l as [|g l]; [reflexivity|]. cbn [insert_file].
  inversion H as [|? ? Hg _]; subst. rewrite Hg. reflexivity.
Qed.
End Sort.

(** Numbers of the same width are ordered like their values. *)
Lemma fold_value s : forall a, fold_left (fun v c => 10 * v + (c - 48))%N s a = (a * 10 ^ N.of_nat (length s) + value s)%N.
Proof.
  unfold value. induction s as [|c s IH]; intros a; cbn [fold_left length]; [cbn; lia|].
  rewrite IH. rewrite (IH (10 * 0 + (c - 48))%N). rewrite Nat2N.inj_succ, N.pow_succ_r'. ring.
Qed.
Lemma value_cons c s : value (c :: s) = ((c - 48) * 10 ^ N.of_nat (length s) + value s)%N.
Proof. unfold value at 1. cbn [fold_left]. rewrite fold_value. ring. Qed.
Lemma value_bound s : Forall is_digit s -> (value s < 10 ^ N.of_nat (length s))%N.
Proof.
  induction 1 as [|c s Hc _ IH]; [cbn; lia|]. rewrite value_cons. cbn [length]. rewrite Nat2N.inj_succ, N.pow_succ_r'.
  unfold is_digit in Hc. nia.
Qed.
Lemma width_le a : forall b, Forall is_digit a -> Forall is_digit b -> length a = length b ->
  (value a <= value b)%N -> forall t t', str_le t t' = true -> str_le (a ++ t) (b ++ t') = true.
Proof.
  induction a as [|x a IH]; intros [|y b] Ha Hb L V t t' Ht; cbn in L; try lia; [exact Ht|].
  cbn [app str_le]. rewrite !value_cons in V. pose proof (value_bound a (Forall_inv_tail Ha)) as Ba.
  pose proof (value_bound b (Forall_inv_tail Hb)) as Bb. pose proof (Forall_inv Ha) as Hx. pose proof (Forall_inv Hb) as Hy.
  unfold is_digit in Hx, Hy. replace (length b) with (length a) in V, Bb by lia.
  destruct (N.ltb_spec x y); [reflexivity|]. destruct (N.ltb_spec y x).
  - exfalso. assert ((x - 48) >= (y - 48) + 1)%N by lia. nia.
  - assert (x = y) by lia. subst. apply IH; try (eapply Forall_inv_tail; eassumption); [lia|lia|exact Ht].
Qed.

From Verif Require Import Size_Proofs.
From Coq Require Import DecimalNat DecimalN.

(** The value of [str(n)]. *)
Lemma value_dec n : value (dec n) = N.of_nat n.
Proof.
  unfold dec. rewrite <- of_uint_value.
  assert (H : forall u, N.of_nat (Nat.of_uint u) = N.of_uint u).
  { intros u. rewrite of_uint_value. unfold Nat.of_uint.
    assert (G : forall u a, N.of_nat (Nat.of_uint_acc u a) = fold_left (fun v c => 10 * v + (c - 48))%N (digits u) (N.of_nat a)).
    { clear. induction u; intros a; cbn [Nat.of_uint_acc digits fold_left]; [reflexivity|..]; rewrite IHu, Nat.tail_mul_spec; f_equal; lia. }
    apply G. }
  rewrite <- H, DecimalNat.Unsigned.of_to. reflexivity.
Qed.

Lemma str_le_refl s : str_le s s = true.
Proof. destruct (str_le_total s s); assumption. Qed.

Lemma dec_le r r' suffix : length (dec r) = length (dec r') -> r <= r' -> str_le (dec r ++ suffix) (dec r' ++ suffix) = true.
Proof.
  intros L H. apply width_le; try apply dec_digits; [exact L| |apply str_le_refl]. rewrite !value_dec. lia.
Qed.

Lemma dec_one_digit r : r < 10 -> length (dec r) = 1.
Proof. intros H. do 10 (destruct r as [|r]; [reflexivity|]). lia. Qed.

Section Merged.
Context {chunk config : Type} (same : config -> config -> bool).
Notation idx := (index chunk config).

(** Names made of a number and a fixed suffix. *)
Section Suffix.
Context (suffix : str).
Definition named (w : nat * idx) : str * idx := (dec (fst w) ++ suffix, snd w).

Lemma named_sorted (ws : list (nat * idx)) : by_rank ws -> same_width ws -> 
  StronglySorted (fun a b => str_le (fst a) (fst b) = true) (map named ws).
Proof.
  unfold by_rank. induction ws as [|w ws IH]; cbn [map]; intros S W; [constructor|].
  inversion S as [|? ? S' F]; subst. constructor.
  - apply IH; [exact S'|]. intros r r' H1 H2. apply W; right; assumption.
  - apply Forall_map, Forall_forall. intros v Hv. unfold named; cbn [fst]. rewrite Forall_forall in F.
    assert (In (fst v) (map fst ws)) by (apply in_map; exact Hv).
    apply dec_le; [apply W; [left; reflexivity|right; assumption]|]. specialize (F (fst v) H). lia.
Qed.

Lemma named_inj (ws : list (nat * idx)) : by_rank ws -> NoDup (map fst (map named ws)).
Proof.
  unfold by_rank. rewrite map_map. intros S.
  assert (N : NoDup (map fst ws)).
  { induction S as [|r l S IH F]; constructor; [|exact IH]. intros Hin. rewrite Forall_forall in F. specialize (F _ Hin). lia. }
  clear S. induction ws as [|w ws IH]; cbn [map]; [constructor|]. inversion N as [|? ? H1 H2]; subst. constructor; [|apply IH; exact H2].
  intros Hin. apply in_map_iff in Hin. destruct Hin as (v & E & Hv). unfold named in E. cbn [fst] in E. apply app_inv_tail in E. apply dec_inj in E.
  apply H1. rewrite <- E. apply in_map. exact Hv.
Qed.

Lemma sort_named ws files : by_rank ws -> same_width ws -> Permutation files (map named ws) -> sort_files files = map named ws.
Proof.
  intros B W P. rewrite (sort_Permutation files (map named ws)).
  - apply sort_sorted, named_sorted; assumption.
  - eapply Permutation_NoDup; [|apply (named_inj ws B)]. apply Permutation_map, Permutation_sym. exact P.
  - exact P.
Qed.
End Suffix.

Lemma flat_map_map' {A B C} (f : A -> B) (g : B -> list C) l : flat_map g (map f l) = flat_map (fun x => g (f x)) l.
Proof. induction l as [|x l IH]; cbn; [reflexivity|]. rewrite IH. reflexivity. Qed.

Hypothesis same_ok : forall a b, same a b = true <-> a = b.
Lemma same_refl a : same a a = true. Proof. apply same_ok. reflexivity. Qed.

Lemma merge_loop_ok files : forall acc conf c,
  (conf = None \/ conf = Some c) -> Forall (fun f : str * idx => i_config (snd f) = Some c) files ->
  merge_loop same files acc conf = Ok (acc ++ flat_map (fun f => i_chunks (snd f)) files, match files with [] => conf | _ => Some c end).
Proof.
  induction files as [|[n i] files IH]; intros acc conf c Hc F; cbn [merge_loop flat_map snd]; [rewrite app_nil_r; reflexivity|].
  inversion F as [|? ? Hi F']; subst. cbn [snd] in Hi. rewrite Hi.
  assert (E : merge_loop same files (acc ++ i_chunks i) (Some c) = Ok (acc ++ i_chunks i ++ flat_map (fun f => i_chunks (snd f)) files, Some c)).
  { rewrite (IH _ (Some c) c) by (auto || exact F'). rewrite <- app_assoc. destruct files; reflexivity. }
  destruct Hc as [->| ->]; [exact E|]. cbn [same_opt]. rewrite same_refl. exact E.
Qed.

(** Files whose chunks were lost by nobody, whatever the names. *)
Lemma merge_all_once files existing node c :
  match existing with Some e => i_config e = Some c | None => True end ->
  Forall (fun f : str * idx => i_config (snd f) = Some c) files -> files <> [] ->
  exists name chunks, merge_no_wait same files node existing = Ok [(name, Index chunks (Some c))] /\
    name = match node with None => index_json | Some n => node_index n end /\
    exists new, chunks = match existing with Some e => i_chunks e | None => [] end ++ new /\
      Permutation new (flat_map (fun f => i_chunks (snd f)) files).
Proof.
  intros He F Hn. unfold merge_no_wait. pose proof (sort_perm files) as P.
  assert (F' : Forall (fun f : str * idx => i_config (snd f) = Some c) (sort_files files)).
  { eapply Permutation_Forall; [|exact F]. apply Permutation_sym. exact P. }
  assert (Hn' : sort_files files <> []).
  { intros E. rewrite E in P. apply Hn. apply Permutation_nil. exact P. }
  destruct existing as [e|]; cbn [fst snd].
  - rewrite (merge_loop_ok _ _ _ c) by (rewrite ?He; auto || exact F'). cbn [bind fst snd].
    destruct (sort_files files) as [|f fs] eqn:E; [congruence|]. do 2 eexists. split; [reflexivity|]. split; [reflexivity|].
    eexists. split; [reflexivity|]. rewrite <- E in *. apply Permutation_flat_map. exact P.
  - rewrite (merge_loop_ok _ _ _ c) by (auto || exact F'). cbn [bind fst snd].
    destruct (sort_files files) as [|f fs] eqn:E; [congruence|]. do 2 eexists. split; [reflexivity|]. split; [reflexivity|].
    eexists. split; [reflexivity|]. rewrite <- E in *. apply Permutation_flat_map. exact P.
Qed.

(** ... in the order of the ranks. *)
Lemma merge_named suffix ws files existing node c :
  by_rank ws -> same_width ws -> Permutation files (map (named suffix) ws) -> ws <> [] ->
  Forall (fun w => i_config (snd w) = Some c) ws ->
  match existing with Some e => i_config e = Some c | None => True end ->
  merge_no_wait same files node existing =
    Ok [(match node with None => index_json | Some n => node_index n end,
         Index (match existing with Some e => i_chunks e | None => [] end ++ in_order ws) (Some c))].
Proof.
  intros B W P Hn F He. unfold merge_no_wait. rewrite (sort_named suffix ws files B W P).
  assert (F' : Forall (fun f : str * idx => i_config (snd f) = Some c) (map (named suffix) ws)).
  { apply Forall_map. exact F. }
  rewrite (merge_loop_ok _ _ _ c); [| |exact F'].
  - cbn [bind fst snd]. rewrite flat_map_map'. unfold in_order. destruct ws; [congruence|]. cbn [map].
    destruct existing; reflexivity.
  - destruct existing as [e|]; cbn [snd]; [right; exact He|left; reflexivity].
Qed.

Lemma merge_by_rank (ws : list (nat * idx)) files existing c :
  by_rank ws -> same_width ws -> listing ws files -> ws <> [] ->
  Forall (fun w => i_config (snd w) = Some c) ws ->
  match existing with Some e => i_config e = Some c | None => True end ->
  merge_no_wait same files None existing =
    Ok [(index_json, Index (match existing with Some e => i_chunks e | None => [] end ++ in_order ws) (Some c))].
Proof. intros. apply (merge_named (codes ".index.json")); assumption. Qed.

(** Different configurations raise. *)
Lemma merge_loop_differ (files : list (str * idx)) : forall acc conf c, conf = Some c ->
  (exists f c', In f files /\ i_config (snd f) = Some c' /\ c' <> c) -> merge_loop same files acc conf = Err GenericException.
Proof.
  induction files as [|[n i] files IH]; intros acc conf c -> (f & c' & Hin & Hf & Hd); [contradiction|].
  cbn [merge_loop]. destruct (i_config i) as [ci|] eqn:Ei; cbn [same_opt]; [|reflexivity].
  destruct (same c ci) eqn:E; [|reflexivity]. apply same_ok in E. subst ci.
  destruct Hin as [<-|Hin]; [cbn [snd] in Hf; congruence|]. apply (IH _ _ c); [reflexivity|]. exists f, c'. auto.
Qed.

Lemma merge_differ (files : list (str * idx)) node existing f g c c' :
  In f files -> In g files -> i_config (snd f) = Some c -> i_config (snd g) = Some c' -> c <> c' ->
  merge_no_wait same files node existing = Err GenericException.
Proof.
  intros Hf Hg Cf Cg Hd. unfold merge_no_wait.
  assert (P : forall h, In h files -> In h (sort_files files)).
  { intros h Hh. eapply Permutation_in; [apply Permutation_sym, sort_perm|exact Hh]. }
  apply P in Hf, Hg. 
  assert (G : forall (files : list (str * idx)) acc conf, In f files -> In g files -> merge_loop same files acc conf = Err GenericException).
  { clear P Hf Hg. induction files0 as [|[n i] fs IH]; intros acc conf Hf Hg; [contradiction|].
    assert (L : forall c0 acc, i_config i = Some c0 -> merge_loop same fs acc (Some c0) = Err GenericException).
    { intros c0 acc0 E0. destruct Hf as [<-|Hf], Hg as [<-|Hg]; cbn [snd] in *.
      - congruence.
      - apply (merge_loop_differ _ _ _ c0); [reflexivity|]. exists g, c'. split; [exact Hg|]. split; [exact Cg|congruence].
      - apply (merge_loop_differ _ _ _ c0); [reflexivity|]. exists f, c. split; [exact Hf|]. split; [exact Cf|congruence].
      - apply IH; assumption. }
    cbn [merge_loop]. destruct conf as [k|].
    - destruct (same_opt same (Some k) (i_config i)) eqn:E; [|reflexivity]. destruct (i_config i) as [ci|] eqn:Ei; [|discriminate E].
      cbn in E. apply same_ok in E. subst ci. apply L. reflexivity.
    - destruct (i_config i) as [ci|] eqn:Ei; [apply L; reflexivity|].
      destruct Hf as [<-|Hf]; [cbn [snd] in Cf; congruence|]. destruct Hg as [<-|Hg]; [cbn [snd] in Cg; congruence|]. apply IH; assumption. }
  rewrite G by assumption. reflexivity.
Qed.

(** Several nodes. *)
Definition node_rank_of (nodes : list (list (nat * idx))) (existing : list chunk) (c : config) (n : nat) : list (nat * idx) :=
  combine (seq n (length nodes)) (map (fun ws => Index (existing ++ in_order ws) (Some c)) nodes).

Lemma node_merges_ok existing c : forall nodes dirs n,
  Forall2 (fun ws files => by_rank ws /\ same_width ws /\ listing ws files /\ ws <> [] /\ Forall (fun w => i_config (snd w) = Some c) ws) nodes dirs ->
  match existing with Some e => i_config e = Some c | None => True end ->
  node_merges same n dirs existing =
    Ok (map (named (codes "-index.json")) (node_rank_of nodes (match existing with Some e => i_chunks e | None => [] end) c n)).
Proof.
  induction nodes as [|ws nodes IH]; intros dirs n F He; inversion F as [|? files ? dirs' H F']; subst; [reflexivity|].
  destruct H as (B & W & L & Hn & Fc). cbn [node_merges].
  rewrite (merge_named (codes ".index.json") ws files existing (Some n) c B W L Hn Fc He). cbn [bind].
  rewrite (IH dirs' (S n) F' He). cbn [bind]. reflexivity.
Qed.

Lemma combine_seq_fst {A} (l : list A) n : map fst (combine (seq n (length l)) l) = seq n (length l).
Proof. revert n; induction l as [|x l IH]; intros n; cbn; [reflexivity|]. rewrite IH. reflexivity. Qed.
Lemma seq_sorted n k : StronglySorted lt (seq k n).
Proof. revert k; induction n as [|n IH]; intros k; cbn; constructor; [apply IH|]. apply Forall_forall. intros x Hx. apply in_seq in Hx. lia. Qed.

Lemma node_order nodes : forall existing c n,
  in_order (node_rank_of nodes existing c n) = flat_map (fun ws => existing ++ in_order ws) nodes.
Proof.
  unfold in_order, node_rank_of. induction nodes as [|ws nodes IH]; intros existing c n; [reflexivity|].
  cbn. rewrite IH. reflexivity.
Qed.

Lemma finish_nodes (nodes : list (list (nat * idx))) dirs existing c :
  Forall2 (fun ws files => by_rank ws /\ same_width ws /\ listing ws files /\ ws <> [] /\ Forall (fun w => i_config (snd w) = Some c) ws) nodes dirs ->
  match existing with Some e => i_config e = Some c | None => True end ->
  2 <= length nodes <= 10 ->
  finish same dirs existing =
    Ok [(index_json, Index (flat_map (fun ws => match existing with Some e => i_chunks e | None => [] end ++ in_order ws) nodes) (Some c))].
Proof.
  intros F He Hl. pose proof (node_merges_ok existing c nodes dirs 0 F He) as E.
  assert (Hd : length dirs = length nodes) by (clear - F; induction F; cbn; lia).
  unfold finish. destruct dirs as [|d1 [|d2 dirs]]; [cbn in Hd; lia|cbn in Hd; lia|].
  rewrite E. cbn [bind]. set (ex := match existing with Some e => i_chunks e | None => [] end) in *.
  assert (Hf : map fst (node_rank_of nodes ex c 0) = seq 0 (length nodes)).
  { unfold node_rank_of. rewrite <- (map_length (fun ws => Index (ex ++ in_order ws) (Some c)) nodes). apply combine_seq_fst. }
  rewrite (merge_named (codes "-index.json") (node_rank_of nodes ex c 0) _ None None c).
  - cbn [app]. rewrite node_order. reflexivity.
  - unfold by_rank. rewrite Hf. apply seq_sorted.
  - intros r r'. rewrite Hf. intros Hr Hr'. apply in_seq in Hr, Hr'. rewrite !dec_one_digit by lia. reflexivity.
  - reflexivity.
  - intros Hz. rewrite Hz in Hf. cbn in Hf. destruct (length nodes); [lia|discriminate Hf].
  - apply Forall_forall. intros [r i] Hin. unfold node_rank_of in Hin. apply in_combine_r in Hin. apply in_map_iff in Hin.
    destruct Hin as (ws & <- & _). reflexivity.
  - exact I.
Qed.
End Merged.

(** Merging datasets. *)
Lemma dec_split a a' x x' s s' : ~ is_digit x -> ~ is_digit x' -> dec a ++ x :: s = dec a' ++ x' :: s' -> a = a'.
Proof.
  intros Hx Hx' E. apply dec_inj. pose proof (dec_digits a) as Da. pose proof (dec_digits a') as Da'.
  revert E Da'. generalize (dec a'). induction Da as [|c l Hc _ IH]; intros l' E Da'.
  - destruct l' as [|c' l']; [reflexivity|]. cbn in E. injection E as -> _. pose proof (Forall_inv Da'). contradiction.
  - destruct l' as [|c' l']; cbn in E; [injection E as -> _; contradiction|]. injection E as -> E.
    f_equal. apply IH; [exact E|exact (Forall_inv_tail Da')].
Qed.
Lemma merged_name_inj c n n' : merged_name c n = merged_name c n' -> n = n'.
Proof.
  unfold merged_name. destruct c as [c|]; intros H; apply app_inv_head in H.
  - cbn [app] in H. apply dec_split in H; [exact H|exact not_digit_dot|exact not_digit_dot].
  - change (codes ".bin") with (dot :: codes "bin") in H. apply dec_split in H; [exact H|exact not_digit_dot|exact not_digit_dot].
Qed.

Lemma same_name_ok a b : same_name a b = true <-> a = b.
Proof. unfold same_name. destruct (list_eq_dec N.eq_dec a b); split; congruence. Qed.
Lemma same_comp_ok a b : same_comp a b = true <-> a = b.
Proof.
  destruct a as [a|], b as [b|]; cbn; try (split; congruence). rewrite same_name_ok. split; congruence.
Qed.

Section DS.
Context {format rest info : Type} (same_format : format -> format -> bool).
Notation ds := (dataset format rest info).

Definition copies (d : ds) (n : nat) : list (option (list N) * str) :=
  map (fun p => (d_files d (fst (snd p)), merged_name (d_compression d) (fst p))) (combine (seq n (length (d_chunks d))) (d_chunks d)).
Definition entries (d : ds) (n : nat) : list (str * info) :=
  map (fun p => (merged_name (d_compression d) (fst p), snd (snd p))) (combine (seq n (length (d_chunks d))) (d_chunks d)).

Lemma rename_chunks_ok (d : ds) chunks : forall n,
  rename_chunks d chunks n =
    (map (fun p => (merged_name (d_compression d) (fst p), snd (snd p))) (combine (seq n (length chunks)) chunks),
     map (fun p => (d_files d (fst (snd p)), merged_name (d_compression d) (fst p))) (combine (seq n (length chunks)) chunks),
     n + length chunks).
Proof.
  induction chunks as [|[old i] chunks IH]; intros n; cbn [rename_chunks length seq combine map].
  - rewrite Nat.add_0_r. reflexivity.
  - rewrite IH. cbn [fst snd]. rewrite Nat.add_succ_r. reflexivity.
Qed.

(** The copies and the new entries go together. *)
Lemma rename_all_ok comp (dss : list ds) : forall n,
  Forall (fun d => d_compression d = comp) dss ->
  map snd (snd (rename_all dss n)) = map fst (fst (rename_all dss n)) /\
  map fst (fst (rename_all dss n)) = map (merged_name comp) (seq n (length (flat_map (fun d => contents d) dss))) /\
  combine (map snd (fst (rename_all dss n))) (map fst (snd (rename_all dss n))) = flat_map contents dss /\
  length (fst (rename_all dss n)) = length (snd (rename_all dss n)).
Proof.
  induction dss as [|d dss IH]; intros n F; [repeat split; reflexivity|].
  inversion F as [|? ? Hc F']; subst. cbn [rename_all]. rewrite rename_chunks_ok. cbn [fst snd].
  set (N := n + length (d_chunks d)). destruct (IH N F') as (I1 & I2 & I3 & I4). clear IH.
  assert (Hm : length (contents d) = length (d_chunks d)) by (unfold contents; apply map_length).
  assert (G : forall (chunks : list (str * info)) k, length (combine (seq k (length chunks)) chunks) = length chunks).
  { intros chunks k. rewrite combine_length, seq_length. lia. }
  rewrite !map_app, !map_map, !app_length, !map_length, !G, I1, I2, I4. cbn [fst snd].
  repeat split.
  - cbn [flat_map]. rewrite app_length, Hm, seq_app, map_app. fold N. f_equal.
    rewrite <- (map_map fst (merged_name (d_compression d))). rewrite combine_seq_fst. reflexivity.
  - rewrite combine_app by (rewrite !map_length; reflexivity). rewrite I3. cbn [flat_map]. f_equal.
    unfold contents. generalize n at 1 2. generalize (d_chunks d). induction l as [|[o i] l IHl]; intros k; cbn; [reflexivity|].
    rewrite IHl. reflexivity.
Qed.

Lemma copy_all_ok cs : forall out,
  Forall (fun c => fst c <> None) cs -> NoDup (map snd cs) ->
  exists files, copy_all out cs = Ok files /\
    (forall f n, In (f, n) cs -> files n = f) /\ (forall n, ~ In n (map snd cs) -> files n = out n).
Proof.
  induction cs as [|[f n] cs IH]; intros out F N; [exists out; cbn; split; [reflexivity|]; split; [intros ? ? []|auto]|].
  inversion F as [|? ? Hf F']; subst. cbn [map snd] in N. inversion N as [|? ? Hn N']; subst. cbn [fst] in Hf.
  destruct f as [b|]; [|congruence]. cbn [copy_all copy_one fst snd bind].
  destruct (IH (fun m => if same_name m n then Some b else out m) F' N') as (files & E & A & O). exists files. split; [exact E|]. split.
  - intros f m [Heq|Hin]; [|apply A; exact Hin]. injection Heq as <- <-. rewrite O by exact Hn.
    replace (same_name n n) with true by (symmetry; apply same_name_ok; reflexivity). reflexivity.
  - intros m Hm. cbn [map snd In] in Hm. rewrite O by tauto. destruct (same_name m n) eqn:Es; [|reflexivity].
    apply same_name_ok in Es. subst. tauto.
Qed.

Lemma merge_datasets_ok d0 d1 (dss : list ds) out order :
  (forall a b, same_format a b = true <-> a = b) ->
  (forall cs, Permutation (order cs) cs) ->
  Forall (fun d => d_format d = d_format d0 /\ d_compression d = d_compression d0) (d1 :: dss) ->
  Forall complete (d0 :: d1 :: dss) ->
  exists m, merge_datasets same_format (d0 :: d1 :: dss) out order = Ok m /\
    d_format m = d_format d0 /\ d_compression m = d_compression d0 /\ d_rest m = d_rest d0 /\
    contents m = flat_map contents (d0 :: d1 :: dss) /\ NoDup (map fst (d_chunks m)) /\
    map fst (d_chunks m) = map (merged_name (d_compression d0)) (seq 0 (length (contents m))).
Proof.
  intros Hs Ho Fc Fx. set (all := d0 :: d1 :: dss) in *.
  assert (Fa : Forall (fun d => d_compression d = d_compression d0) all).
  { constructor; [reflexivity|]. eapply Forall_impl; [|exact Fc]. cbn; tauto. }
  destruct (rename_all_ok (d_compression d0) all 0 Fa) as (R1 & R2 & R3 & R4).
  unfold merge_datasets. unfold all at 1. cbn iota.
  match goal with |- context [existsb ?p ?l] => replace (existsb p l) with false end.
  2:{ symmetry. apply not_true_iff_false. intros H. apply existsb_exists in H. destruct H as (d & Hd & H).
      rewrite Forall_forall in Fc. destruct (Fc d Hd) as [H1 H2].
      assert (E1 : same_format (d_format d0) (d_format d) = true) by (apply Hs; symmetry; exact H1).
      assert (E2 : same_comp (d_compression d0) (d_compression d) = true) by (apply same_comp_ok; symmetry; exact H2).
      rewrite E1, E2 in H. discriminate H. }
  fold all. set (r := rename_all all 0) in *.
  assert (ND : NoDup (map snd (snd r))).
  { rewrite R1, R2. apply FinFun.Injective_map_NoDup; [intros a b; apply merged_name_inj|apply seq_NoDup]. }
  assert (FN : Forall (fun c => fst c <> None) (snd r)).
  { assert (G : Forall (fun c => c <> None) (map fst (snd r))).
    { assert (E : map fst (snd r) = map snd (flat_map contents all)).
      { rewrite <- R3. assert (L : length (map snd (fst r)) = length (map fst (snd r))) by (rewrite !map_length; exact R4).
        revert L. generalize (map snd (fst r)) (map fst (snd r)). clear.
        induction l as [|x l IH]; intros [|y l'] L; cbn in *; try lia; [reflexivity|]. rewrite <- IH by lia. reflexivity. }
      rewrite E. clear - Fx. induction Fx as [|d l Hd _ IH]; [constructor|]. cbn [flat_map]. rewrite map_app. apply Forall_app. split; [|exact IH].
      unfold contents. rewrite map_map. apply Forall_map. cbn. exact Hd. }
    rewrite Forall_map in G. exact G. }
  destruct (copy_all_ok (order (snd r)) out) as (files & E & A & O).
  - eapply Permutation_Forall; [apply Permutation_sym, Ho|exact FN].
  - eapply Permutation_NoDup; [|exact ND]. apply Permutation_map, Permutation_sym, Ho.
  - rewrite E. cbn [bind]. eexists. split; [reflexivity|]. cbn [d_format d_compression d_rest d_chunks].
    assert (C : contents (Dataset (d_format d0) (d_compression d0) (d_rest d0) (fst r) files) = flat_map contents all).
    { rewrite <- R3. unfold contents. cbn [d_chunks d_files].
      assert (A' : forall f n, In (f, n) (snd r) -> files n = f).
      { intros f n Hin. apply A. eapply Permutation_in; [apply Permutation_sym, Ho|exact Hin]. }
      revert R1 R4 A'. generalize (fst r) (snd r). clear. induction l as [|[n i] l IH]; intros [|[f n'] l'] R1 R4 A; cbn in *; try lia; [reflexivity|].
      injection R1 as -> R1. rewrite (A f n (or_introl eq_refl)). f_equal. apply IH; [exact R1|lia|]. intros g k Hin. apply A. right. exact Hin. }
    split; [reflexivity|]. split; [reflexivity|]. split; [reflexivity|]. split; [exact C|]. split; [rewrite <- R1; exact ND|]. rewrite C. exact R2.
Qed.

Lemma merge_datasets_differ d0 (dss : list ds) out order d :
  (forall a b, same_format a b = true <-> a = b) ->
  In d dss -> d_format d <> d_format d0 \/ d_compression d <> d_compression d0 ->
  merge_datasets same_format (d0 :: dss) out order = Err ValueError.
Proof.
  intros Hs Hd H. unfold merge_datasets. destruct dss as [|d1 dss]; [reflexivity|].
  match goal with |- context [existsb ?p ?l] => replace (existsb p l) with true; [reflexivity|] end.
  symmetry. apply existsb_exists. exists d. split; [exact Hd|]. apply orb_true_iff.
  destruct (same_format (d_format d0) (d_format d)) eqn:E1; [right|left; reflexivity].
  destruct (same_comp (d_compression d0) (d_compression d)) eqn:E2; [|reflexivity].
  apply Hs in E1. apply same_comp_ok in E2. destruct H as [H|H]; congruence.
Qed.
End DS.

(** Workers without output leave no file. *)
Section Quiet.
Context {chunk config : Type} (same : config -> config -> bool).
Notation idx := (index chunk config).
Hypothesis same_ok : forall a b, same a b = true <-> a = b.
Definition busy (w : nat * idx) : bool := match i_chunks (snd w) with [] => false | _ => true end.

Lemma index_files_busy (ws : list (nat * idx)) :
  flat_map (fun w => index_file (fst w) (snd w)) ws = map (fun w => (worker_index (fst w), snd w)) (filter busy ws).
Proof.
  induction ws as [|[r i] ws IH]; [reflexivity|]. cbn [flat_map filter fst snd]. rewrite IH. unfold index_file, busy at 2. cbn [snd].
  destruct (i_chunks i); reflexivity.
Qed.
Lemma in_order_busy (ws : list (nat * idx)) : in_order (filter busy ws) = in_order ws.
Proof.
  unfold in_order. induction ws as [|[r i] ws IH]; [reflexivity|]. cbn [filter flat_map snd]. unfold busy at 1. cbn [snd].
  destruct (i_chunks i) eqn:E; cbn [flat_map snd app]; rewrite IH, ?E; reflexivity.
Qed.
Lemma by_rank_filter (ws : list (nat * idx)) : by_rank ws -> by_rank (filter busy ws).
Proof.
  unfold by_rank. induction ws as [|w ws IH]; [auto|]. cbn [map filter]. intros S. inversion S as [|? ? S' F]; subst.
  destruct (busy w); [|auto]. cbn [map]. constructor; [auto|]. rewrite Forall_forall in *. intros r Hr. apply F.
  apply in_map_iff in Hr. destruct Hr as (v & <- & Hv). apply in_map. apply filter_In in Hv. tauto.
Qed.
Lemma same_width_filter (ws : list (nat * idx)) : same_width ws -> same_width (filter busy ws).
Proof.
  intros W r r' Hr Hr'. apply W.
  - apply in_map_iff in Hr. destruct Hr as (v & <- & Hv). apply in_map. apply filter_In in Hv. tauto.
  - apply in_map_iff in Hr'. destruct Hr' as (v & <- & Hv). apply in_map. apply filter_In in Hv. tauto.
Qed.

Lemma busy_none (ws : list (nat * idx)) : filter busy ws = [] -> in_order ws = [].
Proof. intros H. rewrite <- in_order_busy, H. reflexivity. Qed.

Lemma merge_workers (ws : list (nat * idx)) files existing c :
  by_rank ws -> same_width ws -> Permutation files (flat_map (fun w => index_file (fst w) (snd w)) ws) ->
  in_order ws <> [] ->
  Forall (fun w => i_chunks (snd w) <> [] -> i_config (snd w) = Some c) ws ->
  match existing with Some e => i_config e = Some c | None => True end ->
  merge_no_wait same files None existing =
    Ok [(index_json, Index (match existing with Some e => i_chunks e | None => [] end ++ in_order ws) (Some c))].
Proof.
  intros B W P Hn F He. rewrite index_files_busy in P. rewrite <- in_order_busy.
  apply (merge_by_rank same same_ok).
  - apply by_rank_filter; exact B.
  - apply same_width_filter; exact W.
  - exact P.
  - intros H. apply Hn. apply busy_none. exact H.
  - apply Forall_forall. intros w Hw. apply filter_In in Hw. destruct Hw as [Hin Hb]. rewrite Forall_forall in F. apply (F w Hin).
    unfold busy in Hb. intros E. rewrite E in Hb. discriminate Hb.
  - exact He.
Qed.

Lemma merge_nothing (e : idx) node : merge_no_wait same [] node (Some e) = Ok [(match node with None => index_json | Some n => node_index n end, e)].
Proof. destruct e. reflexivity. Qed.

(** Waiting. *)
Lemma merge_waits expected (looks : list (list (str * idx))) :
  Forall (fun files => length files <> expected /\ ~ In index_json (map fst files)) looks ->
  merge_wait same expected looks = None.
Proof.
  induction 1 as [|files looks [Hl Hn] _ IH]; [reflexivity|]. cbn [merge_wait].
  match goal with |- (if ?b then _ else _) = _ => replace b with false end.
  - destruct (Nat.eqb_spec (length files) expected); [congruence|exact IH].
  - symmetry. apply not_true_iff_false. intros H. apply existsb_exists in H. destruct H as (f & Hf & H).
    destruct (list_eq_dec N.eq_dec (fst f) index_json) as [E|]; [|discriminate H]. apply Hn. rewrite <- E. apply in_map. exact Hf.
Qed.
Lemma merge_wait_app expected (looks looks' : list (list (str * idx))) :
  merge_wait same expected looks = None -> merge_wait same expected (looks ++ looks') = merge_wait same expected looks'.
Proof.
  induction looks as [|files looks IH]; intros H; [reflexivity|]. cbn [merge_wait app] in *.
  match goal with |- (if ?b then _ else _) = _ => destruct b end; [discriminate H|].
  destruct (length files =? expected); [discriminate H|]. apply IH. exact H.
Qed.
Lemma worker_index_not_final r : worker_index r <> index_json.
Proof.
  unfold worker_index, index_json. pose proof (dec_digits r) as D.
  assert (Hne : dec r <> []).
  { intros E. pose proof (f_equal value E) as V. rewrite value_dec in V. destruct r; [cbn in E; discriminate E|cbn in V; lia]. }
  intros E. destruct (dec r) as [|x l]; [congruence|]. pose proof (Forall_inv D) as Hx. unfold is_digit in Hx.
  cbn in E. injection E as -> _. lia.
Qed.

Lemma merge_waited (ws : list (nat * idx)) early files later c :
  by_rank ws -> same_width ws -> listing ws files -> ws <> [] ->
  Forall (fun w => i_config (snd w) = Some c) ws ->
  Forall (fun look => length look < length ws /\ ~ In index_json (map fst look)) early ->
  merge_wait same (length ws) (early ++ files :: later) = Some (Ok [(index_json, Index (in_order ws) (Some c))]).
Proof.
  intros B W L Hn F Fe. rewrite merge_wait_app.
  2:{ apply merge_waits. eapply Forall_impl; [|exact Fe]. cbn. intros a [H1 H2]. split; [lia|exact H2]. }
  cbn [merge_wait].
  match goal with |- (if ?b then _ else _) = _ => replace b with false end.
  - pose proof (Permutation_length L) as Hl. rewrite map_length in Hl. rewrite Hl, Nat.eqb_refl.
    rewrite (merge_by_rank same same_ok ws files None c B W L Hn F I). reflexivity.
  - symmetry. apply not_true_iff_false. intros H. apply existsb_exists in H. destruct H as (f & Hf & H).
    destruct (list_eq_dec N.eq_dec (fst f) index_json) as [E|]; [|discriminate H].
    eapply Permutation_in in Hf; [|exact L]. apply in_map_iff in Hf. destruct Hf as (w & <- & _). exact (worker_index_not_final _ E).
Qed.
End Quiet.

Lemma merge_existing_differ {chunk config} (same : config -> config -> bool) files node (e : index chunk config) f c c' :
  (forall a b, same a b = true <-> a = b) ->
  i_config e = Some c -> In f files -> i_config (snd f) = Some c' -> c' <> c ->
  merge_no_wait same files node (Some e) = Err GenericException.
Proof.
  intros Hs He Hf Hc Hd. unfold merge_no_wait. cbn [fst snd]. rewrite (merge_loop_differ same Hs _ _ _ c He); [reflexivity|].
  exists f, c'. split; [|split; [exact Hc|exact Hd]]. eapply Permutation_in; [apply Permutation_sym, sort_perm|exact Hf].
Qed.

Lemma copy_all_missing cs : forall out, Exists (fun c => fst c = None) cs -> copy_all out cs = Err FileNotFoundError.
Proof.
  induction cs as [|[f n] cs IH]; intros out H; [inversion H|]. cbn [copy_all copy_one fst]. destruct f as [b|]; [|reflexivity].
  cbn [bind]. apply IH. inversion H as [? ? E|]; subst; [discriminate E|assumption].
Qed.

Lemma merge_datasets_missing {format rest info} (same_format : format -> format -> bool) d0 d1 (dss : list (dataset format rest info)) out order :
  (forall a b, same_format a b = true <-> a = b) ->
  (forall cs, Permutation (order cs) cs) ->
  Exists (fun d => ~ complete d) (d0 :: d1 :: dss) ->
  merge_datasets same_format (d0 :: d1 :: dss) out order = Err ValueError \/
  merge_datasets same_format (d0 :: d1 :: dss) out order = Err FileNotFoundError.
Proof.
  intros Hs Ho Hx. unfold merge_datasets.
  match goal with |- context [existsb ?p ?l] => destruct (existsb p l) end; [left; reflexivity|right].
  rewrite copy_all_missing; [reflexivity|].
  assert (G : forall (l : list (dataset format rest info)) n, Exists (fun d => ~ complete d) l -> Exists (fun c => fst c = None) (snd (rename_all l n))).
  { clear. induction l as [|d l IH]; intros n H; [inversion H|]. cbn [rename_all]. rewrite rename_chunks_ok. cbn [fst snd].
    apply Exists_app. inversion H as [? ? Hd|? ? Hl]; subst; [left|right; apply IH; exact Hl].
    assert (G : forall (cs : list (str * info)) k, ~ Forall (fun c => d_files d (fst c) <> None) cs ->
        Exists (fun c : option (list N) * str => fst c = None)
          (map (fun p => (d_files d (fst (snd p)), merged_name (d_compression d) (fst p))) (combine (seq k (length cs)) cs))).
    { induction cs as [|[o i] cs IHc]; intros k Hn; [exfalso; apply Hn; constructor|]. cbn [length seq combine map fst snd].
      destruct (d_files d o) as [b|] eqn:E; [right|left; reflexivity]. apply IHc. intros F. apply Hn. constructor; [cbn; congruence|exact F]. }
    apply G. exact Hd. }
  specialize (G (d0 :: d1 :: dss) 0 Hx). apply Exists_exists in G. destruct G as (c & Hin & E).
  apply Exists_exists. exists c. split; [|exact E]. eapply Permutation_in; [apply Permutation_sym, Ho|exact Hin].
Qed.
