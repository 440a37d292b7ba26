From Verif Require Import Base Format_Model Format_Proofs Loader_Model Loader_Spec.
Local Ltac Zify.zify_post_hook ::= idtac.

Lemma upd_same {A} (f : nat -> A) k v : upd f k v k = v.
Proof. unfold upd. rewrite Nat.eqb_refl. reflexivity. Qed.
Lemma upd_other {A} (f : nat -> A) k v j : j <> k -> upd f k v j = f j.
Proof. intros H. unfold upd. apply Nat.eqb_neq in H. rewrite H. reflexivity. Qed.

(** * PyTree *)

Lemma last_indep {A} (l : list A) a b : l <> [] -> last l a = last l b.
Proof. induction l as [|x l IH]; [congruence|]. intros _. destruct l; [reflexivity|]. apply IH. discriminate. Qed.

Lemma pt_loads_open : forall cs p, pt_loads (Ptl (Some p) (Some p)) cs = Ok (Ptl (Some (last cs p)) (Some (last cs p)), cs).
Proof.
  induction cs as [|c cs IH]; intros p; [reflexivity|]. cbn [pt_loads]. unfold pt_load. cbn [pt_path].
  assert (E : last (c :: cs) p = last cs c). { destruct cs as [|d cs]; [reflexivity|]. change (last (d :: cs) p = last (d :: cs) c). apply last_indep. discriminate. }
  destruct (Nat.eqb_spec p c) as [->|N]; cbn [pt_open bind fst snd]; rewrite IH, E; reflexivity.
Qed.

(** A first epoch, or one after [close]. *)
Lemma pt_loads_first c cs p : p <> Some c -> pt_loads (Ptl p None) (c :: cs) = Ok (Ptl (Some (last cs c)) (Some (last cs c)), c :: cs).
Proof.
  intros H. cbn [pt_loads]. unfold pt_load. cbn [pt_path]. destruct p as [p|].
  - destruct (Nat.eqb_spec p c) as [->|N]; [congruence|]. cbn [pt_open bind fst snd]. rewrite pt_loads_open. reflexivity.
  - cbn [pt_open bind fst snd]. rewrite pt_loads_open. reflexivity.
Qed.
Lemma pt_loads_same c cs : pt_loads (Ptl (Some c) None) (c :: cs) = Err AssertionError.
Proof. cbn [pt_loads]. unfold pt_load. cbn [pt_path]. rewrite Nat.eqb_refl. reflexivity. Qed.

Lemma pt_epochs_spec : forall es p, Forall (fun e => e <> []) es ->
  (exists st, pt_epochs (Ptl p None) es = Ok (st, es) /\ match es with e :: _ => p <> Some (hd 0 e) | [] => True end
     /\ forall pre a b post, es = pre ++ a :: b :: post -> last a 0 <> hd 0 b)
  \/ (pt_epochs (Ptl p None) es = Err AssertionError
      /\ (match es with e :: _ => p = Some (hd 0 e) | [] => False end \/ exists pre a b post, es = pre ++ a :: b :: post /\ last a 0 = hd 0 b)).
Proof.
  induction es as [|e es IH]; intros p H.
  - left. exists (Ptl p None). split; [reflexivity|split; [exact I|]]. intros [|? [|? ?]] ? ? ?; discriminate.
  - apply Forall_cons_iff in H. destruct H as [He H]. destruct e as [|c cs]; [congruence|]. cbn [pt_epochs].
    assert (D : p = Some c \/ p <> Some c) by (destruct p as [p|]; [destruct (Nat.eq_dec p c); [left|right]; congruence|right; discriminate]).
    destruct D as [->|D].
    + right. rewrite pt_loads_same. cbn [bind]. split; [reflexivity|]. left. reflexivity.
    + rewrite pt_loads_first by exact D. set (lst := last cs c). cbn [bind fst snd]. change (pt_close (Ptl (Some lst) (Some lst))) with (Ptl (Some lst) None).
      assert (EL : last (c :: cs) 0 = lst). { unfold lst. destruct cs as [|d cs]; [reflexivity|]. change (last (d :: cs) 0 = last (d :: cs) c). apply last_indep. discriminate. }
      specialize (IH (Some lst) H). destruct IH as [(st & E & E1 & E2)|(E & E1)].
      * left. rewrite E. cbn [bind fst snd]. exists st. split; [reflexivity|split; [exact D|]].
        intros pre a b post X. destruct pre as [|q pre]; cbn in X.
        -- injection X as <- ->. rewrite EL. congruence.
        -- injection X as <- X. apply (E2 _ _ _ _ X).
      * right. rewrite E. cbn [bind]. split; [reflexivity|]. right. destruct es as [|e2 es]; [destruct E1 as [[]|(pre & a & b & post & X & _)]; destruct pre; discriminate|].
        destruct E1 as [E1|(pre & a & b & post & X & X2)].
        -- exists [], (c :: cs), e2, es. split; [reflexivity|]. rewrite EL. congruence.
        -- exists ((c :: cs) :: pre), a, b, post. rewrite X. split; [reflexivity|exact X2].
Qed.

(** * Waiting *)

Lemma wait_turns_spec f m : forall obs rq,
  snd (wait_turns f m rq obs) <= (if rq then 0 else 1)
  /\ (fst (wait_turns f m rq obs) = Waiting -> Forall (fun o => fst o <= m /\ snd o = false) obs)
  /\ (fst (wait_turns f m rq obs) = Ready -> exists pre t post, obs = pre ++ (t, true) :: post /\ t <= m /\ Forall (fun o => fst o <= m /\ snd o = false) pre)
  /\ (forall e, fst (wait_turns f m rq obs) = Raised e -> e = FileNotFoundError /\ exists pre t b post, obs = pre ++ (t, b) :: post /\ m < t /\ Forall (fun o => fst o <= m /\ snd o = false) pre)
  /\ (rq = false -> fst (wait_turns f m rq obs) = Waiting -> snd (wait_turns f m rq obs) = 0 -> Forall (fun o => fst o <= f) obs).
Proof.
  induction obs as [|[t b] obs IH]; intros rq.
  - cbn. repeat split; try discriminate; auto; try (intros; constructor). destruct rq; lia.
  - cbn [wait_turns]. destruct (Nat.ltb_spec m t) as [Hm|Hm].
    + cbn [fst snd]. split; [destruct rq; cbn [negb andb]; [lia|destruct (f <? t); lia]|]. split; [discriminate|split; [discriminate|split; [|discriminate]]].
      intros e E. injection E as <-. split; [reflexivity|]. exists [], t, b, obs. auto.
    + destruct b.
      * cbn [fst snd]. split; [destruct rq; cbn [negb andb]; [lia|destruct (f <? t); lia]|]. split; [discriminate|split; [|split; [discriminate|discriminate]]].
        intros _. exists [], t, obs. auto.
      * cbn [fst snd]. destruct (IH (rq || (negb rq && (f <? t)))) as (I1 & I2 & I3 & I4 & I5).
        split; [destruct rq; cbn [negb andb orb] in *; [exact I1|destruct (f <? t); cbn in *; lia]|].
        split; [intros E; constructor; [cbn; auto|apply I2, E]|]. split; [|split].
        -- intros E. destruct (I3 E) as (pre & t' & post & -> & Ht & Hp). exists ((t, false) :: pre), t', post. split; [reflexivity|split; [exact Ht|constructor; [cbn; auto|exact Hp]]].
        -- intros e E. destruct (I4 e E) as (E0 & pre & t' & b' & post & -> & Ht & Hp). split; [exact E0|]. exists ((t, false) :: pre), t', b', post. split; [reflexivity|split; [exact Ht|constructor; [cbn; auto|exact Hp]]].
        -- intros -> E E0. cbn [negb andb orb] in *. destruct (Nat.ltb_spec f t) as [Hf|Hf]; cbn in *; [lia|]. constructor; [exact Hf|]. apply I5; auto.
Qed.

(** * Parquet *)

Section P.
Context {row : Type}.

Lemma nth_error_concat_uniform n : 1 <= n -> forall (full : list (list row)) last i, Forall (fun g => length g = n) full -> length last <= n ->
  i < length (concat (full ++ [last])) ->
  exists g, nth_error (full ++ [last]) (i / n) = Some g /\ nth_error g (i mod n) = nth_error (concat (full ++ [last])) i.
Proof.
  intros Hn. induction full as [|f full IH]; intros last i HF Hl Hi.
  - cbn in *. rewrite app_nil_r in *. assert (i < n) by lia. rewrite Nat.div_small, Nat.mod_small by lia. exists last. auto.
  - apply Forall_cons_iff in HF. destruct HF as [Hf HF]. cbn [app concat] in *. rewrite app_length in Hi.
    destruct (le_lt_dec n i) as [H|H].
    + destruct (IH last (i - n) HF Hl) as (g & G1 & G2); [lia|]. exists g.
      assert (E1 : i / n = S ((i - n) / n)). { replace i with ((i - n) + 1 * n) at 1 by lia. rewrite Nat.div_add by lia. lia. }
      assert (E2 : i mod n = (i - n) mod n). { replace i with ((i - n) + 1 * n) at 1 by lia. apply Nat.mod_add. lia. }
      rewrite E1, E2. cbn [nth_error]. split; [exact G1|]. rewrite G2. rewrite nth_error_app2 by lia. rewrite Hf. reflexivity.
    + rewrite Nat.div_small, Nat.mod_small by lia. exists f. split; [reflexivity|]. rewrite nth_error_app1 by lia. reflexivity.
Qed.

(** The first group has the common size. *)
Lemma uniform_first (groups : list (list row)) : uniform groups -> exists g0 rest full last, groups = g0 :: rest /\ groups = full ++ [last]
  /\ Forall (fun g => length g = length g0) full /\ 1 <= length last <= length g0.
Proof.
  intros (n & full & last & -> & HF & Hl). destruct full as [|f full].
  - exists last, [], [], last. repeat split; auto; lia.
  - apply Forall_cons_iff in HF. destruct HF as [<- HF]. exists f, (full ++ [last]), (f :: full), last. repeat split; auto; try lia.
Qed.

Definition fetch_group (groups : list (list row)) (st : pstate) (gi : nat) : res (list row * nat) :=
  match st gi with
  | Some (df, c) => Ok (df, S c)
  | None => match nth_error groups gi with None => Err GenericException | Some df => Ok (df, 1) end
  end.
Lemma p_read_unfold groups g0 rest st i : groups = g0 :: rest -> length g0 <> 0 ->
  p_read groups st i = bind (fetch_group groups st (i / length g0)) (fun dc =>
    match nth_error (fst dc) (i mod length g0) with None => Err GenericException
    | Some r => Ok (upd st (i / length g0) (if length g0 <=? snd dc then None else Some dc), r) end).
Proof. intros -> H. unfold p_read. apply Nat.eqb_neq in H. rewrite H. reflexivity. Qed.

(** Cached groups are groups of the file. *)
Definition PI (groups : list (list row)) (st : pstate) : Prop := forall g df c, st g = Some (df, c) -> nth_error groups g = Some df.

Lemma p_read_ok groups st i : uniform groups -> PI groups st -> i < length (concat groups) ->
  exists st' r, p_read groups st i = Ok (st', r) /\ nth_error (concat groups) i = Some r /\ PI groups st'.
Proof.
  intros HU HP Hi. destruct (uniform_first groups HU) as (g0 & rest & full & last & E0 & E1 & HF & Hl).
  destruct (nth_error_concat_uniform (length g0) ltac:(lia) full last i HF ltac:(lia)) as (g & G1 & G2); [rewrite <- E1; exact Hi|]. rewrite <- E1 in G1, G2.
  assert (HR : exists r, nth_error (concat groups) i = Some r). { destruct (nth_error (concat groups) i) eqn:E; [eauto|]. apply nth_error_None in E. lia. }
  destruct HR as (r & HR). rewrite (p_read_unfold groups g0 rest st i E0) by lia.
  assert (D : exists c, fetch_group groups st (i / length g0) = Ok (g, c)).
  { unfold fetch_group. destruct (st (i / length g0)) as [[df c]|] eqn:E; [|rewrite G1; eauto]. rewrite (HP _ _ _ E) in G1. injection G1 as ->. eauto. }
  destruct D as (c & D). rewrite D. cbn [bind fst snd]. rewrite G2, HR. eexists _, r. split; [reflexivity|]. split; [reflexivity|].
  intros j df c' E. destruct (Nat.eq_dec j (i / length g0)) as [->|N].
  - rewrite upd_same in E. destruct (length g0 <=? c); [discriminate|]. injection E as <- <-. exact G1.
  - rewrite upd_other in E by exact N. apply (HP _ _ _ E).
Qed.

Lemma p_reads_ok groups : uniform groups -> forall is_ st, PI groups st -> Forall (fun i => i < length (concat groups)) is_ ->
  exists st' rs, p_reads groups st is_ = Ok (st', rs) /\ Forall2 (fun i r => nth_error (concat groups) i = Some r) is_ rs /\ PI groups st'.
Proof.
  intros HU. induction is_ as [|i is_ IH]; intros st HP HF; [exists st, []; repeat split; auto|].
  apply Forall_cons_iff in HF. destruct HF as [Hi HF]. destruct (p_read_ok groups st i HU HP Hi) as (st1 & r & E & Hr & HP1).
  destruct (IH st1 HP1 HF) as (st2 & rs & E2 & HR & HP2). cbn [p_reads]. rewrite E. cbn [bind fst snd]. rewrite E2. cbn [bind fst snd].
  exists st2, (r :: rs). repeat split; auto.
Qed.

(** Read counts when no row is read twice. *)
Definition cnt (n g : nat) (l : list nat) : nat := length (filter (fun i => i / n =? g) l).
Definition CR (n : nat) (groups : list (list row)) (st : pstate (row := row)) (seen : list nat) : Prop :=
  forall g, match st g with None => cnt n g seen = 0 \/ n <= cnt n g seen | Some (df, c) => c = cnt n g seen /\ c < n end.

Lemma cnt_bound n g l : 1 <= n -> NoDup l -> cnt n g l <= n.
Proof.
  intros Hn Hd. unfold cnt. transitivity (length (seq (g * n) n)); [|rewrite seq_length; lia]. apply NoDup_incl_length; [apply NoDup_filter, Hd|].
  intros i Hi. apply filter_In in Hi. destruct Hi as [_ Hi]. apply Nat.eqb_eq in Hi. apply in_seq. pose proof (Nat.div_mod i n ltac:(lia)). pose proof (Nat.mod_upper_bound i n ltac:(lia)). nia.
Qed.
Lemma cnt_cons n g i l : cnt n g (i :: l) = (if i / n =? g then 1 else 0) + cnt n g l.
Proof. unfold cnt. cbn [filter]. destruct (i / n =? g); reflexivity. Qed.

Lemma p_read_counts groups g0 rest st i seen st' r : groups = g0 :: rest -> 1 <= length g0 -> CR (length g0) groups st seen -> NoDup (i :: seen) ->
  p_read groups st i = Ok (st', r) -> CR (length g0) groups st' (i :: seen).
Proof.
  intros E0 Hn HC Hd E. set (n := length g0) in *. rewrite (p_read_unfold groups g0 rest st i E0) in E by (fold n; lia). fold n in E.
  pose proof (cnt_bound n (i / n) (i :: seen) Hn Hd) as HB. rewrite cnt_cons, Nat.eqb_refl in HB.
  assert (D : exists df, fetch_group groups st (i / n) = Ok (df, S (cnt n (i / n) seen)) \/ fetch_group groups st (i / n) = Err GenericException).
  { unfold fetch_group. specialize (HC (i / n)). destruct (st (i / n)) as [[df c]|] eqn:Es.
    - destruct HC as [-> _]. exists df. auto.
    - destruct (nth_error groups (i / n)) as [df|]; [|exists []; auto]. exists df. left. destruct HC as [-> | HC]; [reflexivity|lia]. }
  destruct D as (df & [D|D]); rewrite D in E; cbn [bind fst snd] in E; [|discriminate].
  destruct (nth_error df (i mod n)) as [r0|]; [|discriminate]. injection E as <- <-.
  intros g. rewrite cnt_cons. destruct (Nat.eqb_spec (i / n) g) as [<-|N].
  - rewrite upd_same. destruct (Nat.leb_spec n (S (cnt n (i / n) seen))); [right; lia|split; lia].
  - rewrite upd_other by congruence. apply HC.
Qed.

Lemma NoDup_app_right {A} (a b : list A) : NoDup (a ++ b) -> NoDup b.
Proof. induction a as [|x a IH]; [auto|]. intros H. inversion H. auto. Qed.

Lemma p_reads_counts groups g0 rest : groups = g0 :: rest -> 1 <= length g0 -> forall is_ seen st st' rs, CR (length g0) groups st seen -> NoDup (rev is_ ++ seen) ->
  p_reads groups st is_ = Ok (st', rs) -> CR (length g0) groups st' (rev is_ ++ seen).
Proof.
  intros E0 Hn. induction is_ as [|i is_ IH]; intros seen st st' rs HC Hd E; [injection E as <- <-; exact HC|].
  cbn [p_reads] in E. destruct (p_read groups st i) as [[st1 r]|] eqn:Er; [|discriminate]. cbn [bind fst snd] in E.
  destruct (p_reads groups st1 is_) as [[st2 rs2]|] eqn:Er2; [|discriminate]. cbn [bind fst snd] in E. injection E as <- <-.
  cbn [rev] in *. rewrite <- app_assoc in *. cbn [app] in *. apply (IH (i :: seen) st1 st2 rs2); auto.
  apply (p_read_counts groups g0 rest st i seen st1 r E0 Hn HC); [|exact Er].
  apply NoDup_app_right in Hd. exact Hd.
Qed.

Lemma cnt_full n g l : 1 <= n -> NoDup l -> (forall k, k < n -> In (g * n + k) l) -> n <= cnt n g l.
Proof.
  intros Hn Hd H. unfold cnt. transitivity (length (seq (g * n) n)); [rewrite seq_length; lia|]. apply NoDup_incl_length; [apply seq_NoDup|].
  intros i Hi. apply in_seq in Hi. apply filter_In. replace i with (g * n + (i - g * n)) by lia. split; [apply H; lia|].
  apply Nat.eqb_eq. rewrite (Nat.mul_comm g n), Nat.add_comm, Nat.mul_comm, Nat.div_add by lia. rewrite Nat.div_small by lia. lia.
Qed.

Lemma group_start n : forall (full : list (list row)) last g df, Forall (fun g => length g = n) full -> nth_error (full ++ [last]) g = Some df ->
  g * n + length df <= length (concat (full ++ [last])).
Proof.
  induction full as [|f full IH]; intros last g df HF E.
  - destruct g as [|[|g]]; cbn in E; [|discriminate|discriminate]. injection E as <-. cbn. rewrite app_nil_r. lia.
  - apply Forall_cons_iff in HF. destruct HF as [Hf HF]. cbn [app concat]. rewrite app_length. destruct g as [|g]; cbn in E.
    + injection E as <-. lia.
    + specialize (IH last g df HF E). lia.
Qed.
End P.

(** * Tokens *)

Section T.
Context (itemsize block : nat) (items : nat -> list bytes) (chunk_bytes : nat -> nat).
Let file c := chunk_data (items c).
Let chunk_size c := length (items c).

Definition TI (st : tstate) : Prop :=
  (forall c, t_file st c = None \/ t_file st c = Some (file c)) /\ (forall c b, t_map st c = Some b -> b = concat (items c)).

Lemma load_chunk_ok st c : TI st -> concat (items c) <> [] -> t_file st c = Some (file c) ->
  exists st', t_load_chunk chunk_size st c = Ok st' /\ TI st' /\ t_map st' c = Some (concat (items c)).
Proof.
  intros [H1 H2] Hne Hf. unfold t_load_chunk. destruct (t_map st c) as [b|] eqn:E.
  - eexists. split; [reflexivity|]. cbn [t_map t_file]. split; [split; cbn [t_map t_file]; assumption|]. rewrite E. f_equal. apply H2, E.
  - rewrite Hf. unfold file, chunk_size. rewrite tokens_buffer_ok. destruct (concat (items c)) as [|x l] eqn:El; [congruence|].
    eexists. split; [reflexivity|]. cbn [t_map t_file]. split; [split; cbn [t_map t_file]|rewrite upd_same; reflexivity].
    + exact H1.
    + intros c' b. destruct (Nat.eq_dec c' c) as [->|N]; [rewrite upd_same; intros X; injection X as <-; congruence|rewrite upd_other by exact N; apply H2].
Qed.

Lemma t_step_ok num_blocks st o : TI st -> op_ok file num_blocks o -> (forall c, concat (items c) <> []) ->
  (forall c, itemsize * block * num_blocks c <= length (concat (items c))) ->
  exists st' out, t_step itemsize block chunk_size chunk_bytes st o = Ok (st', out) /\ TI st'
    /\ out_ok (fun c j => token_block (items c) itemsize block j) o out.
Proof.
  intros HT Ho Hne Hlen. pose proof HT as [H1 H2]. destruct o as [c|c index begin|c|c|c data|c]; cbn [t_step].
  - set (st' := Tst (t_file st) (t_map st) (t_count st) (upd (t_reg st) c true)). assert (HT' : TI st') by (split; assumption).
    destruct (t_file st c) as [[|x f]|] eqn:E; try (eexists _, _; split; [reflexivity|split; [exact HT'|reflexivity]]).
    destruct (load_chunk_ok st' c HT' (Hne c)) as (s & E1 & E2 & _); [destruct (H1 c); [congruence|]; cbn; assumption|]. rewrite E1. cbn [bind].
    eexists _, _. split; [reflexivity|split; [exact E2|reflexivity]].
  - cbn in Ho. destruct Ho as [Hb Hj]. set (reg := t_reg st c && _). set (there := match t_file st c with Some f => _ | None => false end).
    set (st' := Tst (t_file st) (t_map st) (t_count st) (upd (t_reg st) c (reg || there))). assert (HT' : TI st') by (split; assumption).
    destruct (reg || there) eqn:E; [|eexists _, _; split; [reflexivity|split; [exact HT'|left; reflexivity]]].
    assert (Hf : t_file st c = Some (file c)). { destruct (H1 c) as [H|H]; [|exact H]. unfold reg, there in E. rewrite H, andb_false_r in E. discriminate. }
    destruct (load_chunk_ok st' c HT' (Hne c) Hf) as (s & E1 & E2 & E3). rewrite E1. cbn [bind]. rewrite E3.
    assert (L : length (concat (items c)) <? itemsize * (index - begin) * block + itemsize * block = false).
    { apply Nat.ltb_ge. specialize (Hlen c). nia. }
    rewrite L. eexists _, _. split; [reflexivity|split; [exact E2|]]. right. f_equal. unfold token_block. f_equal. f_equal. nia.
  - destruct (t_file st c) eqn:E; (eexists _, _; split; [reflexivity|split; [|reflexivity]]); [|exact HT].
    split; cbn [t_file t_map].
    + intros c'. destruct (Nat.eq_dec c' c) as [->|N]; [left; apply upd_same|rewrite upd_other by exact N; apply H1].
    + intros c' b'. destruct (Nat.eq_dec c' c) as [->|N]; [rewrite upd_same; discriminate|rewrite upd_other by exact N; apply H2].
  - eexists _, _; split; [reflexivity|split; [|reflexivity]]. split; cbn [t_file t_map]; [exact H1|]. destruct (t_count st c - 1 =? 0)%Z; [|exact H2].
    intros c' b'. destruct (Nat.eq_dec c' c) as [->|N]; [rewrite upd_same; discriminate|rewrite upd_other by exact N; apply H2].
  - cbn in Ho. subst data. eexists _, _; split; [reflexivity|split; [|reflexivity]]. split; cbn [t_file t_map]; [|exact H2].
    intros c'. destruct (Nat.eq_dec c' c) as [->|N]; [right; apply upd_same|rewrite upd_other by exact N; apply H1].
  - eexists _, _; split; [reflexivity|split; [|reflexivity]]. split; cbn [t_file t_map]; [|exact H2].
    intros c'. destruct (Nat.eq_dec c' c) as [->|N]; [left; apply upd_same|rewrite upd_other by exact N; apply H1].
Qed.

Lemma t_steps_ok num_blocks : (forall c, concat (items c) <> []) -> (forall c, itemsize * block * num_blocks c <= length (concat (items c))) ->
  forall os st, TI st -> Forall (op_ok file num_blocks) os ->
  exists st' outs, t_steps itemsize block chunk_size chunk_bytes st os = Ok (st', outs)
    /\ Forall2 (out_ok (fun c j => token_block (items c) itemsize block j)) os outs.
Proof.
  intros Hne Hlen. induction os as [|o os IH]; intros st HT HF; [exists st, []; split; [reflexivity|constructor]|].
  apply Forall_cons_iff in HF. destruct HF as [Ho HF]. destruct (t_step_ok num_blocks st o HT Ho Hne Hlen) as (st1 & out & E1 & HT1 & HO).
  destruct (IH st1 HT1 HF) as (st2 & outs & E2 & H2). cbn [t_steps]. rewrite E1. cbn [bind fst snd]. rewrite E2. cbn [bind fst snd].
  exists st2, (out :: outs). split; [reflexivity|constructor; assumption].
Qed.
End T.

(** Slicing into blocks. *)
Fixpoint slices {A} (w n : nat) (l : list A) : list (list A) :=
  match n with 0 => [] | S n' => firstn w l :: slices w n' (skipn w l) end.
Lemma slices_spec {A} (w : nat) : forall n (l : list A), w * n <= length l ->
  length (slices w n l) = n /\ Forall (fun s => length s = w) (slices w n l)
  /\ (forall j, j < n -> nth_error (slices w n l) j = Some (firstn w (skipn (w * j) l)))
  /\ l = concat (slices w n l) ++ skipn (w * n) l.
Proof.
  induction n as [|n IH]; intros l H.
  - cbn. rewrite Nat.mul_0_r. repeat split; auto. intros j Hj. lia.
  - destruct (IH (skipn w l)) as (I1 & I2 & I3 & I4); [rewrite skipn_length; nia|]. cbn [slices length concat]. repeat split.
    + rewrite I1. reflexivity.
    + constructor; [rewrite firstn_length_le; nia|exact I2].
    + intros [|j] Hj; cbn [nth_error]; [rewrite Nat.mul_0_r; reflexivity|]. rewrite I3 by lia. rewrite skipn_skipn'. do 3 f_equal. nia.
    + rewrite skipn_skipn' in I4. rewrite <- app_assoc. replace (w * S n) with (w + w * n) by nia. rewrite <- I4. symmetry. apply firstn_skipn.
Qed.

Lemma have_tokens_length itemsize items ns : have_tokens itemsize items ns -> length (concat items) = itemsize * tokens ns.
Proof.
  unfold have_tokens. revert ns. induction items as [|x items IH]; intros [|n ns] E; cbn in E; try discriminate; [cbn; lia|].
  injection E as E1 E2. cbn [concat tokens fold_right]. rewrite app_length, E1, (IH ns E2). unfold tokens. nia.
Qed.

Lemma t_steps_app itemsize block chunk_size chunk_bytes : forall a st b, t_steps itemsize block chunk_size chunk_bytes st (a ++ b) =
  bind (t_steps itemsize block chunk_size chunk_bytes st a) (fun r => bind (t_steps itemsize block chunk_size chunk_bytes (fst r) b) (fun r2 => Ok (fst r2, snd r ++ snd r2))).
Proof.
  induction a as [|o a IH]; intros st b; cbn [app t_steps].
  - cbn [bind fst snd app]. destruct (t_steps itemsize block chunk_size chunk_bytes st b) as [[? ?]|]; reflexivity.
  - destruct (t_step itemsize block chunk_size chunk_bytes st o) as [[st1 o1]|]; [|reflexivity]. cbn [bind fst snd]. rewrite IH.
    destruct (t_steps itemsize block chunk_size chunk_bytes st1 a) as [[st2 o2]|]; [|reflexivity]. cbn [bind fst snd].
    destruct (t_steps itemsize block chunk_size chunk_bytes st2 b) as [[st3 o3]|]; reflexivity.
Qed.

Lemma loads_state itemsize block (items : list bytes) chunk_bytes c begin file : forall k st, tokens_buffer file (length items) <> [] -> t_file st c = Some file -> chunk_bytes <= length file ->
  itemsize * block <= length (tokens_buffer file (length items)) -> (t_map st c = None \/ t_map st c = Some (tokens_buffer file (length items))) ->
  exists st' outs, t_steps itemsize block (fun _ => length items) (fun _ => chunk_bytes) st (loads c begin k) = Ok (st', outs)
    /\ t_count st' c = (t_count st c + Z.of_nat k)%Z /\ t_file st' c = Some file /\ (t_map st' c = if k =? 0 then t_map st c else Some (tokens_buffer file (length items))).
Proof.
  induction k as [|k IH]; intros st Hne Hf Hb Hl Hm; [exists st, []; repeat split; auto; rewrite Z.add_0_r; reflexivity|].
  cbn [loads t_steps t_step]. rewrite Hf. replace (chunk_bytes <=? length file) with true by (symmetry; apply Nat.leb_le; lia). rewrite orb_true_r.
  set (st0 := Tst (t_file st) (t_map st) (t_count st) (upd (t_reg st) c true)).
  assert (HS : exists s, t_load_chunk (fun _ => length items) st0 c = Ok s /\ t_map s c = Some (tokens_buffer file (length items)) /\ t_count s c = (t_count st c + 1)%Z /\ t_file s c = Some file).
  { unfold t_load_chunk. cbn [st0 t_map t_file t_count t_reg]. destruct Hm as [Hm|Hm]; rewrite Hm.
    - rewrite Hf. destruct (tokens_buffer file (length items)) as [|x l]; [congruence|]. eexists. split; [reflexivity|]. cbn. rewrite !upd_same. auto.
    - eexists. split; [reflexivity|]. cbn. rewrite upd_same. auto. }
  destruct HS as (s & E & M1 & C1 & F1). rewrite E. cbn [bind]. rewrite M1. rewrite Nat.sub_diag, Nat.mul_0_r, Nat.mul_0_l, Nat.add_0_l.
  replace (length (tokens_buffer file (length items)) <? itemsize * block) with false by (symmetry; apply Nat.ltb_ge; lia). cbn [bind fst snd].
  destruct (IH s Hne F1 Hb Hl (or_intror M1)) as (st' & outs & E2 & C2 & F2 & M2). rewrite E2. cbn [bind fst snd].
  eexists _, _. split; [reflexivity|]. split; [rewrite C2, C1; lia|split; [exact F2|]]. rewrite M2. destruct k; cbn; [exact M1|reflexivity].
Qed.
