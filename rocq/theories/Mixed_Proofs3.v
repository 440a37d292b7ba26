From Verif Require Import Base Iter_Model Iter_Spec Dict Loader_Order_Model Config_Model Combined_Model Combined_Spec Combined_Proofs Combined_Proofs2 Passes_Model.
From Verif Require Import Resume_Proofs Passes_Proofs Sampler_Proofs Mixed_Model Mixed_Spec Mixed_Proofs Mixed_Proofs2.
From Coq Require Import QArith.
Local Open Scope nat_scope.
Local Ltac Zify.zify_post_hook ::= idtac.

Section Runs.
Context {A : Type} (g : mcfg A) (Hg : mcfg_ok g).
Implicit Types s : cit A.

(** [R] is all that is still delivered. *)
Definition full (bs : nat) s R : Prop := exists N sE, c_steps g bs N s = Ok (R, (sE, true)).
Lemma full_firstn bs : forall n s R r s' e, full bs s R -> c_steps g bs n s = Ok (r, (s', e)) -> r = firstn n R.
Proof.
  induction n as [|n IH]; intros s R r s' e F E; cbn [c_steps] in E; [injection E as <- _ _; reflexivity|].
  destruct F as (N & sE & F). destruct N as [|N]; [discriminate|]. cbn [c_steps] in F.
  destruct (c_next _ _ _ _ _ s) as [x s1|s1|ex]; [| |discriminate].
  - destruct (c_steps g bs n s1) as [[r1 [s2 e2]]|] eqn:E1; [|discriminate]. cbn [bind fst snd] in E. injection E as <- <- <-.
    destruct (c_steps g bs N s1) as [[R1 [sF eF]]|] eqn:F1; [|discriminate]. cbn [bind fst snd] in F. injection F as <- <- ->.
    cbn [firstn]. f_equal. eapply IH; [|exact E1]. exists N. eauto.
  - injection E as <- _ _. injection F as <- _. reflexivity.
Qed.
Lemma full_skipn bs : forall n s R r s', full bs s R -> c_steps g bs n s = Ok (r, (s', false)) -> full bs s' (skipn n R).
Proof.
  induction n as [|n IH]; intros s R r s' F E; cbn [c_steps] in E; [injection E as _ <-; exact F|].
  destruct F as (N & sE & F). destruct N as [|N]; [discriminate|]. cbn [c_steps] in F.
  destruct (c_next _ _ _ _ _ s) as [x s1|s1|ex]; [| |discriminate].
  - destruct (c_steps g bs n s1) as [[r1 [s2 e2]]|] eqn:E1; [|discriminate]. cbn [bind fst snd] in E. injection E as <- <- ->.
    destruct (c_steps g bs N s1) as [[R1 [sF eF]]|] eqn:F1; [|discriminate]. cbn [bind fst snd] in F. injection F as <- <- ->.
    cbn [skipn]. eapply IH; [|exact E1]. exists N. eauto.
  - discriminate.
Qed.
Lemma full_all bs n s : Inv s -> length (concat (c_iters s)) < n -> exists R sE, c_steps g bs n s = Ok (R, (sE, true)).
Proof.
  intros HI Hn. destruct (c_steps_ok g Hg bs n s HI) as (run & s' & e & E & _ & T & _ & F).
  pose proof (Permutation_length (takes_permutation _ _ _ T)) as P. rewrite app_length, map_length in P.
  destruct e; [eauto|lia].
Qed.
Lemma full_unique bs s R R' : full bs s R -> full bs s R' -> R = R'.
Proof.
  intros (N & sE & F) (N' & sE' & F').
  assert (G : forall a b s R sE R' sE', c_steps g bs a s = Ok (R, (sE, true)) -> c_steps g bs b s = Ok (R', (sE', true)) -> R = R').
  { clear. induction a as [|a IH]; intros b s R sE R' sE' E E'; [discriminate|]. destruct b as [|b]; [discriminate|]. cbn [c_steps] in *.
    destruct (c_next _ _ _ _ _ s) as [x s1|s1|ex]; [| |discriminate].
    - destruct (c_steps g bs a s1) as [[r1 [s2 e2]]|] eqn:E1; [|discriminate]. cbn [bind fst snd] in E. injection E as <- <- ->.
      destruct (c_steps g bs b s1) as [[r3 [s4 e4]]|] eqn:E3; [|discriminate]. cbn [bind fst snd] in E'. injection E' as <- <- ->.
      f_equal. eapply IH; eauto.
    - injection E as <- _. injection E' as <- _. reflexivity. }
  eapply G; eauto.
Qed.
Lemma c_steps_split bs : forall a b s r s2, c_steps g bs (a + b) s = Ok (r, (s2, false)) ->
  exists r1 s1 r2, c_steps g bs a s = Ok (r1, (s1, false)) /\ c_steps g bs b s1 = Ok (r2, (s2, false)).
Proof.
  induction a as [|a IH]; intros b s r s2 E; cbn [Nat.add c_steps] in E; [exists [], s, r; auto|].
  cbn [c_steps]. destruct (c_next _ _ _ _ _ s) as [x s1|s1|ex]; [| |discriminate]; [|discriminate].
  destruct (c_steps g bs (a + b) s1) as [[r1 [s3 e3]]|] eqn:E1; [|discriminate]. cbn [bind fst snd] in E. injection E as <- <- ->.
  destruct (IH _ _ _ _ E1) as (ra & sa & rb & Ea & Eb). rewrite Ea. cbn [bind fst snd]. eauto 6.
Qed.
Lemma c_steps_last bs : forall n s r s' e, c_steps g bs n s = Ok (r, (s', e)) -> match r with [] => s' = s | _ => last (map snd r) [] = c_counts s' end.
Proof.
  induction n as [|n IH]; intros s r s' e E; cbn [c_steps] in E; [injection E as <- <- _; reflexivity|].
  destruct (c_next _ _ _ _ _ s) as [x s1|s1|ex]; [| |discriminate]; [|injection E as <- <- _; reflexivity].
  destruct (c_steps g bs n s1) as [[r1 [s3 e3]]|] eqn:E1; [|discriminate]. cbn [bind fst snd] in E. injection E as <- <- <-.
  specialize (IH _ _ _ _ E1). destruct r1 as [|p r1]; [subst; reflexivity|]. exact IH.
Qed.

(** The batch size does not matter. *)
Lemma next_all_fuel m B ws0 : forall f d s, next_all (g_rng g) f m B ws0 s <> Combined_Model.Raise OutOfFuel ->
  next_all (g_rng g) (f + d) m B ws0 s = next_all (g_rng g) f m B ws0 s.
Proof.
  induction f as [|f IH]; intros d s H; [cbn in H; congruence|]. cbn [Nat.add next_all] in *.
  destruct (left_indexes (c_alive s)) as [|k [|k1 l]]; try reflexivity.
  destruct (get_index _ _ _ s) as [[k' s1]|]; [|reflexivity]. destruct (get_sample k' s1) as [|[]]; try reflexivity.
  destruct (exhaust k' s1); [apply IH; exact H|reflexivity].
Qed.
Lemma next_all_bs B B' ws0 : forall f s, next_all (g_rng g) f Stratified B ws0 s = next_all (g_rng g) f Stratified B' ws0 s.
Proof.
  induction f as [|f IH]; intros s; [reflexivity|]. cbn [next_all get_index].
  destruct (left_indexes (c_alive s)) as [|k [|k1 l]]; try reflexivity.
  destruct (new_index _ s) as [[k' s1]|]; [|reflexivity]. destruct (get_sample k' s1) as [|[]]; try reflexivity.
  destruct (exhaust k' s1); [apply IH|reflexivity].
Qed.
Lemma c_next_bs b b' s : g_method g = Stratified -> Inv s ->
  c_next (g_rng g) (g_all g) (g_method g) b (g_ws g) s = c_next (g_rng g) (g_all g) (g_method g) b' (g_ws g) s.
Proof.
  intros Hm HI. pose proof (next_ok g Hg b s HI) as N. pose proof (next_ok g Hg b' s HI) as N'. rewrite Hm in *. unfold c_next in *.
  destruct (g_all g); [|reflexivity].
  set (f := S (length (c_iters s)) * S (S b)) in *. set (f' := S (length (c_iters s)) * S (S b')) in *.
  rewrite (next_all_bs b b') in *.
  destruct (Nat.le_ge_cases f f') as [H|H].
  - replace f' with (f + (f' - f)) by lia. symmetry. apply next_all_fuel. intros C. rewrite C in N. exact N.
  - replace f with (f' + (f - f')) by lia. apply next_all_fuel. intros C. rewrite C in N'. exact N'.
Qed.
Lemma c_steps_bs b b' : g_method g = Stratified -> forall n s, Inv s -> c_steps g b n s = c_steps g b' n s.
Proof.
  intros Hm. induction n as [|n IH]; intros s HI; [reflexivity|]. cbn [c_steps]. rewrite (c_next_bs b b' s Hm HI).
  pose proof (next_ok g Hg b' s HI) as N. destruct (c_next _ _ _ b' _ s); [|reflexivity..].
  destruct N as (_ & _ & _ & _ & I1 & _). rewrite (IH _ I1). reflexivity.
Qed.
End Runs.

Lemma pieces_take {B} bsz : forall m (R : list B), 1 <= bsz -> pieces bsz (firstn (m * bsz) R) = firstn m (pieces bsz R).
Proof.
  induction m as [|m IH]; intros R HB; [apply pieces_nil|]. destruct R as [|x R]; [rewrite firstn_nil, pieces_nil; reflexivity|].
  rewrite (pieces_cons bsz (x :: R)) by (auto; discriminate). cbn [firstn]. rewrite pieces_cons; [|exact HB|].
  - f_equal; [rewrite firstn_firstn; f_equal; cbn [Nat.mul]; lia|]. rewrite <- IH by exact HB. f_equal. cbn [Nat.mul].
    rewrite skipn_firstn_comm. f_equal. lia.
  - destruct (S m * bsz) eqn:E; [cbn in E; lia|]. discriminate.
Qed.
Lemma firstn_pieces_firstn {B} bsz m (R : list B) : 1 <= bsz -> firstn m (pieces bsz (firstn (m * bsz) R)) = firstn m (pieces bsz R).
Proof.
  intros HB. rewrite (pieces_all bsz m) by (try exact HB; rewrite firstn_length; lia).
  apply pieces_take. exact HB.
Qed.

Section Relay.
Context {A : Type} (g : mcfg A) (Hg : mcfg_ok g) (Hnw : g_nw g = 1) (Hst : g_method g = Stratified)
  (H2 : g_all g = true -> 2 <= g_members g)
  (Hbs : g_all g = true -> forall k e, g_data g k e 1 0 = g_data g k e (g_B g) 0)
  (Hlen : forall k e e', length (g_data g k e (g_B g) 0) = length (g_data g k e' (g_B g) 0)).
Implicit Types s : cit A.

Definition iters_at (e : nat) s : Prop :=
  c_iters s = map (fun k => skipn (nth k (c_counts s) 0) (g_data g k e (g_B g) 0)) (seq 0 (g_members g)).
Record good (e : nat) s : Prop := {
  gd_inv : Inv s; gd_can : canonical (g_ws g) s; gd_at : iters_at e s; gd_len : length (c_counts s) = g_members g }.

Lemma skipn_S {B} : forall c (l : list B) x r, skipn c l = x :: r -> skipn (S c) l = r.
Proof. induction c as [|c IH]; intros [|y l] x r E; cbn in *; try discriminate; [congruence|]. eapply IH; eauto. Qed.

Lemma iters_step e s s1 k x l : iters_at e s -> length (c_counts s) = g_members g -> nth_error (c_iters s) k = Some (x :: l) ->
  c_iters s1 = upd k (fun _ => l) (c_iters s) -> c_counts s1 = upd k S (c_counts s) -> iters_at e s1.
Proof.
  unfold iters_at. intros Ha L E E1 E2. rewrite E1, E2, Ha in *. clear E1 E2. apply nth_error_ext. intros i.
  rewrite nth_error_map. rewrite nth_error_map in E.
  assert (Hk : k < g_members g). { rewrite <- (seq_length (g_members g) 0). apply nth_error_Some. intros C. rewrite C in E. discriminate. }
  rewrite nth_error_seq in E by exact Hk. cbn [option_map Nat.add] in E. injection E as E.
  destruct (Nat.eq_dec k i) as [<-|Hn].
  - rewrite nth_error_upd_eq, nth_error_map, nth_error_seq by exact Hk. cbn [option_map Nat.add]. f_equal.
    destruct (nth_error (c_counts s) k) as [c|] eqn:Ec; [|apply nth_error_None in Ec; lia].
    assert (Ec' : nth_error (upd k S (c_counts s)) k = Some (S c)) by (rewrite nth_error_upd_eq, Ec; reflexivity).
    rewrite (nth_error_nth _ _ 0 Ec'). rewrite (nth_error_nth _ _ 0 Ec) in E. symmetry. eapply skipn_S; eauto.
  - rewrite nth_error_upd_neq, nth_error_map by exact Hn. destruct (nth_error (seq 0 (g_members g)) i) as [j|] eqn:Ej; [|reflexivity].
    cbn [option_map]. f_equal. f_equal. assert (Hi : i < g_members g) by (rewrite <- (seq_length (g_members g) 0); apply nth_error_Some; congruence).
    rewrite nth_error_seq in Ej by exact Hi. injection Ej as <-.
    destruct (nth_error (c_counts s) i) as [c|] eqn:Ec; [|apply nth_error_None in Ec; lia].
    assert (Ec' : nth_error (upd k S (c_counts s)) i = Some c) by (rewrite nth_error_upd_neq by exact Hn; exact Ec).
    rewrite (nth_error_nth _ _ 0 Ec'), (nth_error_nth _ _ 0 Ec). reflexivity.
Qed.

Lemma steps_at e bs : forall n s r s' b, Inv s -> iters_at e s -> length (c_counts s) = g_members g ->
  c_steps g bs n s = Ok (r, (s', b)) -> iters_at e s' /\ sum (c_counts s') = sum (c_counts s) + length r /\ length (c_counts s') = g_members g.
Proof.
  induction n as [|n IH]; intros s r s' b HI Ha L E; cbn [c_steps] in E; [injection E as <- <- _; cbn; rewrite Nat.add_0_r; auto|].
  pose proof (next_ok g Hg bs s HI) as N. destruct (c_next _ _ _ _ _ s) as [x s1|s1|ex]; [| |discriminate].
  - destruct N as (k & l & Hk & Hi & I1 & Hc).
    destruct (c_steps g bs n s1) as [[r1 [s3 e3]]|] eqn:E1; [|discriminate]. cbn [bind fst snd] in E. injection E as <- <- <-.
    assert (Hkl : k < length (c_counts s)).
    { rewrite L. rewrite Ha, nth_error_map in Hk. rewrite <- (seq_length (g_members g) 0). apply nth_error_Some. intros C. rewrite C in Hk. discriminate. }
    destruct (IH s1 r1 s3 e3 I1) as (G1 & G2 & G3); [eapply iters_step; eauto|rewrite Hc, upd_length; exact L|exact E1|].
    split; [exact G1|]. split; [|exact G3]. rewrite G2, Hc, (sum_updS (g_rng g) (proj1 Hg)) by exact Hkl. cbn [length]. lia.
  - injection E as <- <- _. cbn. rewrite Nat.add_0_r. auto.
Qed.

Lemma iters_length e s : iters_at e s -> length (c_iters s) = g_members g.
Proof. intros ->. rewrite map_length, seq_length. reflexivity. Qed.

(** Going on from a good state. *)
Lemma good_steps e bs n s r s' : good e s -> c_steps g bs n s = Ok (r, (s', false)) -> Forall (fun l => l <> []) (c_iters s') ->
  good e s' /\ length r = n /\ sum (c_counts s') = sum (c_counts s) + n /\ Forall (fun l => l <> []) (c_iters s).
Proof.
  intros [GI GC GA GL] E F. destruct (c_steps_ok g Hg bs n s GI) as (r' & s2 & e' & E' & I' & T & Af & Le).
  rewrite E in E'. injection E' as <- <- <-. destruct (steps_at e bs n s r s' false GI GA GL E) as (A1 & A2 & A3).
  split; [|split; [exact Le|split; [lia|eapply takes_nonempty; eauto]]]. constructor; [exact I'| |exact A1|exact A3].
  rewrite Hst in Af. apply (after_canonical (g_rng g) (proj1 Hg) _ _ _ (g_ws g) _ _ _ _ GI GC) in Af; auto.
  - rewrite GL, (iters_length e s GA). reflexivity.
  - rewrite (iters_length e s GA). exact H2.
Qed.

Definition start (e : nat) : cit A := c_init (map (fun k => g_data g k e (g_B g) 0) (seq 0 (g_members g))) (g_ws g) None.
Lemma good_start e : good e (start e).
Proof.
  destruct Hg as (Hrng & Hm & Hw & Hp & _). constructor.
  - apply (init_inv (g_rng g) Hrng); [|rewrite map_length, seq_length; exact Hw|exact Hp].
    intros C. apply (f_equal (@length _)) in C. rewrite map_length, seq_length in C. cbn in C. lia.
  - unfold canonical, start, c_init. cbn [c_iters c_counts]. f_equal. rewrite map_length, seq_length.
    clear. induction (g_members g) as [|n IH]; cbn; [reflexivity|exact IH].
  - unfold iters_at, start, c_init. cbn [c_iters c_counts]. rewrite map_length, seq_length. apply map_ext_in. intros k Hk.
    apply in_seq in Hk. rewrite (nth_error_nth (repeat 0 (g_members g)) k 0 (zeros_nth (g_members g) k (proj2 Hk))). reflexivity.
  - unfold start, c_init. cbn. rewrite repeat_length, map_length, seq_length. reflexivity.
Qed.

Definition obj_at (e : nat) (c : list nat) : mobj := MO e 0 [(0, c)] (map (fun n => SD n 1 (g_B g) e) c).
Definition at_one (l : list (list (A * list nat))) : list (nat * list A) := map (fun b => (0, map fst b)) l.

Lemma store_one : forall (bl : list (list (A * list nat))) c d, (d = [] \/ exists x, d = [(0, x)]) -> Forall (fun b => b <> []) bl ->
  store 1 c bl d = match bl with [] => d | _ => [(0, last (map snd (concat bl)) [])] end.
Proof.
  induction bl as [|b bl IH]; intros c d Hd F; [reflexivity|]. inversion F; subst. cbn [store]. rewrite Nat.mod_1_r.
  assert (Ed : dset 0 (batch_counts b) d = [(0, batch_counts b)]) by (destruct Hd as [->|(x & ->)]; reflexivity).
  rewrite Ed, IH by (try assumption; right; eauto). destruct bl as [|b1 bl].
  - cbn [concat]. rewrite app_nil_r. reflexivity.
  - cbn [concat]. rewrite (map_app _ b). inversion H3; subst. destruct (exists_last H4) as (_ & _ & _).
    assert (Hne : map snd (concat (b1 :: bl)) <> []). { cbn [concat]. rewrite map_app. destruct b1; [congruence|discriminate]. }
    destruct (exists_last Hne) as (pre & z & Ez). change (b1 ++ concat bl) with (concat (b1 :: bl)). rewrite Ez, app_assoc, !last_last. reflexivity.
Qed.

Lemma saved_one c : length c = g_members g -> saved_counts (g_members g) [c] = c.
Proof.
  unfold saved_counts. cbn [fold_left]. generalize (g_members g) as m. intros m. revert c.
  induction m as [|m IH]; intros [|x c] HL; try discriminate; [reflexivity|]. cbn. f_equal. apply IH. injection HL as HL. exact HL.
Qed.

(** The counts stored when the run so far is [r]. *)
Lemma stored bs m s R r s' b c d : full g bs s R -> c_steps g bs (m * g_B g) s = Ok (r, (s', b)) -> (d = [] \/ exists x, d = [(0, x)]) ->
  store 1 c (firstn m (pieces (g_B g) R)) d = match r with [] => d | _ => [(0, c_counts s')] end /\ (r = [] -> s' = s).
Proof.
  intros F E Hd. pose proof Hg as (_ & _ & _ & _ & _ & HB & _).
  pose proof (full_firstn g bs _ _ _ _ _ _ F E) as Er. pose proof (c_steps_last g bs _ _ _ _ _ E) as La.
  assert (Ec : concat (firstn m (pieces (g_B g) R)) = r). { rewrite pieces_firstn, Nat.mul_comm by exact HB. symmetry. exact Er. }
  rewrite store_one; [|exact Hd|].
  - rewrite Ec. split; [|intros ->; exact La]. destruct (firstn m (pieces (g_B g) R)) as [|b0 bl] eqn:Ef.
    + cbn in Ec. rewrite <- Ec. reflexivity.
    + destruct r as [|p r].
      * exfalso. pose proof (pieces_nonempty (g_B g) R HB) as P. assert (In b0 (pieces (g_B g) R)).
        { rewrite <- (firstn_skipn m), Ef. left. reflexivity. }
        rewrite Forall_forall in P. apply (P b0 H). cbn [concat] in Ec. apply app_eq_nil in Ec. apply Ec.
      * rewrite La. reflexivity.
  - pose proof (pieces_nonempty (g_B g) R HB) as P. rewrite <- (firstn_skipn m (pieces _ R)) in P. apply Forall_app in P. apply P.
Qed.

Lemma map_combine_seq {B C} (f : B -> C) : forall (l : list B) (i0 : nat), map (fun kd => f (snd kd)) (combine (seq i0 (length l)) l) = map f l.
Proof. induction l as [|x l IH]; intros i0; [reflexivity|]. cbn. f_equal. apply IH. Qed.

(** Saving when all members have the same entries. *)
Lemma save_ok st c f : m_it st = Some c \/ (m_it st = None /\ saved_counts (g_members g) (map snd (m_counts st)) = c) ->
  length c = g_members g -> length (m_mem st) = g_members g ->
  (forall k d n, nth_error (m_mem st) k = Some d -> nth_error c k = Some n -> mem_save g n d = f k n) ->
  exists st2, m_save g st = Ok (MO (m_epoch st) (m_latest st) (m_counts st) (map (fun kn => f (fst kn) (snd kn)) (combine (seq 0 (g_members g)) c)), st2).
Proof.
  intros Hc L Lm Hf. unfold m_save. cbv zeta. set (tot := match m_it st with Some c => c | None => _ end).
  assert (Et : tot = c). { unfold tot. destruct Hc as [->|(-> & E)]; [reflexivity|exact E]. }
  rewrite Et. clear Et tot.
  assert (E : map_res (fun kd : nat * (nat * option sdict) => match nth_error c (fst kd) with Some n => Ok (mem_save g n (snd kd)) | None => Err IndexError end)
    (combine (seq 0 (g_members g)) (m_mem st)) = Ok (map (fun kn => f (fst kn) (snd kn)) (combine (seq 0 (g_members g)) c))); [|rewrite E; cbn [bind]; eauto].
  apply map_res_nth.
  - rewrite map_length, !combine_length, L, Lm. reflexivity.
  - intros i [k d] y E1 E2. assert (Hi : i < g_members g).
    { assert (i < length (combine (seq 0 (g_members g)) (m_mem st))) by (apply nth_error_Some; congruence). rewrite combine_length, seq_length in H. lia. }
    destruct (nth_error c i) as [n|] eqn:En; [|apply nth_error_None in En; lia].
    destruct (nth_error (m_mem st) i) as [d'|] eqn:Ed; [|apply nth_error_None in Ed; lia].
    rewrite (combine_nth_error _ _ i i d' (nth_error_seq 0 _ _ Hi) Ed) in E1. injection E1 as <- <-.
    rewrite nth_error_map, (combine_nth_error _ _ i i n (nth_error_seq 0 _ _ Hi) En) in E2. cbn [option_map fst snd] in E2. injection E2 as <-.
    cbn [fst snd]. rewrite En, (Hf i d' n Ed En). reflexivity.
Qed.

(** ** A loop that is not resumed *)
Lemma fresh_visit v st R : unloaded g st -> full g (g_B g) (start (m_epoch st + 1)) R ->
  exists st', m_visit g v st = Ok (at_one (match v with Whole => pieces (g_B g) R | Part m => firstn m (pieces (g_B g) R) end), st') /\
    (forall m, v = Part m -> forall r s' b, c_steps g (g_B g) (m * g_B g) (start (m_epoch st + 1)) = Ok (r, (s', b)) ->
       m_epoch st' = m_epoch st + 1 /\ m_latest st' = 0 /\ m_counts st' = store 1 0 (firstn m (pieces (g_B g) R)) [] /\
       m_it st' = (if g_inproc g then Some (c_counts s') else None) /\
       length (m_mem st') = g_members g /\
       (b = false -> Forall (fun l => l <> []) (c_iters s') -> m_mem st' = repeat (m_epoch st + 1, None) (g_members g))).
Proof.
  intros U F. pose proof U as (U1 & U2 & U3 & U4 & U5 & U6). pose proof Hg as (_ & Hm & _ & _ & _ & HB & _).
  set (e := m_epoch st + 1) in *. pose proof (good_start e) as [GI GC GA GL].
  assert (Es : m_start g (m_begin st) 0 = Ok (start e)).
  { rewrite (start_fresh g st 0 U5 U1). unfold fresh_iters, given_to, start. rewrite U2, U4. reflexivity. }
  assert (Em : m_bs (m_begin st) = g_B g) by (unfold m_begin; rewrite U1; exact U4).
  assert (Er : exists run fin, map_res (m_run g v (m_begin st)) (seq 0 (g_nw g)) = Ok [(run, fin)] /\
     (match v with Whole => run = R | Part m => firstn m (pieces (g_B g) run) = firstn m (pieces (g_B g) R) end) /\
     (forall m r s' b, v = Part m -> g_inproc g = true -> c_steps g (g_B g) (m * g_B g) (start e) = Ok (r, (s', b)) -> fin = (s', b))).
  { rewrite Hnw. cbn [seq map_res]. unfold m_run. rewrite Es. cbn [bind]. rewrite Em.
    destruct (full_all g Hg (g_B g) (S (length (concat (c_iters (start e))))) (start e) GI ltac:(lia)) as (R' & sE & ER).
    assert (R' = R) as -> by (apply (full_unique g (g_B g) (start e)); [eexists _, _; exact ER|exact F]).
    destruct v as [|m].
    - exists R, (sE, true). destruct (g_inproc g); rewrite ER; cbn [bind]; (split; [reflexivity|split; [reflexivity|discriminate]]).
    - destruct (g_inproc g).
      + destruct (c_steps_ok g Hg (g_B g) (m * g_B g) (start e) GI) as (r & s' & b & E & _). rewrite E. cbn [bind]. exists r, (s', b).
        split; [reflexivity|]. split; [|intros m0 r0 s0 b0 [= <-] _ E0; rewrite E in E0; injection E0 as _ <- <-; reflexivity].
        pose proof (full_firstn g _ _ _ _ _ _ _ F E) as Ef. rewrite Ef. apply firstn_pieces_firstn. exact HB.
      + rewrite ER. cbn [bind]. exists R, (sE, true). split; [reflexivity|]. split; [reflexivity|discriminate]. }
  destruct Er as (run & fin & Er & Ho & Hf). unfold m_visit. cbv zeta. rewrite Er. cbn [bind map fst].
  assert (Lb : m_latest (m_begin st) = 0 /\ m_restore (m_begin st) = false /\ m_cycle (m_begin st) = 0 /\ m_shared (m_begin st) = false /\
    m_counts (m_begin st) = [] /\ m_epoch (m_begin st) = e /\ m_it (m_begin st) = m_it st /\ m_mem (m_begin st) = repeat (e, None) (g_members g)).
  { unfold m_begin. rewrite U1. cbn. repeat (split; [reflexivity|]). rewrite <- U5. generalize (m_mem st). clear.
    induction l as [|x l IH]; [reflexivity|]. cbn. f_equal. exact IH. }
  destruct Lb as (L1 & L2 & L3 & L4 & L5 & L6 & L7 & L8). rewrite L1, L2, L3, L4, L5, L6, L7, L8, Hnw.
  rewrite (serve_pieces _ _ _ _ run HB). eexists. split.
  - f_equal. f_equal. unfold at_one. rewrite map_map. cbn [fst snd]. f_equal. destruct v as [|m]; [|exact Ho].
    subst run. apply firstn_all2. rewrite Nat.mul_1_l. cbn [concat]. rewrite app_nil_r. lia.
  - intros m -> r s' b Eb. cbn [m_epoch m_latest m_counts m_shared m_own m_it m_mem]. split; [reflexivity|].
    split; [rewrite map_length; match goal with |- match ?x with _ => _ end = _ => destruct x end; [reflexivity|apply Nat.mod_1_r]|].
    split; [unfold m_counts; cbn [m_shared m_own]; rewrite map_map; cbn [snd]; rewrite map_id, Ho; reflexivity|].
    split; [destruct (g_inproc g) eqn:Hi; [rewrite (Hf m r s' b eq_refl eq_refl Eb); reflexivity|apply U6; reflexivity]|].
    destruct (g_inproc g) eqn:Hi.
    + split; [rewrite map_length, combine_length, seq_length, repeat_length; apply Nat.min_id|]. intros -> Fn.
      rewrite (Hf m r s' false eq_refl eq_refl Eb). cbn [fst snd].
      assert (Hn : forall k, nth k (m_ended g (m_bs (m_begin st)) s' false) false = false).
      { destruct (good_steps e _ _ _ _ _ (good_start e) Eb Fn) as ([_ GC' _ _] & _). intros k. unfold m_ended. destruct (g_all g).
        - unfold canonical in GC'. rewrite GC'. cbn [c_alive c_init].
          generalize (length (c_iters s')). clear. intros n; revert k; induction n as [|n IH]; intros [|k]; cbn; auto.
        - generalize (g_members g). clear. intros n; revert k; induction n as [|n IH]; intros [|k]; cbn; auto. }
      transitivity (map (fun kd : nat * (nat * option sdict) => (fun d => m_after d false) (snd kd)) (combine (seq 0 (length (repeat (e, @None sdict) (g_members g)))) (repeat (e, None) (g_members g)))).
      * rewrite repeat_length. apply map_ext. intros kd. rewrite Hn. reflexivity.
      * etransitivity; [exact (map_combine_seq (fun d => m_after d false) (repeat (e, None) (g_members g)) 0)|]. generalize (g_members g). clear. induction n as [|n IH]; [reflexivity|]. cbn. f_equal. exact IH.
    + split; [apply repeat_length|]. reflexivity.
Qed.

Lemma map_f_combine {C} (f : nat -> C) (c : list nat) : length c = g_members g ->
  map (fun kn => f (snd kn)) (combine (seq 0 (g_members g)) c) = map f c.
Proof. intros <-. apply map_combine_seq. Qed.

(** Saving after a part of a loop that was not resumed. *)
Lemma fresh_save m st R r s' b : unloaded g st -> full g (g_B g) (start (m_epoch st + 1)) R ->
  c_steps g (g_B g) (m * g_B g) (start (m_epoch st + 1)) = Ok (r, (s', b)) ->
  exists st1 o st2, m_visit g (Part m) st = Ok (at_one (firstn m (pieces (g_B g) R)), st1) /\ m_save g st1 = Ok (o, st2) /\
    o_epoch o = m_epoch st + 1 /\
    map sd_samples (o_members o) = c_counts s' /\
    (1 <= m -> b = false -> Forall (fun l => l <> []) (c_iters s') -> o = obj_at (m_epoch st + 1) (c_counts s')).
Proof.
  intros U F E. pose proof Hg as (_ & Hm & _ & _ & _ & HB & _).
  destruct (fresh_visit (Part m) st R U F) as (st1 & Ev & H). destruct (H m eq_refl r s' b E) as (V1 & V2 & V3 & V4 & V5 & V6).
  set (e := m_epoch st + 1) in *. destruct (good_start e) as [GI GC GA GL].
  destruct (steps_at e _ _ _ _ _ _ GI GA GL E) as (_ & _ & L').
  destruct (stored (g_B g) m (start e) R r s' b 0 [] F E (or_introl eq_refl)) as (S1 & S2).
  assert (Hc : m_it st1 = Some (c_counts s') \/ (m_it st1 = None /\ saved_counts (g_members g) (map snd (m_counts st1)) = c_counts s')).
  { rewrite V4. destruct (g_inproc g); [left; reflexivity|right]. split; [reflexivity|]. rewrite V3, S1. destruct r as [|p r].
    - cbn. rewrite (S2 eq_refl). unfold start, c_init. cbn. rewrite map_length, seq_length. reflexivity.
    - cbn [map snd]. apply saved_one. exact L'. }
  destruct (save_ok st1 (c_counts s') (fun k n => match nth_error (m_mem st1) k with Some d => mem_save g n d | None => SD n 0 0 0 end) Hc L' V5) as (st2 & Es).
  { intros k d n Hk _. rewrite Hk. reflexivity. }
  exists st1. eexists _, st2. split; [exact Ev|]. split; [exact Es|]. split; [exact V1|]. cbn [o_members]. split.
  - rewrite map_map. transitivity (map (fun kn : nat * nat => (fun n : nat => n) (snd kn)) (combine (seq 0 (g_members g)) (c_counts s'))).
    + apply map_ext. intros [k n]. cbn [fst snd]. destruct (nth_error (m_mem st1) k) as [d|]; [|reflexivity]. unfold mem_save. destruct (snd d); reflexivity.
    + etransitivity; [exact (map_f_combine (fun n => n) _ L')|apply map_id].
  - intros H1 -> Fn. unfold obj_at. rewrite V1, V2, V3, S1. f_equal.
    + destruct (good_steps e _ _ _ _ _ (good_start e) E Fn) as (_ & Lr & _). destruct r; [|reflexivity]. cbn in Lr. nia.
    + rewrite (V6 eq_refl Fn). rewrite <- (map_f_combine (fun n => SD n 1 (g_B g) e) _ L'). apply map_ext_in. intros [k n] Hk. cbn [fst snd].
      apply in_combine_l in Hk. apply in_seq in Hk. assert (Hr : nth_error (repeat (e, @None sdict) (g_members g)) k = Some (e, None)).
      { destruct (nth_error (repeat (e, @None sdict) (g_members g)) k) as [x|] eqn:Ex; [apply nth_error_In, repeat_spec in Ex; congruence|].
        apply nth_error_None in Ex. rewrite repeat_length in Ex. lia. }
      rewrite Hr. unfold mem_save. cbn [snd fst]. rewrite Hnw. reflexivity.
Qed.

(** ** A loop that is resumed *)
Lemma replay_one c B : 1 <= B -> replay_sampling c B 1 = Ok [c].
Proof.
  intros HB. rewrite replay_sampling_ok by lia. cbn [seq map]. f_equal. f_equal. unfold turns.
  assert (Hf : forall l, filter (fun j => (j / B) mod 1 =? 0) l = l).
  { induction l as [|x l IH]; [reflexivity|]. cbn [filter]. rewrite Nat.mod_1_r, IH. reflexivity. }
  rewrite Hf. apply seq_length.
Qed.

Definition loaded (e : nat) (c : list nat) (b : nat) : mstate :=
  MS e 1 1 true [] (Some [(0, c)]) true b (map (fun n => (1, Some (SD n 1 (g_B g) e))) c) None.
Lemma load_at e c : length c = g_members g -> 1 <= sum c -> (g_all g = true -> sum c < g_len g) ->
  m_load g (obj_at e c) (m_init g) = Ok (loaded e c (if g_all g then 1 else g_B g)).
Proof.
  intros L H1 H3. unfold m_load, obj_at. cbn [o_counts o_members o_epoch o_latest map snd sum]. rewrite map_length, L, Nat.eqb_refl. cbn [negb andb].
  unfold loaded, m_init. cbn [m_cycle m_restore m_own m_bs m_mem m_it]. f_equal.
  replace (0 <? sum c + 0) with true by lia. f_equal.
  - destruct (g_all g); [|reflexivity]. specialize (H3 eq_refl). replace (sum c + 0 <? g_len g) with true by lia. reflexivity.
  - destruct (g_all g); reflexivity.
  - apply nth_error_ext. intros i. rewrite !nth_error_map. destruct (nth_error c i) as [n|] eqn:En.
    + assert (Hi : i < g_members g) by (rewrite <- L; apply nth_error_Some; congruence).
      assert (Hr : nth_error (repeat (1, @None sdict) (g_members g)) i = Some (1, None)).
      { destruct (nth_error (repeat (1, @None sdict) (g_members g)) i) as [x|] eqn:Ex; [apply nth_error_In, repeat_spec in Ex; congruence|].
        apply nth_error_None in Ex. rewrite repeat_length in Ex. lia. }
      rewrite (combine_nth_error _ _ i i (1, None) (nth_error_seq 0 _ _ Hi) Hr). cbn [option_map fst snd].
      rewrite nth_error_map, En. reflexivity.
    + apply nth_error_None in En. rewrite (proj2 (nth_error_None _ _)); [reflexivity|]. rewrite combine_length, seq_length. lia.
Qed.

Lemma start_at e s b : good e s -> Forall (fun l => l <> []) (c_iters s) -> (forall k e, g_data g k e b 0 = g_data g k e (g_B g) 0) ->
  m_start g (m_begin (loaded e (c_counts s) b)) 0 = Ok s.
Proof.
  intros [GI GC GA GL] Fn Hb. pose proof Hg as (_ & Hm & _ & _ & _ & HB & _).
  unfold m_start, m_begin, loaded. cbn [m_restore m_epoch m_bs m_mem m_given dget Nat.eqb].
  assert (E : map_res (fun kd => m_iter g b 0 (fst kd) (snd kd)) (combine (seq 0 (g_members g))
     (map (set_ep e) (map (fun n => (1, Some (SD n 1 (g_B g) e))) (c_counts s)))) = Ok (c_iters s)); [|rewrite E; cbn [bind]; f_equal; symmetry; exact GC].
  apply map_res_nth.
  - rewrite combine_length, !map_length, seq_length, (iters_length e s GA), GL. apply Nat.min_id.
  - intros i [k d] y E1 E2.
    assert (Hi : i < g_members g) by (rewrite <- (iters_length e s GA); apply nth_error_Some; congruence).
    destruct (nth_error (c_counts s) i) as [n|] eqn:En; [|apply nth_error_None in En; lia].
    rewrite (combine_nth_error _ _ i i (1, Some (SD n 1 (g_B g) e)) (nth_error_seq 0 _ _ Hi)) in E1.
    2:{ rewrite !nth_error_map, En. reflexivity. }
    injection E1 as <- <-. cbn [fst snd]. unfold m_iter. cbn [snd fst sd_workers sd_samples sd_batch sd_epoch]. rewrite Hnw. cbn [Nat.eqb negb seq map sum].
    assert (Ey : y = skipn n (g_data g i e (g_B g) 0)).
    { rewrite GA, nth_error_map, (nth_error_seq 0) in E2 by exact Hi. cbn [option_map Nat.add] in E2. injection E2 as <-.
      rewrite (nth_error_nth _ _ 0 En). reflexivity. }
    assert (Ln : n < length (g_data g i e (g_B g) 0)).
    { apply nth_error_In in E2. rewrite Forall_forall in Fn. specialize (Fn _ E2). destruct (le_lt_dec (length (g_data g i e (g_B g) 0)) n) as [H|H]; [|exact H].
      exfalso. apply Fn. rewrite Ey. apply skipn_all2. exact H. }
    rewrite !Hb, (Hlen i 1 e). replace (length (g_data g i e (g_B g) 0) + 0 <? n) with false by lia.
    rewrite replay_one by exact HB. cbn [bind nth_error]. replace (length (g_data g i e (g_B g) 0) <=? n) with false by lia.
    rewrite Ey. reflexivity.
Qed.

Lemma loaded_visit v e s R b : good e s -> Forall (fun l => l <> []) (c_iters s) -> (forall k e, g_data g k e b 0 = g_data g k e (g_B g) 0) ->
  full g (g_B g) s R ->
  exists st', m_visit g v (loaded e (c_counts s) b) = Ok (at_one (match v with Whole => pieces (g_B g) R | Part m => firstn m (pieces (g_B g) R) end), st') /\
    (forall m r s', v = Part m -> 1 <= m -> c_steps g (g_B g) (m * g_B g) s = Ok (r, (s', false)) -> Forall (fun l => l <> []) (c_iters s') ->
       exists st2, m_save g st' = Ok (obj_at e (c_counts s'), st2)).
Proof.
  intros G Fn Hb F. pose proof Hg as (_ & Hm & _ & _ & _ & HB & _). pose proof G as [GI GC GA GL].
  pose proof (start_at e s b G Fn Hb) as Es. set (st0 := loaded e (c_counts s) b) in *.
  assert (Em : m_bs (m_begin st0) = b) by reflexivity.
  assert (Er : exists run fin, map_res (m_run g v (m_begin st0)) (seq 0 (g_nw g)) = Ok [(run, fin)] /\
     (match v with Whole => run = R | Part m => firstn m (pieces (g_B g) run) = firstn m (pieces (g_B g) R) end) /\
     (forall m r s' b, v = Part m -> g_inproc g = true -> c_steps g (g_B g) (m * g_B g) s = Ok (r, (s', b)) -> fin = (s', b))).
  { rewrite Hnw. cbn [seq map_res]. unfold m_run. rewrite Es. cbn [bind]. rewrite Em, !(c_steps_bs g Hg b (g_B g) Hst _ s GI).
    destruct (full_all g Hg (g_B g) (S (length (concat (c_iters s)))) s GI ltac:(lia)) as (R' & sE & ER).
    assert (R' = R) as -> by (apply (full_unique g (g_B g) s); [eexists _, _; exact ER|exact F]).
    destruct v as [|m].
    - exists R, (sE, true). destruct (g_inproc g); rewrite ER; cbn [bind]; (split; [reflexivity|split; [reflexivity|discriminate]]).
    - destruct (g_inproc g).
      + destruct (c_steps_ok g Hg (g_B g) (m * g_B g) s GI) as (r & s' & b' & E & _). rewrite E. cbn [bind]. exists r, (s', b').
        split; [reflexivity|]. split; [|intros m0 r0 s0 b0 [= <-] _ E0; rewrite E in E0; injection E0 as _ <- <-; reflexivity].
        pose proof (full_firstn g _ _ _ _ _ _ _ F E) as Ef. rewrite Ef. apply firstn_pieces_firstn. exact HB.
      + rewrite ER. cbn [bind]. exists R, (sE, true). split; [reflexivity|]. split; [reflexivity|discriminate]. }
  destruct Er as (run & fin & Er & Ho & Hf). unfold m_visit. cbv zeta. rewrite Er. cbn [bind map fst].
  unfold st0, loaded, m_begin. cbn [m_restore m_epoch m_latest m_cycle m_own m_given m_shared m_bs m_mem m_it m_counts]. rewrite Hnw.
  rewrite (serve_pieces _ _ _ _ run HB). eexists. split.
  - f_equal. f_equal. unfold at_one. rewrite map_map. cbn [fst snd]. f_equal. destruct v as [|m]; [|exact Ho].
    subst run. apply firstn_all2. rewrite Nat.mul_1_l. cbn [concat]. rewrite app_nil_r. lia.
  - intros m r s' -> H1 E Fn'. destruct (good_steps e _ _ _ _ _ G E Fn') as ([_ GC' GA' GL'] & Lr & _ & _).
    destruct (stored (g_B g) m s R r s' false 1 [(0, c_counts s)] F E) as (S1 & _); [right; eauto|].
    assert (Sn : map snd (map (pair 0) (firstn m (pieces (g_B g) run))) = firstn m (pieces (g_B g) R)).
    { rewrite map_map. cbn [snd]. rewrite map_id. exact Ho. }
    assert (Sd : store 1 1 (map snd (map (pair 0) (firstn m (pieces (g_B g) run)))) [(0, c_counts s)] = [(0, c_counts s')]).
    { rewrite Sn, S1. destruct r; [cbn in Lr; nia|reflexivity]. }
    match goal with |- exists st2, m_save g ?t = _ => set (stx := t) end.
    assert (Mc : m_counts stx = [(0, c_counts s')]). { unfold stx, m_counts. cbn [m_shared m_given]. exact Sd. }
    assert (Ml : m_latest stx = 0). { unfold stx. cbn [m_latest]. match goal with |- match ?x with _ => _ end = _ => destruct x eqn:El end; [|apply Nat.mod_1_r].
      exfalso. rewrite map_length in El. apply length_zero_iff_nil in El. rewrite Ho in El. pose proof (pieces_firstn (g_B g) R m HB) as Pf. rewrite El in Pf. cbn in Pf.
      pose proof (full_firstn g _ _ _ _ _ _ _ F E) as Ef. rewrite Nat.mul_comm in Ef. rewrite Ef, <- Pf in Lr. cbn in Lr. nia. }
    assert (Mi : m_it stx = Some (c_counts s') \/ (m_it stx = None /\ saved_counts (g_members g) (map snd (m_counts stx)) = c_counts s')).
    { rewrite Mc. unfold stx. cbn [m_it]. destruct (g_inproc g) eqn:Hi; [left|right].
      - rewrite (Hf m r s' false eq_refl eq_refl E). reflexivity.
      - split; [reflexivity|]. apply saved_one. exact GL'. }
    assert (Mm : length (m_mem stx) = g_members g /\ forall k d, nth_error (m_mem stx) k = Some d -> exists e' n, d = (e', Some (SD n 1 (g_B g) e))).
    { unfold stx. cbn [m_mem]. rewrite map_map. destruct (g_inproc g) eqn:Hi.
      - split; [rewrite map_length, combine_length, seq_length, map_length, GL; apply Nat.min_id|].
        rewrite (Hf m r s' false eq_refl eq_refl E). cbn [fst snd].
        assert (Hn : forall k, nth k (m_ended g b s' false) false = false).
        { intros k. unfold m_ended. destruct (g_all g).
          - unfold canonical in GC'. rewrite GC'. cbn [c_alive c_init].
            generalize (length (c_iters s')). clear. intros n; revert k; induction n as [|n IH]; intros [|k]; cbn; auto.
          - generalize (g_members g). clear. intros n; revert k; induction n as [|n IH]; intros [|k]; cbn; auto. }
        intros k d Hk. rewrite nth_error_map in Hk. destruct (nth_error (combine _ _) k) as [[j x]|] eqn:Ex; [|discriminate].
        cbn [option_map fst snd] in Hk. injection Hk as <-. rewrite Hn. apply nth_error_In, in_combine_r in Ex. apply in_map_iff in Ex.
        destruct Ex as (n & <- & _). cbn. eauto.
      - split; [rewrite map_length; exact GL|]. intros k d Hk. rewrite nth_error_map in Hk. destruct (nth_error (c_counts s) k); [|discriminate].
        cbn in Hk. injection Hk as <-. eauto. }
    destruct Mm as (Mm & Md).
    destruct (save_ok stx (c_counts s') (fun _ n => SD n 1 (g_B g) e) Mi GL' Mm) as (st2 & Sv).
    { intros k d n Hk _. destruct (Md k d Hk) as (e' & n' & ->). reflexivity. }
    exists st2. rewrite Sv. f_equal. f_equal. unfold obj_at. f_equal; [exact Ml|exact Mc|]. cbn [fst snd]. exact (map_f_combine (fun n => SD n 1 (g_B g) e) _ GL').
Qed.

Lemma relay_ok e : forall ms s R r s', good e s -> full g (g_B g) s R -> 1 <= sum (c_counts s) -> Forall (fun m => 1 <= m) ms ->
  c_steps g (g_B g) (sum ms * g_B g) s = Ok (r, (s', false)) -> Forall (fun l => l <> []) (c_iters s') ->
  (g_all g = true -> sum (c_counts s') < g_len g) ->
  mrelay g ms (obj_at e (c_counts s)) = Ok (at_one (pieces (g_B g) R)).
Proof.
  pose proof Hg as (_ & Hm & _ & _ & _ & HB & _).
  assert (Hb : forall k e, g_data g k e (if g_all g then 1 else g_B g) 0 = g_data g k e (g_B g) 0).
  { intros k e0. destruct (g_all g) eqn:Ha; [apply Hbs; reflexivity|reflexivity]. }
  induction ms as [|m ms IH]; intros s R r s' G F H1 Fm E Fn Hl; cbn [mrelay].
  - cbn in E. injection E as <- <-. rewrite load_at; [|apply G|exact H1|exact Hl]. cbn [bind].
    destruct (loaded_visit Whole e s R _ G Fn Hb F) as (st' & Ev & _). rewrite Ev. reflexivity.
  - inversion Fm as [|? ? Hm1 Fm']; subst. cbn [sum] in E. rewrite Nat.mul_add_distr_r in E.
    destruct (c_steps_split g _ _ _ _ _ _ E) as (r1 & s1 & r2 & E1 & E2).
    destruct (c_steps_ok g Hg (g_B g) (sum ms * g_B g) s1) as (r2' & s2' & b2 & E2' & _ & T2 & _).
    { destruct (c_steps_ok g Hg (g_B g) (m * g_B g) s (gd_inv e s G)) as (ra & sa & ba & Ea & Ia & _). rewrite E1 in Ea. injection Ea as _ <- _. exact Ia. }
    rewrite E2 in E2'. injection E2' as <- <- <-. pose proof (takes_nonempty _ _ _ T2 Fn) as Fn1.
    destruct (good_steps e _ _ _ _ _ G E1 Fn1) as (G1 & L1 & S1 & Fn0).
    destruct (good_steps e _ _ _ _ _ G1 E2 Fn) as (_ & _ & S2 & _).
    rewrite load_at; [|apply G|exact H1|intros Ha; specialize (Hl Ha); lia]. cbn [bind].
    destruct (loaded_visit (Part m) e s R _ G Fn0 Hb F) as (st' & Ev & Hs). rewrite Ev. cbn [bind fst snd].
    destruct (Hs m r1 s1 eq_refl Hm1 E1 Fn1) as (st2 & Sv). rewrite Sv. cbn [bind fst].
    rewrite (IH s1 (skipn (m * g_B g) R) r2 s' G1 (full_skipn g _ _ _ _ _ _ F E1) ltac:(lia) Fm' E2 Fn Hl). cbn [bind]. f_equal.
    unfold at_one. rewrite <- map_app. f_equal. rewrite Nat.mul_comm, <- pieces_skipn by exact HB. apply firstn_skipn.
Qed.
End Relay.

Lemma c_steps_same {A} (g g' : mcfg A) bs : same_mix g g' -> forall n s, c_steps g' bs n s = c_steps g bs n s.
Proof.
  intros (E1 & E2 & E3 & E4 & _). induction n as [|n IH]; intros s; [reflexivity|]. cbn [c_steps]. rewrite E1, E2, E3, E4.
  destruct (c_next _ _ _ _ _ s); [rewrite IH|..]; reflexivity.
Qed.

Theorem stop_and_go {A} (g g' : mcfg A) st full_out stf part stp o sto m ms :
  mcfg_ok g -> same_mix g g' -> g_nw g = 1 -> g_method g = Stratified -> (g_all g = true -> 2 <= g_members g) ->
  (g_all g = true -> forall k e, g_data g k e 1 0 = g_data g k e (g_B g) 0) ->
  (forall k e e', length (g_data g k e (g_B g) 0) = length (g_data g k e' (g_B g) 0)) ->
  unloaded g st ->
  m_visit g Whole st = Ok (full_out, stf) ->
  m_visit g (Part (m + sum ms)) st = Ok (part, stp) -> m_save g stp = Ok (o, sto) ->
  (forall k s, nth_error (o_members o) k = Some s -> sd_samples s < length (g_data g k (o_epoch o) (g_B g) 0)) ->
  1 <= m -> Forall (fun n => 1 <= n) ms -> (g_all g = true -> (m + sum ms) * g_B g < g_len g) ->
  exists first st1 o1 st2 rest, m_visit g (Part m) st = Ok (first, st1) /\ m_save g st1 = Ok (o1, st2) /\
    mrelay g' ms o1 = Ok rest /\ first ++ rest = full_out.
Proof.
  intros Hg Sm Hnw Hst H2 Hbs Hlen U Ef Ep Eo Hx Hm Fm Hl. pose proof Hg as (_ & _ & _ & _ & _ & HB & _).
  set (e := m_epoch st + 1). pose proof (good_start g Hg Hnw H2 Hbs Hlen e) as G. pose proof G as [GI GC GA GL].
  destruct (full_all g Hg (g_B g) (S (length (concat (c_iters (start g e))))) (start g e) GI ltac:(lia)) as (R & sE & ER).
  assert (F : full g (g_B g) (start g e) R) by (eexists _, _; exact ER).
  destruct (fresh_visit g Hg Hnw Hst H2 Hbs Hlen Whole st R U F) as (stf' & Ef' & _). rewrite Ef in Ef'. injection Ef' as -> _.
  destruct (c_steps_ok g Hg (g_B g) ((m + sum ms) * g_B g) (start g e) GI) as (r & s' & b & E & I' & T & _ & Hb).
  destruct (fresh_save g Hg Hnw Hst H2 Hbs Hlen (m + sum ms) st R r s' b U F E) as (stp' & o' & sto' & Ep' & Eo' & Oe & Os & _).
  rewrite Ep in Ep'. injection Ep' as -> <-. rewrite Eo in Eo'. injection Eo' as <- <-.
  destruct (steps_at g Hg Hnw H2 Hbs Hlen e _ _ _ _ _ _ GI GA GL E) as (GA' & SS & GL').
  assert (Fn : Forall (fun l => l <> []) (c_iters s')).
  { rewrite GA'. apply Forall_forall. intros l Hin. apply in_map_iff in Hin. destruct Hin as (k & <- & Hk). apply in_seq in Hk.
    destruct (nth_error (c_counts s') k) as [c|] eqn:Ec; [|apply nth_error_None in Ec; lia].
    rewrite (nth_error_nth _ _ 0 Ec). intros C.
    rewrite <- Os, nth_error_map in Ec. destruct (nth_error (o_members o) k) as [sd|] eqn:Ek; [|discriminate]. cbn in Ec. injection Ec as <-.
    specialize (Hx k sd Ek). rewrite Oe in Hx. fold e in Hx. apply (f_equal (@length _)) in C. rewrite skipn_length in C. cbn in C. lia. }
  assert (b = false) as ->.
  { destruct b; [|reflexivity]. exfalso. destruct Hb as (_ & (k & Hk) & _). apply nth_error_In in Hk. rewrite Forall_forall in Fn. exact (Fn _ Hk eq_refl). }
  rewrite Nat.mul_add_distr_r in E. destruct (c_steps_split g _ _ _ _ _ _ E) as (r1 & s1 & r2 & E1 & E2).
  destruct (c_steps_ok g Hg (g_B g) (m * g_B g) (start g e) GI) as (ra & sa & ba & Ea & Ia & _). rewrite E1 in Ea. injection Ea as _ <- _.
  destruct (c_steps_ok g Hg (g_B g) (sum ms * g_B g) s1 Ia) as (r2' & s2' & b2 & E2' & _ & T2 & _).
  rewrite E2 in E2'. injection E2' as <- <- <-. pose proof (takes_nonempty _ _ _ T2 Fn) as Fn1.
  destruct (good_steps g Hg Hnw Hst H2 Hbs Hlen e _ _ _ _ _ G E1 Fn1) as (G1 & L1 & S1 & _).
  destruct (fresh_save g Hg Hnw Hst H2 Hbs Hlen m st R r1 s1 false U F E1) as (st1 & o1 & st2 & V1 & V2 & _ & _ & V3).
  specialize (V3 Hm eq_refl Fn1). subst o1.
  exists (at_one (firstn m (pieces (g_B g) R))), st1, (obj_at g e (c_counts s1)), st2, (at_one (pieces (g_B g) (skipn (m * g_B g) R))).
  split; [exact V1|]. split; [exact V2|]. split.
  - pose proof Sm as (M1 & M2 & M3 & M4 & M5 & M6 & M7 & M8 & M9).
    assert (Hg' : mcfg_ok g').
    { destruct Hg as (K1 & K2 & K3 & K4 & K5 & K6 & K7). unfold mcfg_ok. rewrite M1, M4, M5, M8, M9. split; [exact K1|]. split; [exact K2|].
      split; [exact K3|]. split; [exact K4|]. split; [exact K5|]. split; [exact K6|]. intros _. exact Hnw. }
    replace (obj_at g e (c_counts s1)) with (obj_at g' e (c_counts s1)) by (unfold obj_at; rewrite M9; reflexivity).
    rewrite <- M9. destruct G1 as [I1 C1 A1 N1].
    eapply (relay_ok g' Hg') with (r := r2) (s' := s').
    + congruence.
    + congruence.
    + rewrite M2, M5. exact H2.
    + rewrite M2, M6, M9. exact Hbs.
    + rewrite M6, M9. exact Hlen.
    + constructor; [exact I1|rewrite M4; exact C1| |rewrite M5; exact N1]. unfold iters_at. rewrite M5, M6, M9. exact A1.
    + rewrite M9. pose proof (full_skipn g _ _ _ _ _ _ F E1) as (N & sF & FN). exists N, sF. rewrite (c_steps_same g g' _ Sm). exact FN.
    + rewrite S1. nia.
    + exact Fm.
    + rewrite M9, (c_steps_same g g' _ Sm). exact E2.
    + exact Fn.
    + rewrite M2, M7. intros Ha. specialize (Hl Ha). rewrite SS, Hb.
      assert (Z : sum (c_counts (start g e)) = 0). { unfold start, c_init. cbn [c_counts]. generalize (length (map (fun k => g_data g k e (g_B g) 0) (seq 0 (g_members g)))). clear. induction n; cbn; auto. }
      lia.
  - unfold at_one. rewrite <- map_app. f_equal. rewrite Nat.mul_comm, <- pieces_skipn by exact HB. apply firstn_skipn.
Qed.
