(** Weights of a combined dataset: the properties. *)
From Verif Require Import Base Combined_Model Combined_Spec Combined_Proofs Choices_Model Choices_Spec Choices_Proofs Choices_Proofs2 Choices_Proofs3.
From Coq Require Import QArith Lqa.
Local Open Scope nat_scope.

(** C197: a combined dataset that stops at the first exhausted dataset draws every dataset with its
    share.  The numbers [us n] of the random generator are arbitrary in [0, 1); the weights are those
    the user gives, not negative, in any scale.  The sample after [n] others is the next one of
    dataset [k] - or the loop ends because that dataset is exhausted - where [k] is the only dataset
    for which [us n], scaled to the total, lies between the sum of the weights before [k] and that sum
    plus the weight of [k]: an interval as long as the weight of [k]. *)
Theorem C197_drawn_with_its_share {A} us B (given ws : list Q) lens (members : list (list A)) n out s' :
  (forall n, (0 <= us n < 1)%Q) ->
  given <> [] -> Forall (fun w => (0 <= w)%Q) given -> length given = length members ->
  init_weights false (Some given) lens = Ok ws ->
  after (pick us) false Stratified B ws n (c_init members ws None) = Some (out, s') ->
  exists k w, nth_error given k = Some w /\
    (qsum (firstn k given) <= us n * qsum given)%Q /\ (us n * qsum given < qsum (firstn k given) + w)%Q /\
    (forall j v, nth_error given j = Some v -> (qsum (firstn j given) <= us n * qsum given)%Q ->
       (us n * qsum given < qsum (firstn j given) + v)%Q -> j = k) /\
    match nth_error (c_iters s') k with
    | Some (x :: l) => exists s'', c_next (pick us) false Stratified B ws s' = Yield x s'' /\ c_iters s'' = upd k (fun _ => l) (c_iters s')
    | Some [] => exists s'', c_next (pick us) false Stratified B ws s' = Stop s''
    | None => False
    end.
Proof.
  intros Hus Hne Fg HL E Ha. destruct (given_ok _ _ _ E Hne Fg) as (L & Pg & Fw & S1 & Sc & _).
  assert (P : (0 < qsum ws)%Q) by (rewrite S1; reflexivity).
  destruct (after_K us Hus ws Fw P Stratified B ws n _ out s' (K_init ws members ltac:(congruence)) Ha) as (K1 & D & _).
  specialize (D eq_refl). cbn [c_init c_draws] in D. rewrite Nat.add_0_r in D.
  destruct (get_index_K us Hus ws Fw P Stratified B s' K1) as (k & s1 & w & Eg & K2 & Ei & Hw & Pw & Hm).
  destruct (Hm eq_refl) as (_ & I1 & I2). rewrite D in I1, I2. rewrite S1, Qmult_1_r in I1, I2.
  assert (Hk : k < length ws) by (apply nth_error_Some; congruence).
  destruct (nth_error given k) as [v|] eqn:Eg'; [|apply nth_error_None in Eg'; lia].
  assert (J1 : (qsum (firstn k given) <= us n * qsum given)%Q).
  { rewrite <- (Sc k). apply Qmult_le_compat_r; [exact I1|lra]. }
  assert (J2 : (us n * qsum given < qsum (firstn (S k) given))%Q).
  { rewrite <- (Sc (S k)). apply Qmult_lt_compat_r; [exact Pg|exact I2]. }
  exists k, v. split; [exact Eg'|]. split; [exact J1|].
  split; [rewrite <- (firstn_sum_S _ _ _ Eg'); exact J2|]. split.
  { intros j vj Ej A1 A2. rewrite <- (firstn_sum_S _ _ _ Ej) in A2. exact (interval_unique given _ j k Fg A1 A2 J1 J2). }
  unfold c_next. rewrite Eg. pose proof (get_sample_K us Hus ws k s1 K2 Hk) as G. rewrite Ei in G.
  destruct (nth_error (c_iters s') k) as [[|x l]|]; [rewrite G; eexists; reflexivity| |exact G].
  destruct G as (s2 & -> & _ & E2 & _). exists s2. split; [reflexivity|exact E2].
Qed.
Print Assumptions C197_drawn_with_its_share.

(** C197: a dataset of weight 0 is never used, however the batches are made: after any number of
    samples it still has all of its own, and the loop only ends because a dataset of positive weight
    is exhausted. *)
Theorem C197_weight_zero_never {A} us m B (given ws : list Q) lens (members : list (list A)) n out s' :
  (forall n, (0 <= us n < 1)%Q) ->
  given <> [] -> Forall (fun w => (0 <= w)%Q) given -> length given = length members ->
  init_weights false (Some given) lens = Ok ws ->
  after (pick us) false m B ws n (c_init members ws None) = Some (out, s') ->
  (forall k w, nth_error given k = Some w -> (w == 0)%Q -> nth_error (c_iters s') k = nth_error members k) /\
  (forall s'', c_next (pick us) false m B ws s' = Stop s'' ->
     exists k w, nth_error given k = Some w /\ (0 < w)%Q /\ nth_error (c_iters s') k = Some []) /\
  (forall e, c_next (pick us) false m B ws s' <> Raise e).
Proof.
  intros Hus Hne Fg HL E Ha. destruct (given_ok _ _ _ E Hne Fg) as (L & Pg & Fw & S1 & Sc & Nw).
  assert (P : (0 < qsum ws)%Q) by (rewrite S1; reflexivity).
  destruct (after_K us Hus ws Fw P m B ws n _ out s' (K_init ws members ltac:(congruence)) Ha) as (K1 & _ & Z).
  split.
  { intros k w Hk Hz. apply (Z k _ (Nw k w Hk)). rewrite Hz. field. intros C. rewrite C in Pg. apply Qlt_irrefl in Pg. exact Pg. }
  destruct (get_index_K us Hus ws Fw P m B s' K1) as (k & s1 & w & Eg & K2 & Ei & Hw & Pw & _).
  assert (Hk : k < length ws) by (apply nth_error_Some; congruence).
  unfold c_next. rewrite Eg. pose proof (get_sample_K us Hus ws k s1 K2 Hk) as G. rewrite Ei in G.
  destruct (nth_error (c_iters s') k) as [[|x l]|] eqn:En; [| |contradiction].
  - rewrite G. split; [|discriminate]. intros s'' _.
    destruct (nth_error given k) as [v|] eqn:Eg'; [|apply nth_error_None in Eg'; lia].
    exists k, v. split; [exact Eg'|]. split; [|exact En]. rewrite (Nw k v Eg') in Hw. injection Hw as <-.
    assert (H0 : ~ (qsum given == 0)%Q) by (intros C; rewrite C in Pg; apply Qlt_irrefl in Pg; exact Pg).
    pose proof (Qmult_lt_compat_r _ _ _ Pg Pw) as X.
    assert (Ev : (v / qsum given * qsum given == v)%Q) by (field; exact H0). rewrite Ev in X. lra.
  - destruct G as (s2 & -> & _). split; [discriminate|discriminate].
Qed.
Print Assumptions C197_weight_zero_never.

(** Three datasets with weights 2, 0 and 6, and numbers 1/5, 1/4, 9/10, 0: the datasets 0, 2, 2, 0. *)
Definition us_case (n : nat) : Q := nth n [1 # 5; 1 # 4; 9 # 10; 0; 1 # 8]%Q (1 # 2)%Q.
Example C197_case :
  init_weights false (Some [2; 0; 6]%Q) [5; 5; 5] = Ok [2 # 8; 0 # 8; 6 # 8]%Q /\
  map (fun n => choices (us_case n) [0; 1; 2] [2; 0; 6]%Q) [0; 1; 2; 3] = [Ok 0; Ok 2; Ok 2; Ok 0] /\
  match after (pick us_case) false Stratified 1 [2 # 8; 0 # 8; 6 # 8]%Q 4
          (c_init [[1; 2]; [11; 12]; [21; 22; 23]] [2 # 8; 0 # 8; 6 # 8]%Q None) with
  | Some (out, s) => out = [1; 21; 22; 2] /\ c_iters s = [[]; [11; 12]; [23]] /\
      match c_next (pick us_case) false Stratified 1 [2 # 8; 0 # 8; 6 # 8]%Q s with Stop _ => True | _ => False end
  | None => False
  end.
Proof. split; [vm_compute; reflexivity|]. split; [vm_compute; reflexivity|]. vm_compute. auto. Qed.

(** The draws of [random.choices] are among the remaining datasets: the hypothesis of C30, C31 and
    C32 about the random choices holds for them. *)
Theorem C197_choices_allowed us n (l : list nat) (ws : list Q) : l <> [] -> In (pick us n l ws) l.
Proof. apply pick_In. Qed.
Print Assumptions C197_choices_allowed.

(** C198 is false: a number of weights that differs from the number of datasets is accepted when the
    combined dataset is made; and whatever the weights, the first sample raises ValueError. *)
Theorem C198_number_of_weights_refuted :
  exists (given ws : list Q) (members : list (list nat)),
    length given <> length members /\ Forall (fun w => (0 < w)%Q) given /\
    init_weights false (Some given) (map (@length nat) members) = Ok ws.
Proof.
  exists [1; 1; 2]%Q, [1 # 4; 1 # 4; 2 # 4]%Q, [[1]; [2; 3]]. split; [discriminate|]. split; [|vm_compute; reflexivity].
  repeat constructor.
Qed.
Print Assumptions C198_number_of_weights_refuted.
Theorem C198_found_at_the_first_sample_partial {A} rng m B (given : list Q) lens (members : list (list A)) :
  given <> [] -> ~ (qsum given == 0)%Q -> length given <> length members ->
  exists ws, init_weights false (Some given) lens = Ok ws /\
    c_next rng false m B ws (c_init members ws None) = Raise ValueError.
Proof.
  intros Hne H0 HL. destruct given as [|g0 given']; [congruence|]. set (given := g0 :: given') in *.
  exists (map (fun w => (w / qsum given)%Q) given). split.
  - change (init_weights false (Some given) lens) with
      (if Qeq_bool (qsum given) 0 then Err ZeroDivisionError else Ok (map (fun w => (w / qsum given)%Q) given)).
    destruct (Qeq_bool (qsum given) 0) eqn:E; [apply Qeq_bool_iff in E; contradiction|reflexivity].
  - apply mismatch. rewrite map_length. exact HL.
Qed.
Print Assumptions C198_found_at_the_first_sample_partial.
Example C198_case :
  ~ (qsum [1; 1; 2]%Q == 0)%Q /\
  c_next (pick us_case) false PerStream 2 [1 # 4; 1 # 4; 2 # 4]%Q (c_init [[1]; [2; 3]] [1 # 4; 1 # 4; 2 # 4]%Q None) = Raise ValueError.
Proof. split; [discriminate|vm_compute; reflexivity]. Qed.

(** C199: in a loop over all datasets (the default) the datasets that are left are drawn in proportion
    to their lengths, also after some of them were found exhausted and the weights were divided again
    and again by the total of those left.  [us (c_draws s')] is the next random number. *)
Theorem C199_left_in_proportion {A} us B (lens : list nat) ws (members : list (list A)) n out s' :
  (forall n, (0 <= us n < 1)%Q) ->
  members <> [] -> length lens = length members -> Forall (fun n => 1 <= n) lens ->
  init_weights true None lens = Ok ws ->
  after (pick us) true Stratified B ws n (c_init members ws None) = Some (out, s') ->
  2 <= length (remaining (c_alive s') lens) ->
  (forall j, nth_error (c_alive s') j = Some false -> nth_error (c_iters s') j = Some []) /\
  exists k len, nth_error (c_alive s') k = Some true /\ nth_error lens k = Some len /\
    (let u := us (c_draws s') in
     let before := sum (remaining (firstn k (c_alive s')) (firstn k lens)) in
     let total := sum (remaining (c_alive s') lens) in
     (Qn before <= u * Qn total)%Q /\ (u * Qn total < Qn (before + len))%Q) /\
    match nth_error (c_iters s') k with
    | Some (x :: l) => exists s'', c_next (pick us) true Stratified B ws s' = Yield x s'' /\ c_iters s'' = upd k (fun _ => l) (c_iters s')
    | Some [] => True
    | None => False
    end.
Proof.
  intros Hus Hne HL F E Ha H2.
  destruct (prp_init lens ws members HL ltac:(intros Z; rewrite Z in HL; destruct members; [congruence|discriminate]) F E) as (P0 & Lw & Pw).
  destruct (after_prp (pick us) (pick_In us) lens Stratified B ws n _ out s' (init_inv (pick us) (pick_In us) members ws Hne Lw Pw) P0 Ha) as [I1 P1].
  assert (Li : length lens = length (c_iters s')).
  { destruct I1 as (L & _). rewrite <- L. destruct P1 as (c & _ & Hp). clear -Hp. induction Hp; cbn [length]; congruence. }
  split; [apply I1|].
  destruct (draw_left us Hus lens s' I1 P1 Li) as (k & len & En & Hk & Hlen & J1 & J2).
  exists k, len. split; [exact Hk|]. split; [exact Hlen|]. split; [split; assumption|].
  pose proof I1 as (L & _). assert (Hi : k < length (c_iters s')) by (rewrite <- L; apply nth_error_Some; congruence).
  destruct (nth_error (c_iters s') k) as [[|x l]|] eqn:Ei; [exact I| |apply nth_error_None in Ei; lia].
  unfold c_next. cbn [Nat.mul Nat.add next_all].
  rewrite (remaining_length (c_alive s') lens ltac:(congruence)), <- left_length in H2.
  destruct (left_indexes (c_alive s')) as [|k0 [|k1 lf]]; [cbn in H2; lia|cbn in H2; lia|].
  cbn [get_index]. rewrite En.
  destruct (get_sample_inv (pick us) (pick_In us) (set_draw s' (S (c_draws s')) (c_cur s') (c_inb s')) k x l I1 Ei) as (s2 & -> & _ & E2 & _).
  exists s2. split; [reflexivity|exact E2].
Qed.
Print Assumptions C199_left_in_proportion.

(** Lengths 2, 1 and 3; after dataset 1 was found exhausted, the numbers below 2/5 choose dataset 0 and
    the others dataset 2. *)
Definition us_case2 (n : nat) : Q := nth n [2 # 5; 2 # 5; 3 # 10; 1 # 2; 39 # 100]%Q (1 # 2)%Q.
Example C199_case :
  exists ws, init_weights true None [2; 1; 3] = Ok ws /\
  match after (pick us_case2) true Stratified 1 ws 3 (c_init [[1; 2]; [11]; [21; 22; 23]] ws None) with
  | Some (out, s) => out = [11; 1; 21] /\ c_alive s = [true; false; true] /\ remaining (c_alive s) [2; 1; 3] = [2; 3] /\ c_draws s = 4 /\
      match c_next (pick us_case2) true Stratified 1 ws s with Yield x _ => x = 2 | _ => False end
  | None => False
  end.
Proof. eexists. split; [vm_compute; reflexivity|]. vm_compute. auto 6. Qed.
