From Verif Require Import Base Validate_Model Validate_Spec.

Lemma token_eqb_spec a b : reflect (a = b) (token_eqb a b).
Proof.
  destruct a as [x|], b as [y|]; cbn; try (constructor; congruence).
  destruct (Nat.eqb_spec x y); constructor; congruence.
Qed.

Lemma validate_strict replace cache_dir cur st :
  (agrees replace cache_dir cur st /\ v_samples st <= c_len cur ->
   validate false replace cache_dir cur st = Ok st) /\
  (~ (agrees replace cache_dir cur st /\ v_samples st <= c_len cur) ->
   validate false replace cache_dir cur st = Err ValueError).
Proof.
  unfold agrees, resolved, validate, check.
  destruct (Bool.eqb_spec (v_shuffle st) (c_shuffle cur)); cbn [negb bind]; [|split; [tauto|reflexivity]].
  destruct (Nat.eqb_spec (v_workers st) (c_workers cur)); cbn [negb bind]; [|split; [tauto|reflexivity]].
  assert (Hp : forall T (k : vstate -> res T),
    bind (if replace (v_path st)
          then if negb (token_eqb (cache_dir (match v_path st with Some p => Some p | None => v_url st end) (v_cache st)) (c_path cur))
               then Err ValueError else Ok st
          else if negb (token_eqb (v_path st) (c_path cur)) then Err ValueError else Ok st) k
    = if negb (token_eqb (resolved replace cache_dir st) (c_path cur)) then Err ValueError else k st).
  { intros T k. unfold resolved. destruct (replace (v_path st)); destruct (token_eqb _ _); reflexivity. }
  rewrite Hp. fold (resolved replace cache_dir st).
  destruct (token_eqb_spec (resolved replace cache_dir st) (c_path cur)); cbn [negb bind]; [|split; [tauto|reflexivity]].
  destruct (token_eqb_spec (v_url st) (c_url cur)); cbn [negb bind]; [|split; [tauto|reflexivity]].
  destruct (Nat.eqb_spec (v_seed st) (c_seed cur)); cbn [negb bind]; [|split; [tauto|reflexivity]].
  destruct (c_loader cur) as [t|].
  - destruct (token_eqb_spec (v_loader st) t) as [El|El]; cbn [negb bind].
    2:{ split; [|reflexivity]. intros ((_ & _ & _ & _ & _ & H & _) & _). exfalso; apply El, H; reflexivity. }
    destruct (Bool.eqb_spec (v_drop st) (c_drop cur)); cbn [negb bind]; [|split; [tauto|reflexivity]].
    destruct (Nat.ltb_spec (c_len cur) (v_samples st)); split; intros H'; try reflexivity; exfalso.
    + lia.
    + apply H'. repeat split; auto. intros t' Ht; injection Ht as <-; exact El.
  - cbn [bind].
    destruct (Bool.eqb_spec (v_drop st) (c_drop cur)); cbn [negb bind]; [|split; [tauto|reflexivity]].
    destruct (Nat.ltb_spec (c_len cur) (v_samples st)); split; intros H'; try reflexivity; exfalso.
    + lia.
    + apply H'. repeat split; auto. discriminate.
Qed.

Lemma check_force d st st' : check true d st st' = Ok (if d then st' else st).
Proof. unfold check. destruct d; reflexivity. Qed.

(** All fields but the one numbered [k] are equal. *)
Definition same_but (k : nat) (s s' : vstate) : Prop :=
  v_samples s = v_samples s' /\ v_batch s = v_batch s' /\ v_cache s = v_cache s' /\ v_world s = v_world s' /\
  match k with 0 => True | _ => v_shuffle s = v_shuffle s' end /\
  match k with 1 => True | _ => v_workers s = v_workers s' end /\
  match k with 2 => True | _ => v_path s = v_path s' end /\
  match k with 3 => True | _ => v_url s = v_url s' end /\
  match k with 4 => True | _ => v_seed s = v_seed s' end /\
  match k with 5 => True | _ => v_loader s = v_loader s' end /\
  match k with 6 => True | _ => v_drop s = v_drop s' end.

Lemma validate_force replace cache_dir cur st :
  (c_len cur < v_samples st -> validate true replace cache_dir cur st = Err ValueError) /\
  (v_samples st <= c_len cur ->
   exists st', validate true replace cache_dir cur st = Ok st' /\
     v_shuffle st' = c_shuffle cur /\ v_workers st' = c_workers cur /\
     (v_path st' = c_path cur \/ (v_path st' = v_path st /\ resolved replace cache_dir st = c_path cur)) /\
     v_url st' = c_url cur /\ v_seed st' = c_seed cur /\
     (forall t, c_loader cur = Some t -> v_loader st' = t) /\ v_drop st' = c_drop cur /\
     v_samples st' = v_samples st /\ v_batch st' = v_batch st /\ v_world st' = v_world st).
Proof.
  unfold validate. rewrite check_force; cbn [bind].
  match goal with |- context [if ?b then VS ?x1 ?x2 ?x3 ?x4 ?x5 ?x6 ?x7 ?x8 ?x9 ?x10 ?x11 else st] =>
    set (s1 := if b then VS x1 x2 x3 x4 x5 x6 x7 x8 x9 x10 x11 else st) end.
  assert (F1 : same_but 0 s1 st /\ v_shuffle s1 = c_shuffle cur).
  { unfold s1. destruct (Bool.eqb_spec (v_shuffle st) (c_shuffle cur)); cbn; repeat split; auto. }
  clearbody s1. rewrite check_force; cbn [bind].
  match goal with |- context [if ?b then VS ?x1 ?x2 ?x3 ?x4 ?x5 ?x6 ?x7 ?x8 ?x9 ?x10 ?x11 else s1] =>
    set (s2 := if b then VS x1 x2 x3 x4 x5 x6 x7 x8 x9 x10 x11 else s1) end.
  assert (F2 : same_but 1 s2 s1 /\ v_workers s2 = c_workers cur).
  { unfold s2. destruct (Nat.eqb_spec (v_workers s1) (c_workers cur)); cbn; repeat split; auto. }
  clearbody s2. rewrite !check_force.
  set (cp := cache_dir _ _).
  match goal with |- context [bind (if _ then Ok ?a else Ok ?b)] =>
    set (s3 := if replace (v_path s2) then a else b) end.
  assert (F3 : same_but 2 s3 s2 /\
               (v_path s3 = c_path cur \/ (v_path s3 = v_path s2 /\ resolved replace cache_dir s2 = c_path cur))).
  { unfold s3, resolved. fold cp. destruct (replace (v_path s2)).
    - destruct (token_eqb_spec cp (c_path cur)); cbn; repeat split; auto.
    - destruct (token_eqb_spec (v_path s2) (c_path cur)); cbn; repeat split; auto. }
  assert (E3 : forall T (k : vstate -> res T), bind (if replace (v_path s2) then Ok (if negb (token_eqb cp (c_path cur)) then
      VS (v_samples s2) (v_workers s2) (v_batch s2) (c_path cur) (v_url s2) (v_cache s2)
                       (v_loader s2) (v_drop s2) (v_seed s2) (v_world s2) (v_shuffle s2) else s2) else 
      Ok (if negb (token_eqb (v_path s2) (c_path cur)) then
      VS (v_samples s2) (v_workers s2) (v_batch s2) (c_path cur) (v_url s2) (v_cache s2)
                       (v_loader s2) (v_drop s2) (v_seed s2) (v_world s2) (v_shuffle s2) else s2)) k = k s3).
  { intros T k. unfold s3. destruct (replace (v_path s2)); reflexivity. }
  rewrite E3. clear E3. clearbody s3. rewrite check_force; cbn [bind].
  match goal with |- context [if ?b then VS ?x1 ?x2 ?x3 ?x4 ?x5 ?x6 ?x7 ?x8 ?x9 ?x10 ?x11 else s3] =>
    set (s4 := if b then VS x1 x2 x3 x4 x5 x6 x7 x8 x9 x10 x11 else s3) end.
  assert (F4 : same_but 3 s4 s3 /\ v_url s4 = c_url cur).
  { unfold s4. destruct (token_eqb_spec (v_url s3) (c_url cur)); cbn; repeat split; auto. }
  clearbody s4. rewrite check_force; cbn [bind].
  match goal with |- context [if ?b then VS ?x1 ?x2 ?x3 ?x4 ?x5 ?x6 ?x7 ?x8 ?x9 ?x10 ?x11 else s4] =>
    set (s5 := if b then VS x1 x2 x3 x4 x5 x6 x7 x8 x9 x10 x11 else s4) end.
  assert (F5 : same_but 4 s5 s4 /\ v_seed s5 = c_seed cur).
  { unfold s5. destruct (Nat.eqb_spec (v_seed s4) (c_seed cur)); cbn; repeat split; auto. }
  clearbody s5.
  assert (F6 : exists s6, (forall T (k : vstate -> res T), bind (match c_loader cur with
        | None => Ok s5
        | Some t => check true (negb (token_eqb (v_loader s5) t)) s5
           (VS (v_samples s5) (v_workers s5) (v_batch s5) (v_path s5) (v_url s5) (v_cache s5)
                         t (v_drop s5) (v_seed s5) (v_world s5) (v_shuffle s5))
        end) k = k s6) /\ same_but 5 s6 s5 /\ (forall t, c_loader cur = Some t -> v_loader s6 = t)).
  { destruct (c_loader cur) as [t|].
    - rewrite check_force. eexists; split; [intros; reflexivity|].
      destruct (token_eqb_spec (v_loader s5) t) as [El|El]; cbn; repeat split; auto;
        intros t' Ht; injection Ht as <-; auto.
    - exists s5. split; [reflexivity|]. cbn; repeat split; auto. discriminate. }
  destruct F6 as (s6 & E6 & F6). rewrite E6. clear E6.
  rewrite check_force; cbn [bind].
  match goal with |- context [if ?b then VS ?x1 ?x2 ?x3 ?x4 ?x5 ?x6 ?x7 ?x8 ?x9 ?x10 ?x11 else s6] =>
    set (s7 := if b then VS x1 x2 x3 x4 x5 x6 x7 x8 x9 x10 x11 else s6) end.
  assert (F7 : same_but 6 s7 s6 /\ v_drop s7 = c_drop cur).
  { unfold s7. destruct (Bool.eqb_spec (v_drop s6) (c_drop cur)); cbn; repeat split; auto. }
  clearbody s7. unfold same_but in *.
  assert (Es : v_samples s7 = v_samples st) by intuition congruence. rewrite Es.
  destruct (Nat.ltb_spec (c_len cur) (v_samples st)) as [Hl|Hl]; split; intros Hl'; [reflexivity|lia|lia|].
  exists s7. split; [reflexivity|].
  split; [intuition congruence|]. split; [intuition congruence|].
  split. { destruct F3 as [_ [F3|[F3 F3']]]; [left; intuition congruence|].
           right. split; [intuition congruence|]. unfold resolved in *.
           assert (v_path s2 = v_path st) as Ep by intuition congruence.
           assert (v_url s2 = v_url st) as Eu by intuition congruence.
           assert (v_cache s2 = v_cache st) as Ec by intuition congruence.
           rewrite Ep, Eu, Ec in F3'. exact F3'. }
  split; [intuition congruence|]. split; [intuition congruence|].
  split. { intros t Ht. destruct F6 as [F6 F6']. specialize (F6' t Ht). intuition congruence. }
  repeat split; intuition congruence.
Qed.
