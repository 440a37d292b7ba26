(** Proofs for the calls of the user's function. *)
From Coq Require Import String Permutation Arith Lia.
From Coq Require Import NArith.
From Verif Require Import Base Names_Model Paths_Model Platform_Model Platform_Spec Calls_Model Calls_Spec.
Local Ltac Zify.zify_post_hook ::= idtac.
Local Open Scope list_scope.
Local Open Scope nat_scope.

(** ** Arguments of [map] *)
Section Bind.
Context (dv lv : val).
(** The keyword arguments for the parameters [rest]. *)
Definition kws_for (ps : list string) : list (string * val) :=
  (if existsb (String.eqb "device") ps then [("device"%string, dv)] else []) ++
  (if existsb (String.eqb "is_last") ps then [("is_last"%string, lv)] else []).

Lemma not_special n : ~ special n -> n <> "device"%string /\ n <> "is_last"%string.
Proof. unfold special. tauto. Qed.
Lemma kws_skip n ps : ~ special n -> kws_for (n :: ps) = kws_for ps.
Proof.
  intros H. destruct (not_special _ H) as [H1 H2]. unfold kws_for. cbn [existsb].
  destruct (String.eqb_spec "device" n); [congruence|]. destruct (String.eqb_spec "is_last" n); [congruence|]. reflexivity.
Qed.
Lemma find_special n ps : ~ special n -> find_kw n (kws_for ps) = None.
Proof.
  intros H. destruct (not_special _ H) as [H1 H2]. unfold kws_for.
  destruct (existsb (String.eqb "device") ps), (existsb (String.eqb "is_last") ps); cbn [app find_kw];
    repeat match goal with |- context [String.eqb ?x n] => destruct (String.eqb_spec x n); [congruence|] end; reflexivity.
Qed.
Lemma existsb_In n ps : existsb (String.eqb n) ps = true <-> In n ps.
Proof.
  rewrite existsb_exists. split; [intros (x & Hx & E); apply String.eqb_eq in E; subst; exact Hx|].
  intros H. exists n. split; [exact H|apply String.eqb_refl].
Qed.
Lemma existsb_not n ps : ~ In n ps -> existsb (String.eqb n) ps = false.
Proof. intros H. destruct (existsb (String.eqb n) ps) eqn:E; [|reflexivity]. apply existsb_In in E. tauto. Qed.

Lemma bind_rest ps : Forall optional ps -> NoDup (map q_name ps) ->
  (forall l p l', ps = l ++ p :: l' -> q_kind p = VarKeyword -> l' = []) ->
  exists e, bind_params ps [] (kws_for (map q_name ps)) = Ok e /\ Forall2 (gets dv lv) ps e.
Proof.
  induction ps as [|p ps IH]; intros Ho Hn Hk; [exists []; split; [reflexivity|constructor]|].
  inversion_clear Ho as [|? ? Hp Ho']. cbn [map] in Hn. inversion_clear Hn as [|? ? Hp' Hn'].
  destruct (IH Ho' Hn') as (e & E & F). { intros l q l' El. apply (Hk (p :: l)). rewrite El. reflexivity. }
  cbn [bind_params map].
  assert (Hnamed : q_kind p = Positional \/ q_kind p = KeywordOnly ->
    exists g kws, take_named p [] (kws_for (q_name p :: map q_name ps)) = Ok (g, [], kws) /\ kws = kws_for (map q_name ps) /\ gets dv lv p (q_name p, g)).
  { intros Kp. unfold optional in Hp.
    assert (Hp2 : special (q_name p) \/ q_default p <> None) by (destruct Kp as [K|K]; rewrite K in Hp; exact Hp). clear Hp.
    unfold take_named. destruct (String.string_dec (q_name p) "device") as [Ed|Nd].
    - rewrite Ed in Hp' |- *. exists (One dv), (kws_for (map q_name ps)). unfold kws_for. cbn [existsb]. rewrite (existsb_not _ _ Hp').
      change (String.eqb "device" "device") with true. change (String.eqb "is_last" "device") with false. cbn [orb].
      split; [|split; [reflexivity|apply gets_device; exact Ed]].
      destruct (existsb (String.eqb "is_last") (map q_name ps)); vm_compute; reflexivity.
    - destruct (String.string_dec (q_name p) "is_last") as [El|Nl].
      + rewrite El in Hp' |- *. exists (One lv), (kws_for (map q_name ps)). unfold kws_for. cbn [existsb]. rewrite (existsb_not _ _ Hp').
        change (String.eqb "is_last" "is_last") with true. change (String.eqb "device" "is_last") with false. cbn [orb].
        split; [|split; [reflexivity|apply gets_last; exact El]].
        destruct (existsb (String.eqb "device") (map q_name ps)); vm_compute; reflexivity.
      + assert (Hs : ~ special (q_name p)) by (unfold special; tauto).
        rewrite find_special by exact Hs. destruct (q_default p) as [d|] eqn:Ed; [|tauto].
        exists (One d), (kws_for (map q_name ps)). rewrite kws_skip by exact Hs. split; [reflexivity|]. split; [reflexivity|].
        apply gets_default; assumption. }
  unfold take. unfold optional in Hp. destruct (q_kind p) eqn:K.
  - destruct (Hnamed (or_introl eq_refl)) as (g & kws & E1 & -> & G). rewrite E1. cbn [bind fst snd]. rewrite E. cbn [bind].
    eexists. split; [reflexivity|]. constructor; assumption.
  - cbn [bind fst snd]. rewrite kws_skip by exact Hp. rewrite E. cbn [bind]. eexists. split; [reflexivity|]. constructor; [|exact F]. apply gets_none; assumption.
  - destruct (Hnamed (or_intror eq_refl)) as (g & kws & E1 & -> & G). rewrite E1. cbn [bind fst snd]. rewrite E. cbn [bind].
    eexists. split; [reflexivity|]. constructor; assumption.
  - assert (ps = []) as -> by (apply (Hk [] p ps); [reflexivity|exact K]). cbn [bind fst snd map]. rewrite kws_skip by exact Hp.
    eexists. split; [reflexivity|]. constructor; [|constructor]. apply gets_no_names; assumption.
Qed.
End Bind.

Lemma bind_for_map ps item dir dv lv : for_map ps ->
  exists e, bind_params ps [item; dir] (kws_for dv lv (map q_name ps)) = Ok e /\ right_call ps item dir dv lv e.
Proof.
  intros (a & b & rest & -> & Ka & Kb & Sa & Sb & Ho & Hn & Hk). cbn [map].
  rewrite (kws_skip dv lv _ _ Sa), (kws_skip dv lv _ _ Sb).
  cbn [map] in Hn. inversion_clear Hn as [|? ? _ Hn1]. inversion_clear Hn1 as [|? ? _ Hn2].
  destruct (bind_rest dv lv rest Ho Hn2 Hk) as (e & E & F). cbn [bind_params]. unfold take at 1. rewrite Ka.
  rewrite (find_special dv lv _ _ Sa). cbn [bind fst snd]. unfold take at 1. rewrite Kb, (find_special dv lv _ _ Sb). cbn [bind fst snd].
  rewrite E. cbn [bind]. eexists. split; [reflexivity|]. exists a, b, rest, e. auto.
Qed.

Definition device_val (k : option nat) : val := match k with Some k => Cuda k | None => VNone end.
Definition next_device {S} (c : callable S) (gpus : option nat) (rank : nat) (device : option nat) : option nat :=
  match device with None => if contains_param "device" c then find_device gpus rank else None | Some _ => device end.
Lemma prepare_kws {S} (c : callable S) gpus rank device item dir l :
  prepare_item c gpus rank device item dir l =
  (next_device c gpus rank device,
   bind (call c [item; dir] (kws_for (device_val (next_device c gpus rank device)) (VBool l) (parameters c))) (fun _ => Ok tt)).
Proof. reflexivity. Qed.
Lemma prepare_named {S} (c : callable S) f gpus rank device item dir l :
  c = Function f \/ c = Object f -> plain f -> for_map (f_params f) ->
  exists e, right_call (f_params f) item dir (device_val (next_device c gpus rank device)) (VBool l) e /\
    prepare_item c gpus rank device item dir l = (next_device c gpus rank device, bind (f_body f e) (fun _ => Ok tt)).
Proof.
  intros Hc Hp Hm. rewrite prepare_kws.
  destruct (bind_for_map _ item dir (device_val (next_device c gpus rank device)) (VBool l) Hm) as (e & E & R). exists e. split; [exact R|].
  f_equal. assert (Hq : parameters c = map q_name (f_params f)) by (unfold plain in Hp; destruct Hc as [-> | ->]; cbn [parameters]; rewrite Hp; reflexivity).
  rewrite Hq. destruct Hc as [-> | ->]; cbn [call]; rewrite E; reflexivity.
Qed.
Lemma prepare_hidden {S} (c : callable S) gpus rank device item dir l :
  (exists f, c = Method f) \/ (exists c' a k, c = Partial c' a k) ->
  snd (prepare_item c gpus rank device item dir l) = bind (call c [item; dir] []) (fun _ => Ok tt).
Proof. intros [(f & ->)|(c' & a & k & ->)]; reflexivity. Qed.

Lemma gets_without dv dv' lv ps e : ~ In "device"%string (map q_name ps) -> Forall2 (gets dv lv) ps e -> Forall2 (gets dv' lv) ps e.
Proof.
  intros H F. induction F as [|p x ps e G F IH]; [constructor|]. cbn [map] in H. constructor; [|apply IH; intros I; apply H; right; exact I].
  destruct G as [p E|p E|p d N K D|p N K|p N K]; [exfalso; apply H; left; exact E|apply gets_last; exact E|apply gets_default; assumption|apply gets_none; assumption|apply gets_no_names; assumption].
Qed.
Lemma map_calls_named {S} (c : callable S) f gpus rank calls :
  c = Function f \/ c = Object f -> plain f -> for_map (f_params f) ->
  forall device, device = None \/ (device = find_device gpus rank /\ contains_param "device" c = true) ->
  exists es, Forall2 (fun x e => right_call (f_params f) (fst (fst x)) (snd (fst x)) (device_val (find_device gpus rank)) (VBool (snd x)) e) calls es /\
    map_calls c gpus rank device calls = map (fun e => bind (f_body f e) (fun _ => Ok tt)) es.
Proof.
  intros Hc Hp Hm. induction calls as [|[[i d] l] calls IH]; intros device Hd; cbn [map_calls]; [exists []; split; [constructor|reflexivity]|].
  destruct (prepare_named c f gpus rank device i d l Hc Hp Hm) as (e & R & E). rewrite E. cbn [fst snd].
  assert (Hq : parameters c = map q_name (f_params f)) by (unfold plain in Hp; destruct Hc as [-> | ->]; cbn [parameters]; rewrite Hp; reflexivity).
  assert (Hn : (next_device c gpus rank device = find_device gpus rank /\ contains_param "device" c = true) \/
               (next_device c gpus rank device = None /\ contains_param "device" c = false)).
  { unfold next_device. destruct device as [k|]; [destruct Hd as [Hd|[Hd1 Hd2]]; [discriminate|left; split; assumption]|].
    destruct (contains_param "device" c); [left|right]; split; reflexivity. }
  destruct (IH (next_device c gpus rank device)) as (es & F & Em). { destruct Hn as [Hn|[Hn _]]; [right; exact Hn|left; exact Hn]. }
  exists (e :: es). cbn [map]. rewrite Em. split; [|reflexivity]. constructor; [|exact F]. cbn [fst snd].
  destruct Hn as [[<- _]|[_ Hc']]; [exact R|]. unfold contains_param in Hc'. rewrite Hq in Hc'.
  destruct R as (a & b & rest & e' & Eps & -> & F2). exists a, b, rest, e'. split; [exact Eps|]. split; [reflexivity|].
  eapply gets_without; [|exact F2]. intros I. assert (T : existsb (String.eqb "device") (map q_name (f_params f)) = true); [|congruence].
  apply existsb_In. rewrite Eps. cbn [map]. right. right. exact I.
Qed.

(** ** Generators *)
Lemma somes_flat {S} (l : list (option S)) : forall r, somes l r -> flat_map (fun o => match o with Some s => [s] | None => [] end) l = r.
Proof. induction 1 as [|l r _ IH|x l r _ IH]; cbn [flat_map app]; [reflexivity|exact IH|rewrite IH; reflexivity]. Qed.

Lemma around_unwrap {S} (c : callable S) f : around c f -> unwrap_partial c = Function f.
Proof. induction c as [g|g|g|c IH a k]; cbn [around unwrap_partial]; [intros ->; reflexivity|intros []|intros []|exact IH]. Qed.
Lemma around_call {S} (c : callable S) f : around c f -> forall args kws r, call c args kws = Ok r -> exists e, f_body f e = Ok r.
Proof.
  induction c as [g|g|g|c IH a k]; cbn [around call]; [|intros []|intros []|].
  - intros -> args kws r H. destruct (bind_params (f_params f) args kws) as [e|]; [|discriminate]. exists e. exact H.
  - intros H args kws r E. exact (IH H _ _ _ E).
Qed.
Lemma store_right {S} (c : callable S) f item o r :
  around c f \/ c = Object f -> honest f -> call c [item] [] = Ok o -> gives o r -> store_outputs c item = Ok r.
Proof.
  intros Hc Hh Ho Hg. unfold store_outputs. rewrite Ho.
  assert (Hi : is_generator c = f_yields f).
  { destruct Hc as [H| ->]; [|reflexivity]. pose proof (around_unwrap _ _ H) as E. unfold is_generator, isgeneratorfunction.
    destruct c as [g|g|g|c a k]; cbn [around] in H; try tauto; rewrite E, orb_false_r; reflexivity. }
  assert (He : exists e, f_body f e = Ok o).
  { destruct Hc as [H| ->]; [exact (around_call _ _ H _ _ _ Ho)|]. cbn [call] in Ho. destruct (bind_params (f_params f) [item] []) as [e|]; [|discriminate]. exists e. exact Ho. }
  destruct He as [e He]. specialize (Hh e o He). rewrite Hi. destruct Hg as [v r H|vs r H].
  - assert (f_yields f = false) as ->.
    { destruct (f_yields f); [|reflexivity]. destruct (proj1 Hh eq_refl) as [vs Ev]. discriminate. }
    inversion H as [|l r' H'|x l r' H']; inversion H'; subst; reflexivity.
  - rewrite (proj2 Hh (ex_intro _ vs eq_refl)). rewrite (somes_flat _ _ H). reflexivity.
Qed.

(** ** The last call *)
Lemma flags_exactly n l : 0 < n -> Permutation l (seq 0 n) ->
  exists a b, map (last_index n) l = repeat false a ++ true :: repeat false b.
Proof.
  intros H P. assert (I : In (n - 1) l) by (apply (Permutation_in _ (Permutation_sym P)), in_seq; lia).
  apply in_split in I. destruct I as (l1 & l2 & ->). exists (List.length l1), (List.length l2). rewrite map_app. cbn [map].
  assert (N : NoDup (l1 ++ (n - 1) :: l2)) by (apply (Permutation_NoDup (Permutation_sym P)), seq_NoDup). apply NoDup_remove in N. destruct N as [_ N].
  assert (F : forall l, ~ In (n - 1) l -> map (last_index n) l = repeat false (List.length l)).
  { induction l as [|x l IH]; intros Hx; [reflexivity|]. cbn [map List.length repeat]. rewrite IH by (intros Hl; apply Hx; right; exact Hl).
    unfold last_index. destruct (Nat.eqb_spec (n - 1) x) as [E|_]; [|reflexivity]. exfalso. apply Hx. left. congruence. }
  rewrite !F by (intros Hl; apply N, in_or_app; tauto). unfold last_index. rewrite Nat.eqb_refl. reflexivity.
Qed.
Lemma flags_seq n : 0 < n -> map (last_index n) (seq 0 n) = repeat false (n - 1) ++ [true].
Proof.
  intros H. destruct n as [|n]; [lia|]. rewrite seq_S, map_app. cbn [map Nat.add]. replace (S n - 1) with n by lia.
  f_equal; [|unfold last_index; replace (S n - 1) with n by lia; rewrite Nat.eqb_refl; reflexivity].
  assert (F : forall l, (forall i, In i l -> i < n) -> map (last_index (S n)) l = repeat false (List.length l)).
  { induction l as [|x l IH]; intros Hx; [reflexivity|]. cbn [map List.length repeat]. rewrite IH by (intros i Hi; apply Hx; right; exact Hi).
    unfold last_index. destruct (Nat.eqb_spec (S n - 1) x) as [E|_]; [|reflexivity]. specialize (Hx x (or_introl eq_refl)). lia. }
  rewrite F, seq_length; [reflexivity|]. intros i Hi. apply in_seq in Hi. lia.
Qed.
Lemma flags_once n l : NoDup l -> (forall i, In i l -> i < n) ->
  map (last_index n) l = repeat false (List.length l) \/ exists a b, map (last_index n) l = repeat false a ++ true :: repeat false b.
Proof.
  intros N H. assert (F : forall l, ~ In (n - 1) l -> map (last_index n) l = repeat false (List.length l)).
  { clear. induction l as [|x l IH]; intros Hx; [reflexivity|]. cbn [map List.length repeat]. rewrite IH by (intros Hl; apply Hx; right; exact Hl).
    unfold last_index. destruct (Nat.eqb_spec (n - 1) x) as [E|_]; [|reflexivity]. exfalso. apply Hx. left. congruence. }
  destruct (in_dec Nat.eq_dec (n - 1) l) as [I|I]; [right|left; apply F; exact I].
  apply in_split in I. destruct I as (l1 & l2 & ->). exists (List.length l1), (List.length l2). rewrite map_app. cbn [map].
  apply NoDup_remove in N. destruct N as [_ N]. rewrite !F by (intros Hl; apply N, in_or_app; tauto). unfold last_index. rewrite Nat.eqb_refl. reflexivity.
Qed.

(** ** Devices *)
Lemma count_residues g d : d < g -> forall n s,
  let c := List.length (filter (fun w => (w mod g) =? d) (seq s n)) in n / g <= c <= S (n / g) /\ (n mod g = 0 -> c = n / g).
Proof.
  intros Hd.
  assert (One : forall s, List.length (filter (fun w => w mod g =? d) (seq s g)) = 1).
  { intros s. set (x := s + (d + g - s mod g) mod g).
    assert (Hx : x mod g = d /\ s <= x < s + g).
    { unfold x. pose proof (Nat.mod_upper_bound (d + g - s mod g) g ltac:(lia)). split; [|lia].
      rewrite <- Nat.add_mod_idemp_l by lia. rewrite Nat.add_mod_idemp_r by lia.
      pose proof (Nat.mod_upper_bound s g ltac:(lia)). replace (s mod g + (d + g - s mod g)) with (d + 1 * g) by lia.
      rewrite Nat.mod_add by lia. apply Nat.mod_small. exact Hd. }
    assert (P : filter (fun w => w mod g =? d) (seq s g) = [x]).
    { assert (N : NoDup (filter (fun w => w mod g =? d) (seq s g))) by (apply NoDup_filter, seq_NoDup).
      assert (M : forall y, In y (filter (fun w => w mod g =? d) (seq s g)) <-> y = x).
      { intros y. rewrite filter_In, in_seq, Nat.eqb_eq. split.
        - intros [Hy Ey]. destruct Hx as [Ex Hx]. destruct (Nat.lt_trichotomy x y) as [L|[E|L]]; [|congruence|].
          + exfalso. pose proof (Nat.div_mod y g ltac:(lia)). pose proof (Nat.div_mod x g ltac:(lia)). 
            assert (y - x = g * (y / g - x / g)) by nia. assert (y / g - x / g = 0 \/ 1 <= y / g - x / g) by lia. nia.
          + exfalso. pose proof (Nat.div_mod y g ltac:(lia)). pose proof (Nat.div_mod x g ltac:(lia)).
            assert (x - y = g * (x / g - y / g)) by nia. assert (x / g - y / g = 0 \/ 1 <= x / g - y / g) by lia. nia.
        - intros ->. destruct Hx. split; [lia|assumption]. }
      destruct (filter (fun w => w mod g =? d) (seq s g)) as [|a [|b t]].
      - exfalso. assert (In x []) as [] by (apply M; reflexivity).
      - f_equal. apply M. left. reflexivity.
      - exfalso. inversion_clear N as [|? ? Na _]. apply Na. left. transitivity x; [apply M; right; left; reflexivity|symmetry; apply M; left; reflexivity]. }
    rewrite P. reflexivity. }
  assert (Small : forall n s, n < g -> List.length (filter (fun w => w mod g =? d) (seq s n)) <= 1).
  { intros n s Hn. pose proof (One s) as O. replace (seq s g) with (seq s n ++ seq (s + n) (g - n)) in O by (rewrite <- seq_app; f_equal; lia). rewrite filter_app, app_length in O. lia. }
  induction n as [n IH] using (well_founded_induction lt_wf). intros s. cbn zeta.
  destruct (Nat.lt_ge_cases n g) as [L|L].
  - rewrite Nat.div_small, Nat.mod_small by lia. pose proof (Small n s L). split; [lia|]. intros ->. reflexivity.
  - specialize (IH (n - g) ltac:(lia) (s + g)). cbn zeta in IH. replace (seq s n) with (seq s g ++ seq (s + g) (n - g)) by (rewrite <- seq_app; f_equal; lia).
    rewrite filter_app, app_length, One.
    assert (Ed : n / g = S ((n - g) / g)). { replace n with (n - g + 1 * g) at 1 by lia. rewrite Nat.div_add by lia. lia. }
    assert (Em : n mod g = (n - g) mod g). { replace n with (n - g + 1 * g) at 1 by lia. rewrite Nat.mod_add by lia. reflexivity. }
    rewrite Ed, Em. destruct IH as [I1 I2]. split; [lia|]. intros E. specialize (I2 E). lia.
Qed.
Lemma users_count g d nw node : d < g ->
  users (fun w => find_device (Some g) (global_rank nw node w)) nw d =
  List.length (filter (fun w => (w mod g) =? d) (seq (node * nw) nw)).
Proof.
  intros _. unfold users. cbn [find_device].
  assert (forall n s, List.length (filter (fun w => global_rank nw node w mod g =? d) (seq s n)) =
    List.length (filter (fun w => w mod g =? d) (seq (node * nw + s) n))) as H.
  { induction n as [|n IH]; intros s; [reflexivity|]. cbn [seq filter]. unfold global_rank at 1.
    specialize (IH (S s)). rewrite Nat.add_succ_r in IH. destruct ((node * nw + s) mod g =? d); cbn [List.length]; congruence. }
  rewrite H, Nat.add_0_r. reflexivity.
Qed.

(** ** Output directories *)
Lemma starts_split p : ~ In slash p -> forall a b, starts p (a ++ slash :: b) = starts p a.
Proof.
  induction p as [|c p IH]; intros H a b; [destruct a; reflexivity|]. destruct a as [|x a]; cbn [app starts].
  - destruct (N.eqb_spec c slash) as [->|_]; [|reflexivity]. exfalso. apply H. left. reflexivity.
  - rewrite IH by (intros I; apply H; right; exact I). reflexivity.
Qed.
Lemma contains_split p : p <> [] -> ~ In slash p -> forall a b, contains p (a ++ slash :: b) = contains p a || contains p b.
Proof.
  intros Hp H. induction a as [|x a IH]; intros b.
  - cbn [app contains]. destruct p as [|c p]; [congruence|]. cbn [starts].
    destruct (N.eqb_spec c slash) as [->|_]; [exfalso; apply H; left; reflexivity|]. reflexivity.
  - cbn [app contains]. rewrite IH. change (x :: a ++ slash :: b) with ((x :: a) ++ slash :: b). rewrite (starts_split p H (x :: a) b).
    apply orb_assoc.
Qed.
Lemma contains_path p base names : p <> [] -> ~ In slash p -> contains p base = false -> Forall (fun n => contains p n = false) names ->
  contains p (base ++ path names) = false.
Proof.
  intros Hp H Hb Hn. revert base Hb. induction Hn as [|n names Hn _ IH]; intros base Hb.
  - unfold path. cbn [map concat]. rewrite app_nil_r. exact Hb.
  - unfold path. cbn [map concat app]. rewrite contains_split by assumption. rewrite Hb. cbn [orb]. apply (IH n Hn).
Qed.

(** ** Partials of partials *)
Lemma find_kw_find n : forall kws, find_kw n kws = match find (fun kv => String.eqb (fst kv) n) kws with Some kv => Some (snd kv) | None => None end.
Proof. induction kws as [|[k v] kws IH]; [reflexivity|]. cbn [find_kw find fst]. destruct (String.eqb k n); [reflexivity|exact IH]. Qed.
Lemma find_kw_app n : forall a b, find_kw n (a ++ b) = match find_kw n a with Some v => Some v | None => find_kw n b end.
Proof. induction a as [|[k v] a IH]; intros b; [reflexivity|]. cbn [app find_kw]. destruct (String.eqb k n); [reflexivity|apply IH]. Qed.
Lemma find_kw_merged n kws : forall a, find_kw n (filter (fun kv => match find_kw (fst kv) kws with None => true | Some _ => false end) a ++ kws) =
  match find_kw n kws with Some v => Some v | None => find_kw n a end.
Proof.
  intros a. rewrite find_kw_app. induction a as [|[k v] a IH]; cbn [filter find_kw]; [destruct (find_kw n kws); reflexivity|].
  cbn [fst]. destruct (String.eqb k n) eqn:E.
  - apply String.eqb_eq in E. subst k. destruct (find_kw n kws) eqn:F; [exact IH|]. cbn [find_kw]. rewrite String.eqb_refl. reflexivity.
  - destruct (find_kw k kws); [exact IH|]. cbn [find_kw]. rewrite E. exact IH.
Qed.
Lemma call_partials {S} : forall (c : callable S) args kws, exists f named,
  inside c f /\ call c args kws = bind (bind_params (f_params f) (bound_args c ++ args) named) (f_body f) /\
  forall n, find_kw n named = match find_kw n kws with Some v => Some v | None => bound_kw c n end.
Proof.
  induction c as [f|f|f|c IH args' kws']; intros args kws; try (exists f, kws; split; [reflexivity|]; split; [reflexivity|]; intros n; cbn [bound_kw]; destruct (find_kw n kws); reflexivity).
  cbn [call inside bound_args bound_kw]. destruct (IH (args' ++ args) (filter (fun kv => match find_kw (fst kv) kws with None => true | Some _ => false end) kws' ++ kws)) as (f & named & F & E & H).
  exists f, named. split; [exact F|]. split; [rewrite E, app_assoc; reflexivity|]. intros n. rewrite H, find_kw_merged.
  destruct (find_kw n kws); [reflexivity|]. rewrite find_kw_find. destruct (find _ kws'); reflexivity.
Qed.
