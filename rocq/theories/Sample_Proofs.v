From Verif Require Import Base Format_Model Format_Proofs Codec_Model Codec_Spec Codec_Proofs
  Tree_Model Tree_Spec Tree_Proofs Sample_Model Sample_Spec.
From Coq Require Import NArith ZArith Lia.
Local Ltac Zify.zify_post_hook ::= idtac.
Local Open Scope nat_scope.

Lemma mapM_cons {A B} (f : A -> res B) x l :
  mapM f (x :: l) = bind (f x) (fun y => bind (mapM f l) (fun ys => Ok (y :: ys))).
Proof. reflexivity. Qed.

Section Round.
Context (isfile : list N -> bool) (pickle : leaf -> bytes) (unpickle : bytes -> res leaf).
Context (registered_w registered_r : nat -> bool).
Context (Hpickle : forall l, unpickle (pickle l) = Ok l).

Notation ser_new := (serialize_new isfile pickle).
Notation ser_with := (fun p : leaf * fmt => bind (serialize pickle (fmt_serializer (snd p)) (fst p)) (fun r =>
                           Ok (fst r, fmt_serializer (snd p)))).
Notation deser := (fun p : bytes * fmt => deserialize unpickle (snd p) (fst p)).

(** The fields of a sample: bytes with their true sizes, each read back. *)
Lemma first_fields ls :
  Forall (fun l => valid l /\ storable l) ls ->
  exists rs, mapM ser_new ls = Ok rs /\ map snd rs = map (entry isfile) ls /\
    map (fun r => declared_size (fmt_serializer (snd r)) (fst r)) rs = map (fun r => blen (fst r)) rs /\
    mapM deser rs = Ok ls.
Proof.
  induction 1 as [|l ls [Hv Hs] _ IH].
  - exists []. repeat split; reflexivity.
  - destruct IH as (rs & E & Ef & Es & Ed).
    destruct (fits_round pickle unpickle Hpickle (entry isfile l) l (entry_fits isfile l Hs) Hv Hs) as (b & f' & E1 & Hd & Dd).
    rewrite <- (serialize_new_by_entry isfile) in E1. destruct (serialize_new_entry isfile pickle l b f' E1) as [-> _].
    exists ((b, entry isfile l) :: rs). rewrite mapM_cons, E1. cbn [bind]. rewrite E. cbn [bind map fst snd].
    split; [reflexivity|]. split; [rewrite Ef; reflexivity|]. split; [rewrite Hd, Es; reflexivity|].
    rewrite mapM_cons. cbn [fst snd]. rewrite Dd. cbn [bind]. rewrite Ed. reflexivity.
Qed.

Lemma later_fields first ls :
  Forall2 same_kind first ls -> Forall (fun l => valid l /\ storable l) ls ->
  exists rs, mapM ser_with (combine ls (map (entry isfile) first)) = Ok rs /\
    map (fun r => declared_size (snd r) (fst r)) rs = map (fun r => blen (fst r)) rs /\
    length rs = length first /\
    mapM deser (combine (map fst rs) (map (entry isfile) first)) = Ok ls.
Proof.
  induction 1 as [|l0 l first ls Hk H IH]; intros Hg.
  - exists []. repeat split; reflexivity.
  - inversion Hg as [|? ? [Hv Hs] Hg']; subst. destruct (IH Hg') as (rs & E & Es & Hl & Ed).
    destruct (fits_round pickle unpickle Hpickle (entry isfile l0) l (same_kind_fits isfile l0 l Hk Hs) Hv Hs) as (b & f' & E1 & Hd & Dd).
    exists ((b, fmt_serializer (entry isfile l0)) :: rs). cbn [map combine]. rewrite mapM_cons. cbn [fst snd].
    rewrite E1. cbn [bind fst]. rewrite E. cbn [bind map fst snd length].
    split; [reflexivity|]. split; [rewrite Hd, Es; reflexivity|]. split; [rewrite Hl; reflexivity|].
    rewrite mapM_cons. cbn [fst snd]. rewrite Dd. cbn [bind]. rewrite Ed. reflexivity.
Qed.

Lemma combine_fst_snd {A B} (l : list (A * B)) : combine (map fst l) (map snd l) = l.
Proof. induction l as [|[a b] l IH]; [reflexivity|]. cbn. rewrite IH. reflexivity. Qed.

Definition formats (t : tree leaf) : list fmt := map (entry isfile) (leaves t).

Lemma first_sample t :
  tree_valid t -> good_values t ->
  exists b, serialize_sample isfile pickle fresh t = Ok (b, FState (Some (formats t)) (Some (spec_of t))) /\
    ((blen b < two32)%N -> deserialize_sample unpickle (formats t, spec_of t) b = Ok t).
Proof.
  intros Hv Hg. unfold serialize_sample. rewrite tree_flatten_ok. cbn [f_format fresh fst snd].
  destruct (first_fields (leaves t) Hg) as (rs & E & Ef & Es & Ed). rewrite E. cbn [bind].
  eexists. split; [rewrite Ef; reflexivity|].
  unfold encode_with. rewrite !map_map. cbn [fst snd]. rewrite Es. rewrite <- (map_map fst blen).
  intros Hb. unfold deserialize_sample. cbn [fst snd]. unfold formats. rewrite <- Ef.
  replace (length (map snd rs)) with (length (map fst rs)) by (rewrite !map_length; reflexivity).
  rewrite decode_encode by exact Hb. cbn [bind]. rewrite combine_fst_snd, Ed. cbn [bind].
  rewrite <- (map_id (leaves t)). rewrite unflatten_ok by exact Hv. rewrite tmap_id. reflexivity.
Qed.

Lemma tree_valid_structure {A B} (t : tree A) : forall (u : tree B), same_structure t u -> tree_valid t -> tree_valid u.
Proof.
  unfold same_structure.
  induction t as [l|k ts IH] using tree_ind2; intros u H Hv.
  - destruct u; [exact I|discriminate H].
  - destruct u as [|k' us]; [discriminate H|]. cbn [tmap] in H. injection H as <- H.
    cbn [tree_valid] in *. destruct Hv as [Hk Hts].
    assert (L : length us = length ts) by (apply (f_equal (@length _)) in H; rewrite !map_length in H; congruence).
    rewrite L. split; [exact Hk|]. clear Hk L.
    revert us H; induction IH as [|t ts Ht _ IHts]; intros us H; destruct us as [|u us]; cbn [map] in H; try discriminate; [exact I|].
    injection H as H1 H2. cbn [fold_right] in *. destruct Hts as [Hv1 Hv2]. split; [apply Ht; assumption|apply IHts; assumption].
Qed.

Lemma later_sample t0 t :
  tree_valid t0 -> leaves t0 <> [] -> like t0 t -> good_values t ->
  let st := FState (Some (formats t0)) (Some (spec_of t0)) in
  exists b, serialize_sample isfile pickle st t = Ok (b, st) /\
    ((blen b < two32)%N -> deserialize_sample unpickle (formats t0, spec_of t0) b = Ok t).
Proof.
  intros Hv Hne [Hst Hk] Hg st. unfold serialize_sample. rewrite tree_flatten_ok. cbn [f_format st fst snd].
  destruct (later_fields (leaves t0) (leaves t) Hk Hg) as (rs & E & Es & Hl & Ed).
  unfold formats. destruct (map (entry isfile) (leaves t0)) as [|f0 fs0] eqn:Ef.
  { destruct (leaves t0); [congruence|discriminate Ef]. }
  rewrite E. cbn [bind]. eexists. split; [reflexivity|]. unfold encode_with. rewrite Es, <- (map_map fst blen).
  intros Hb. unfold deserialize_sample. cbn [fst snd].
  replace (length (f0 :: fs0)) with (length (map fst rs)) by (rewrite <- Ef, !map_length; exact Hl).
  rewrite decode_encode by exact Hb. cbn [bind]. rewrite Ed. cbn [bind].
  rewrite (same_structure_spec t0 t Hst).
  rewrite <- (map_id (leaves t)). rewrite unflatten_ok by (apply (tree_valid_structure t0); assumption). rewrite tmap_id. reflexivity.
Qed.

Lemma later_samples t0 ts :
  tree_valid t0 -> leaves t0 <> [] -> Forall (fun t => like t0 t /\ good_values t) ts ->
  let st := FState (Some (formats t0)) (Some (spec_of t0)) in
  exists bs, serialize_all isfile pickle st ts = Ok (bs, st) /\
    (Forall (fun b => (blen b < two32)%N) bs ->
     mapM (deserialize_sample unpickle (formats t0, spec_of t0)) bs = Ok ts).
Proof.
  intros Hv Hne H st. induction H as [|t ts [Hk Hg] _ IH].
  - exists []. split; reflexivity.
  - destruct (later_sample t0 t Hv Hne Hk Hg) as (b & E & D). destruct IH as (bs & Es & Ds).
    fold st in E. exists (b :: bs). cbn [serialize_all]. rewrite E. cbn [bind fst snd]. rewrite Es. cbn [bind fst snd].
    split; [reflexivity|]. intros HF. inversion HF; subst. rewrite mapM_cons, D by assumption. cbn [bind].
    rewrite Ds by assumption. reflexivity.
Qed.

Lemma serialize_all_length ts : forall st bs st', serialize_all isfile pickle st ts = Ok (bs, st') -> length bs = length ts.
Proof.
  induction ts as [|t ts IH]; intros st bs st'; cbn [serialize_all].
  - intros H; injection H as <- _. reflexivity.
  - destruct (serialize_sample isfile pickle st t) as [[b st1]|e]; cbn [bind fst snd]; [|discriminate].
    destruct (serialize_all isfile pickle st1 ts) as [[bs1 st2]|e] eqn:E2; cbn [bind fst snd]; [|discriminate].
    intros H; injection H as <- _. cbn [length]. f_equal. eapply IH. exact E2.
Qed.

Theorem samples_round t0 ts :
  tree_valid t0 -> tree_plain registered_w registered_r t0 -> leaves t0 <> [] ->
  good_values t0 -> Forall (fun t => like t0 t /\ good_values t) ts ->
  exists bs c, write_samples isfile pickle registered_w (t0 :: ts) = Ok (bs, c) /\
    length bs = S (length ts) /\
    (Forall (fun b => (blen b < two32)%N) bs -> read_samples unpickle registered_r (bs, c) = Ok (t0 :: ts)).
Proof.
  intros Hv Hp Hne Hg H. unfold write_samples. cbn [serialize_all].
  destruct (first_sample t0 Hv Hg) as (b & E & D). rewrite E. cbn [bind fst snd].
  destruct (later_samples t0 ts Hv Hne H) as (bs & Es & Ds). rewrite Es. cbn [bind fst snd].
  unfold get_config. cbn [f_spec f_format]. destruct (spec_json registered_w registered_r t0 Hp) as (j & Ej & Dj).
  rewrite Ej. cbn [bind]. exists (b :: bs). eexists. split; [reflexivity|]. split.
  - cbn [length]. rewrite (serialize_all_length ts _ bs _ Es). reflexivity.
  - intros HF. inversion HF; subst. unfold read_samples. cbn [open_config snd fst]. rewrite Dj. cbn [bind].
    rewrite mapM_cons, D by assumption. cbn [bind]. rewrite Ds by assumption. reflexivity.
Qed.
End Round.
