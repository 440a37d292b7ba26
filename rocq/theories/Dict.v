(** Python dictionaries with integer keys as association lists in insertion order. *)
From Verif Require Import Base.
Local Ltac Zify.zify_post_hook ::= idtac.

(** [d[k]] / [k in d]. *)
Fixpoint dget {A} (k : nat) (d : list (nat * A)) : option A :=
  match d with
  | [] => None
  | (k', v) :: d' => if k' =? k then Some v else dget k d'
  end.

(** [d[k] = v]. *)
Fixpoint dset {A} (k : nat) (v : A) (d : list (nat * A)) : list (nat * A) :=
  match d with
  | [] => [(k, v)]
  | (k', v') :: d' => if k' =? k then (k', v) :: d' else (k', v') :: dset k v d'
  end.

(** [d.pop(k)], [None] standing for KeyError. *)
Fixpoint dpop {A} (k : nat) (d : list (nat * A)) : option (A * list (nat * A)) :=
  match d with
  | [] => None
  | (k', v) :: d' =>
      if k' =? k then Some (v, d')
      else match dpop k d' with Some (x, r) => Some (x, (k', v) :: r) | None => None end
  end.

Lemma dget_dset {A} k k' (v : A) d : dget k' (dset k v d) = if k =? k' then Some v else dget k' d.
Proof.
  induction d as [|[k0 v0] d IH]; cbn; [reflexivity|].
  destruct (Nat.eqb_spec k0 k) as [->|H0].
  - cbn. destruct (Nat.eqb_spec k k') as [->|H]; reflexivity.
  - cbn. rewrite IH. destruct (Nat.eqb_spec k0 k') as [->|H1]; [|reflexivity].
    destruct (Nat.eqb_spec k k') as [->|]; [congruence|reflexivity].
Qed.

Lemma dget_In {A} k (v : A) d : dget k d = Some v -> In (k, v) d.
Proof.
  induction d as [|[k0 v0] d IH]; cbn; [discriminate|].
  destruct (Nat.eqb_spec k0 k) as [->|H]; intros E; [injection E as ->; left; reflexivity|right; auto].
Qed.

Lemma In_dget {A} k (v : A) d : NoDup (map fst d) -> In (k, v) d -> dget k d = Some v.
Proof.
  induction d as [|[k0 v0] d IH]; cbn; [intros _ []|]. intros Hn [E|Hin]; inversion Hn; subst.
  - injection E as -> ->. rewrite Nat.eqb_refl. reflexivity.
  - destruct (Nat.eqb_spec k0 k) as [->|H]; [|auto].
    exfalso. apply H1. apply in_map_iff. exists (k, v). auto.
Qed.


Lemma dget_None {A} k (d : list (nat * A)) : dget k d = None <-> ~ In k (map fst d).
Proof.
  induction d as [|[k0 v0] d IH]; cbn; [tauto|]. destruct (Nat.eqb_spec k0 k) as [->|H].
  - split; [discriminate|]. intros H; exfalso; apply H; left; reflexivity.
  - rewrite IH. split; [intros Hn [E|E]; auto|auto].
Qed.

Lemma dget_app {A} k (d e : list (nat * A)) :
  dget k (d ++ e) = match dget k d with Some v => Some v | None => dget k e end.
Proof. induction d as [|[k0 v0] d IH]; cbn; [reflexivity|]. destruct (k0 =? k); [reflexivity|apply IH]. Qed.

Lemma dset_new {A} k (v : A) d : dget k d = None -> dset k v d = d ++ [(k, v)].
Proof.
  induction d as [|[k0 v0] d IH]; cbn; [reflexivity|]. destruct (k0 =? k); [discriminate|].
  intros H. rewrite IH by exact H. reflexivity.
Qed.

Lemma dpop_dget {A} k (d : list (nat * A)) v : dget k d = Some v -> exists r, dpop k d = Some (v, r).
Proof.
  induction d as [|[k0 v0] d IH]; cbn; [discriminate|]. destruct (k0 =? k).
  - intros E; injection E as ->. eexists; reflexivity.
  - intros E. destruct (IH E) as [r ->]. eexists; reflexivity.
Qed.

Lemma dpop_split {A} k (d : list (nat * A)) v r :
  dpop k d = Some (v, r) -> exists d1 d2, d = d1 ++ (k, v) :: d2 /\ r = d1 ++ d2.
Proof.
  revert r; induction d as [|[k0 v0] d IH]; cbn; intros r; [discriminate|].
  destruct (Nat.eqb_spec k0 k) as [->|H].
  - intros E; injection E as -> ->. exists [], r. auto.
  - destruct (dpop k d) as [[x r']|]; [|discriminate]. intros E; injection E as -> <-.
    destruct (IH r' eq_refl) as (d1 & d2 & -> & ->). exists ((k0, v0) :: d1), d2. auto.
Qed.

Lemma dget_dpop {A} k (d : list (nat * A)) v r :
  NoDup (map fst d) -> dpop k d = Some (v, r) ->
  forall k', dget k' r = if k =? k' then None else dget k' d.
Proof.
  intros Hn H k'. destruct (dpop_split _ _ _ _ H) as (d1 & d2 & -> & ->).
  rewrite map_app in Hn. cbn [map fst] in Hn.
  pose proof (NoDup_remove_2 _ _ _ Hn) as Hk. rewrite <- map_app in Hk.
  apply dget_None in Hk. rewrite !dget_app in *. cbn [dget].
  destruct (Nat.eqb_spec k k') as [->|Hkk]; [exact Hk|]. reflexivity.
Qed.

Lemma NoDup_dpop {A} k (d : list (nat * A)) v r : NoDup (map fst d) -> dpop k d = Some (v, r) -> NoDup (map fst r).
Proof.
  intros Hn H. destruct (dpop_split _ _ _ _ H) as (d1 & d2 & -> & ->).
  rewrite map_app in *. cbn [map] in Hn. eapply NoDup_remove_1; exact Hn.
Qed.
