(** Proofs about output directories. *)
From Coq Require Import String NArith Lia.
From Verif Require Import Base Names_Model Size_Model Paths_Model Paths_Proofs Output_Model Output_Spec.
Local Open Scope list_scope.
Local Open Scope nat_scope.
Local Ltac Zify.zify_post_hook ::= idtac.

Lemma mem_iff k l : mem k l = true <-> In k l.
Proof.
  unfold mem. rewrite existsb_exists. split.
  - intros (x & H & E). destruct (list_eq_dec N.eq_dec k x) as [->|]; [exact H|discriminate E].
  - intros H. exists k. split; [exact H|]. destruct (list_eq_dec N.eq_dec k k); [reflexivity|contradiction].
Qed.
Lemma mem_false k l : mem k l = false <-> ~ In k l.
Proof. rewrite <- mem_iff. destruct (mem k l); split; congruence. Qed.

Lemma listed_starts p limit prefix keys k : In k (listed p limit prefix keys) -> In k keys /\ starts prefix k = true.
Proof.
  unfold listed. destruct p; intros H.
  - rewrite <- filter_In. rewrite <- (firstn_skipn limit (filter (starts prefix) keys)). apply in_or_app. left. exact H.
  - rewrite <- filter_In. exact H.
Qed.

Lemma delete_keeps p limit path keys k : In k keys -> starts path k = false -> In k (delete p limit path keys).
Proof.
  intros H S. unfold delete. apply filter_In. split; [exact H|]. apply negb_true_iff, mem_false. intros G.
  apply listed_starts in G. destruct G as (_ & G). congruence.
Qed.

Lemma delete_sub p limit path keys k : In k (delete p limit path keys) -> In k keys.
Proof. unfold delete. intros H. apply filter_In in H. tauto. Qed.

Lemma listed_all p limit path keys :
  p = GCP \/ length (filter (starts path) keys) <= limit -> listed p limit path keys = filter (starts path) keys.
Proof. unfold listed. intros [->|H]; [reflexivity|]. destruct p; [|reflexivity]. apply firstn_all2. exact H. Qed.

Lemma delete_all p limit path keys k :
  p = GCP \/ length (filter (starts path) keys) <= limit -> In k (delete p limit path keys) -> starts path k = false.
Proof.
  intros Hp H. unfold delete in H. rewrite (listed_all _ _ _ _ Hp) in H. apply filter_In in H. destruct H as (Hk & H).
  apply negb_true_iff, mem_false in H. destruct (starts path k) eqn:E; [|reflexivity]. exfalso. apply H. apply filter_In. auto.
Qed.

Lemma rstrip_app s : rstrip_slash (s ++ [slash]) = rstrip_slash s.
Proof. unfold rstrip_slash. rewrite rev_app_distr. reflexivity. Qed.
Lemma lstrip_id s : starts [slash] s = false -> lstrip_slash s = s.
Proof.
  destruct s as [|c s]; [reflexivity|]. cbn [lstrip_slash starts]. rewrite andb_true_r. intros H.
  rewrite N.eqb_sym in H. rewrite H. reflexivity.
Qed.
Lemma rstrip_id s : ends [slash] s = false -> rstrip_slash s = s.
Proof. unfold ends, rstrip_slash. cbn [rev app]. intros H. rewrite lstrip_id by exact H. apply rev_involutive. Qed.

Lemma not_empty_mem p dir keys k :
  In k keys -> starts (match p with S3 => rstrip_slash dir ++ [slash] | GCP => dir end) k = true -> is_empty p dir keys = false.
Proof. intros H S. unfold is_empty. apply negb_false_iff. apply existsb_exists. exists k. auto. Qed.

Lemma starts_trans a b c : starts a b = true -> starts b c = true -> starts a c = true.
Proof. rewrite !starts_iff. intros (r & ->) (r' & ->). exists (r ++ r'). symmetry. apply app_assoc. Qed.

Lemma names_rstrip dir d : names dir d -> rstrip_slash dir = d.
Proof. intros (H & [->| ->]); [|rewrite rstrip_app]; apply rstrip_id, H. Qed.
Lemma names_starts dir d k : names dir d -> starts (d ++ [slash]) k = true -> starts dir k = true.
Proof.
  intros (_ & [->| ->]) H; [|exact H]. eapply starts_trans; [|exact H]. apply starts_app.
Qed.
Lemma names_not_empty p dir d keys k : names dir d -> In k keys -> starts (d ++ [slash]) k = true -> is_empty p dir keys = false.
Proof.
  intros N H S. apply (not_empty_mem p dir keys k H). destruct p; [rewrite (names_rstrip _ _ N); exact S|]. exact (names_starts _ _ _ N S).
Qed.
