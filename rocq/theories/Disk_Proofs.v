From Verif Require Import Base Disk_Model Disk_Spec.
Local Ltac Zify.zify_post_hook ::= idtac.

Lemma split_set {A} (l : list A) : forall d x, nth_error l d = Some x ->
  exists l1 l2, l = l1 ++ x :: l2 /\ forall y, set_nth l d y = l1 ++ y :: l2.
Proof.
  induction l as [|a l IH]; intros [|d] x H; try discriminate H.
  - injection H as <-. exists [], l. split; reflexivity.
  - destruct (IH d x H) as (l1 & l2 & -> & E). exists (a :: l1), l2. split; [reflexivity|]. intros y. cbn [set_nth]. rewrite E. reflexivity.
Qed.
Lemma sum_app_ a b : sum (a ++ b) = sum a + sum b.
Proof. induction a as [|x a IH]; cbn [app sum]; [reflexivity|]. rewrite IH. lia. Qed.
Lemma sum_perm a b : Permutation a b -> sum a = sum b.
Proof. induction 1; cbn [sum]; lia. Qed.

(** What a downloader has promised to write, what it has written of its input, its inputs, and how many steps its inputs can still cause. *)
Definition held (x : list nat * dstate) : nat := match snd x with Copies _ rest => sum rest | _ => 0 end.
Definition begun (j : job) (x : list nat * dstate) : nat := match snd x with Copies i rest => sum (j_sizes j i) - sum rest | _ => 0 end.
Definition cur (st : dstate) : list nat := match st with Waits => [] | Checks i => [i] | Copies i _ => [i] end.
Definition pend (x : list nat * dstate) : list nat := cur (snd x) ++ fst x.
Definition cost (j : job) (i : nat) : nat := 4 + 2 * length (j_sizes j i).
Definition work (j : job) (x : list nat * dstate) : nat :=
  sum (map (cost j) (fst x)) +
  match snd x with Waits => 0 | Checks i => 3 + 2 * length (j_sizes j i) | Copies i rest => length rest + 2 + length (j_sizes j i) end.
Definition mu (j : job) (s : disk) : nat :=
  sum (map (work j) (s_dl s)) + sum (map (fun i => 1 + length (j_sizes j i)) (s_ready s)) + length (s_gone s).

Ltac split_dl H := let l1 := fresh "l1" in let l2 := fresh "l2" in let E := fresh "E" in let Es := fresh "Es" in
  destruct (split_set _ _ _ H) as (l1 & l2 & E & Es).

(** All the ways to make a step. *)
Lemma step_cases j s t s' : step j s t = Some s' ->
  (exists l1 l2 i q, s_dl s = l1 ++ (i :: q, Waits) :: l2 /\ s' = Disk (s_free s) (l1 ++ (q, Checks i) :: l2) (s_ready s) (s_gone s) (s_worked s) (s_full s))
  \/ (exists l1 l2 i q, s_dl s = l1 ++ (q, Checks i) :: l2 /\ j_threshold j < match j_root j with None => s_free s | Some r => r end /\
        s' = Disk (s_free s) (l1 ++ (q, Copies i (j_sizes j i)) :: l2) (s_ready s) (s_gone s) (s_worked s) (s_full s))
  \/ (exists l1 l2 i q b rest, s_dl s = l1 ++ (q, Copies i (b :: rest)) :: l2 /\
        s' = (if b <=? s_free s then Disk (s_free s - b) (l1 ++ (q, Copies i rest) :: l2) (s_ready s) (s_gone s) (s_worked s) (s_full s)
              else Disk (s_free s) (l1 ++ (q, Copies i rest) :: l2) (s_ready s) (s_gone s) (s_worked s) true))
  \/ (exists l1 l2 i q, s_dl s = l1 ++ (q, Copies i []) :: l2 /\
        s' = Disk (s_free s) (l1 ++ (q, Waits) :: l2) (s_ready s ++ [i]) (s_gone s) (s_worked s) (s_full s))
  \/ (exists i r, s_ready s = i :: r /\ let gone := s_gone s ++ (if j_remove j then j_sizes j i else []) in
        s' = (if j_out j i <=? s_free s then Disk (s_free s - j_out j i) (s_dl s) r gone (s_worked s ++ [i]) (s_full s)
              else Disk (s_free s) (s_dl s) r gone (s_worked s ++ [i]) true))
  \/ (exists b g, s_gone s = b :: g /\ s' = Disk (s_free s + b) (s_dl s) (s_ready s) g (s_worked s) (s_full s)).
Proof.
  unfold step. destruct t as [d| |].
  - destruct (nth_error (s_dl s) d) as [[q [|i|i [|b rest]]]|] eqn:E; try discriminate.
    + destruct q as [|i q]; [discriminate|]. split_dl E. intros H. injection H as <-. left. exists l1, l2, i, q. rewrite Es. auto.
    + destruct (Nat.leb_spec (match j_root j with None => s_free s | Some r => r end) (j_threshold j)) as [Hl|Hl]; [destruct q; discriminate|].
      split_dl E. rewrite Es. intros H. right; left. exists l1, l2, i, q. split; [exact E0|]. split; [exact Hl|]. destruct q; injection H as <-; reflexivity.
    + split_dl E. rewrite Es. intros H. do 3 right; left. exists l1, l2, i, q. split; [exact E0|]. destruct q; injection H as <-; reflexivity.
    + split_dl E. rewrite Es. intros H. do 2 right; left. exists l1, l2, i, q, b, rest. split; [exact E0|].
      destruct (b <=? s_free s), q; injection H as <-; reflexivity.
  - destruct (s_ready s) as [|i r]; [discriminate|]. intros H. do 4 right; left. exists i, r. split; [reflexivity|]. cbv zeta.
    destruct (j_out j i <=? s_free s); injection H as <-; reflexivity.
  - destruct (s_gone s) as [|b g]; [discriminate|]. intros H. do 5 right. exists b, g. injection H as <-. auto.
Qed.

(** The number of steps is limited. *)
Lemma mu_step j s t s' : step j s t = Some s' -> mu j s' < mu j s.
Proof.
  intros H. unfold mu. destruct (step_cases _ _ _ _ H) as [(l1 & l2 & i & q & E & ->)|[(l1 & l2 & i & q & E & _ & ->)|[(l1 & l2 & i & q & b & rest & E & ->)|[(l1 & l2 & i & q & E & ->)|[(i & r & E & ->)|(b & g & E & ->)]]]]].
  - rewrite E. cbn [s_dl s_ready s_gone]. rewrite !map_app, !sum_app_. cbn [map sum]. unfold work at 2 5. cbn [fst snd map sum]. change (cost j i) with (4 + 2 * length (j_sizes j i)). lia.
  - rewrite E. cbn [s_dl s_ready s_gone]. rewrite !map_app, !sum_app_. cbn [map sum]. unfold work at 2 5. cbn [fst snd map sum]. lia.
  - rewrite E. assert (X : forall f fl, s_dl (Disk f (l1 ++ (q, Copies i rest) :: l2) (s_ready s) (s_gone s) (s_worked s) fl) = l1 ++ (q, Copies i rest) :: l2) by reflexivity.
    destruct (b <=? s_free s); cbn [s_dl s_ready s_gone]; rewrite !map_app, !sum_app_; cbn [map sum]; unfold work at 2 5; cbn [fst snd map sum length]; lia.
  - rewrite E. cbn [s_dl s_ready s_gone]. rewrite !map_app, !sum_app_. cbn [map sum]. unfold work at 2 5. cbn [fst snd map sum length]. lia.
  - rewrite E. cbv zeta. destruct (j_out j i <=? s_free s); cbn [s_dl s_ready s_gone map sum]; rewrite app_length; destruct (j_remove j); cbn [length]; lia.
  - rewrite E. cbn [s_dl s_ready s_gone length]. lia.
Qed.
Lemma mu_steps j l : forall s s', steps j s l = Some s' -> length l + mu j s' <= mu j s.
Proof.
  induction l as [|t l IH]; intros s s' H; cbn [steps length] in *; [injection H as <-; lia|].
  destruct (step j s t) as [s1|] eqn:E; [|discriminate]. pose proof (mu_step _ _ _ _ E). pose proof (IH _ _ H). lia.
Qed.
Lemma mu_start j free queues : mu j (start free queues) = sum (map (cost j) (concat queues)).
Proof.
  unfold mu, start. cbn [s_dl s_ready s_gone map sum length]. rewrite !Nat.add_0_r.
  induction queues as [|q l IH]; [reflexivity|]. cbn [map sum concat]. rewrite map_app, sum_app_, IH. unfold work. cbn [fst snd]. lia.
Qed.

(** The invariant of all runs: no input is lost or doubled, and nobody has more to copy than its input. *)
Record inv (j : job) (queues : list (list nat)) (s : disk) : Prop := Inv {
  i_perm : Permutation (flat_map pend (s_dl s) ++ s_ready s ++ s_worked s) (concat queues);
  i_len : length (s_dl s) = length queues;
  i_rest : Forall (fun x => match snd x with Copies i rest => exists did, j_sizes j i = did ++ rest | _ => True end) (s_dl s) }.
Lemma inv_start j free queues : inv j queues (start free queues).
Proof.
  split; unfold start; cbn [s_dl s_ready s_worked].
  - rewrite app_nil_r. rewrite flat_map_concat_map, map_map. unfold pend. cbn [fst snd cur app]. rewrite map_id. reflexivity.
  - apply map_length.
  - apply Forall_forall. intros x Hx. apply in_map_iff in Hx. destruct Hx as (q & <- & _). exact I.
Qed.
Lemma move (a b : list nat) l1 l2 (p : list nat) : Permutation a b -> Permutation ((l1 ++ a ++ l2) ++ p) ((l1 ++ b ++ l2) ++ p).
Proof. intros H. rewrite H. reflexivity. Qed.
Lemma inv_step j queues s t s' : inv j queues s -> step j s t = Some s' -> inv j queues s'.
Proof.
  intros [P L R] H. destruct (step_cases _ _ _ _ H) as [(l1 & l2 & i & q & E & ->)|[(l1 & l2 & i & q & E & _ & ->)|[(l1 & l2 & i & q & b & rest & E & ->)|[(l1 & l2 & i & q & E & ->)|[(i & r & E & ->)|(b & g & E & ->)]]]]].
  - rewrite E in P, L, R. apply Forall_app in R. destruct R as [R1 R2]. inversion R2; subst.
    split; cbn [s_dl s_ready s_worked]; [rewrite flat_map_app in *; cbn [flat_map] in *; exact P|rewrite app_length in *; exact L|].
    apply Forall_app. split; [assumption|]. constructor; [exact I|assumption].
  - rewrite E in P, L, R. apply Forall_app in R. destruct R as [R1 R2]. inversion R2; subst.
    split; cbn [s_dl s_ready s_worked]; [rewrite flat_map_app in *; cbn [flat_map] in *; exact P|rewrite app_length in *; exact L|].
    apply Forall_app. split; [assumption|]. constructor; [exists []; reflexivity|assumption].
  - rewrite E in P, L, R. apply Forall_app in R. destruct R as [R1 R2]. inversion R2 as [|x y HD R3]; subst. cbn [snd] in HD. destruct HD as (did & D).
    assert (X : forall f fl, inv j queues (Disk f (l1 ++ (q, Copies i rest) :: l2) (s_ready s) (s_gone s) (s_worked s) fl)).
    { intros f fl. split; cbn [s_dl s_ready s_worked]; [rewrite flat_map_app in *; cbn [flat_map] in *; exact P|rewrite app_length in *; exact L|].
      apply Forall_app. split; [assumption|]. constructor; [exists (did ++ [b]); rewrite <- app_assoc; exact D|assumption]. }
    destruct (b <=? s_free s); apply X.
  - rewrite E in P, L, R. apply Forall_app in R. destruct R as [R1 R2]. inversion R2; subst.
    split; cbn [s_dl s_ready s_worked]; [|rewrite app_length in *; exact L|].
    + rewrite flat_map_app in *. cbn [flat_map] in *. unfold pend at 2. unfold pend at 2 in P. cbn [cur fst snd app] in *.
      rewrite <- P. rewrite <- !app_assoc. apply Permutation_app_head. cbn [app]. rewrite <- ?app_assoc.
      pose proof (Permutation_middle (q ++ flat_map pend l2 ++ s_ready s) (s_worked s) i) as M. rewrite <- !app_assoc in M. symmetry. exact M.
    + apply Forall_app. split; [assumption|]. constructor; [exact I|assumption].
  - assert (X : forall f g fl, inv j queues (Disk f (s_dl s) r g (s_worked s ++ [i]) fl)).
    { intros f g fl. split; cbn [s_dl s_ready s_worked]; [|exact L|exact R]. rewrite E in P. rewrite <- P. apply Permutation_app_head. cbn [app].
      rewrite app_assoc. symmetry. apply Permutation_cons_append. }
    cbv zeta. destruct (j_out j i <=? s_free s); apply X.
  - split; cbn [s_dl s_ready s_worked]; assumption.
Qed.
Lemma inv_steps j queues l : forall s s', inv j queues s -> steps j s l = Some s' -> inv j queues s'.
Proof.
  induction l as [|t l IH]; intros s s' I H; cbn [steps] in H; [injection H as <-; exact I|].
  destruct (step j s t) as [s1|] eqn:E; [|discriminate]. exact (IH _ _ (inv_step _ _ _ _ _ I E) H).
Qed.
Lemma inv_in j queues s x i : inv j queues s -> In x (s_dl s) -> In i (cur (snd x)) -> In i (concat queues).
Proof.
  intros I Hx Hi. apply (Permutation_in _ (i_perm _ _ _ I)). apply in_or_app. left. apply in_flat_map. exists x. split; [exact Hx|].
  apply in_or_app. left. exact Hi.
Qed.
Lemma inv_written j queues s : inv j queues s -> sum (map (j_out j) (s_worked s ++ s_ready s)) <= all_output j queues.
Proof.
  intros I. unfold all_output. rewrite <- (sum_perm _ _ (Permutation_map (j_out j) (i_perm _ _ _ I))). rewrite !map_app, !sum_app_. lia.
Qed.

(** Reservations: all downloaders together. *)
Lemma reserved_le j queues m s : inv j queues s -> inputs_up_to m j queues -> sum (map held (s_dl s)) <= length queues * m.
Proof.
  intros I Hm. rewrite <- (i_len _ _ _ I).
  assert (F : Forall (fun x => held x <= m) (s_dl s)).
  { apply Forall_forall. intros x Hx. pose proof (i_rest _ _ _ I) as R. rewrite Forall_forall in R. specialize (R x Hx).
    unfold held. destruct (snd x) as [|i|i rest] eqn:E; try lia. destruct R as (did & D).
    assert (Hi : In i (concat queues)) by (apply (inv_in j queues s x i I Hx); rewrite E; left; reflexivity).
    specialize (Hm i Hi). rewrite D, sum_app_ in Hm. lia. }
  clear -F. induction F as [|x l Hx _ IH]; cbn [map sum length]; lia.
Qed.

(** The bound on the room. *)
Definition bound (j : job) (n m : nat) (s : disk) : Prop :=
  s_full s = false /\ j_threshold j + 1 + sum (map held (s_dl s)) <= s_free s + n * m + sum (map (j_out j) (s_worked s)).
Lemma bound_step j queues m s t s' : j_root j = None -> inputs_up_to m j queues -> length queues * m + all_output j queues <= j_threshold j ->
  inv j queues s -> bound j (length queues) m s -> step j s t = Some s' -> bound j (length queues) m s'.
Proof.
  intros Hr Hm Hw I [Bf B] H. pose proof (inv_step _ _ _ _ _ I H) as I'. pose proof (reserved_le _ _ _ _ I' Hm) as RL. pose proof (inv_written _ _ _ I) as W.
  rewrite map_app, sum_app_ in W.
  destruct (step_cases _ _ _ _ H) as [(l1 & l2 & i & q & E & ->)|[(l1 & l2 & i & q & E & Ht & ->)|[(l1 & l2 & i & q & b & rest & E & ->)|[(l1 & l2 & i & q & E & ->)|[(i & r & E & ->)|(b & g & E & ->)]]]]].
  - split; cbn [s_dl s_free s_worked s_full]; [exact Bf|]. rewrite E in B. rewrite map_app, sum_app_ in *. exact B.
  - rewrite Hr in Ht. split; cbn [s_dl s_free s_worked s_full] in *; [exact Bf|]. lia.
  - rewrite E in B. rewrite map_app, sum_app_ in B. cbn [map sum held snd] in B.
    assert (b <= s_free s) by lia. replace (b <=? s_free s) with true by (symmetry; apply Nat.leb_le; exact H0).
    split; cbn [s_dl s_free s_worked s_full]; [exact Bf|]. rewrite map_app, sum_app_. cbn [map sum held snd]. lia.
  - split; cbn [s_dl s_free s_worked s_full]; [exact Bf|]. rewrite E in B. rewrite map_app, sum_app_ in *. cbn [map sum held snd] in *. exact B.
  - rewrite E in W. cbn [map sum] in W. assert (j_out j i <= s_free s) by lia. cbv zeta.
    replace (j_out j i <=? s_free s) with true by (symmetry; apply Nat.leb_le; assumption).
    split; cbn [s_dl s_free s_worked s_full]; [exact Bf|]. rewrite map_app, sum_app_. cbn [map sum]. lia.
  - split; cbn [s_dl s_free s_worked s_full]; [exact Bf|]. lia.
Qed.
Lemma bound_steps j queues m l : j_root j = None -> inputs_up_to m j queues -> length queues * m + all_output j queues <= j_threshold j ->
  forall s s', inv j queues s -> bound j (length queues) m s -> steps j s l = Some s' -> bound j (length queues) m s'.
Proof.
  intros Hr Hm Hw. induction l as [|t l IH]; intros s s' I B H; cbn [steps] in H; [injection H as <-; exact B|].
  destruct (step j s t) as [s1|] eqn:E; [|discriminate]. exact (IH _ _ (inv_step _ _ _ _ _ I E) (bound_step _ _ _ _ _ _ Hr Hm Hw I B E) H).
Qed.
Lemma held_start (queues : list (list nat)) : sum (map held (map (fun q => (q, Waits)) queues)) = 0.
Proof. induction queues as [|q l IH]; [reflexivity|exact IH]. Qed.

(** Too little room from the beginning: nothing happens. *)
Definition nothing_done (free : nat) (s : disk) : Prop :=
  s_free s = free /\ s_ready s = [] /\ s_gone s = [] /\ s_worked s = [] /\ s_full s = false /\
  Forall (fun x => match snd x with Copies _ _ => False | _ => True end) (s_dl s).
Lemma nothing_step j free s t s' : j_root j = None -> free <= j_threshold j -> nothing_done free s -> step j s t = Some s' -> nothing_done free s'.
Proof.
  intros Hr Hf (N1 & N2 & N3 & N4 & N5 & N6) H.
  destruct (step_cases _ _ _ _ H) as [(l1 & l2 & i & q & E & ->)|[(l1 & l2 & i & q & E & Ht & ->)|[(l1 & l2 & i & q & b & rest & E & ->)|[(l1 & l2 & i & q & E & ->)|[(i & r & E & ->)|(b & g & E & ->)]]]]].
  - unfold nothing_done. cbn [s_free s_ready s_gone s_worked s_full s_dl]. repeat (split; [assumption|]). rewrite E in N6. apply Forall_app in N6. destruct N6 as [A B].
    inversion B; subst. apply Forall_app. split; [assumption|]. constructor; [exact I|assumption].
  - rewrite Hr in Ht. lia.
  - exfalso. rewrite E in N6. apply Forall_app in N6. destruct N6 as [_ B]. inversion B as [|? ? C _]. exact C.
  - exfalso. rewrite E in N6. apply Forall_app in N6. destruct N6 as [_ B]. inversion B as [|? ? C _]. exact C.
  - rewrite N2 in E. discriminate.
  - rewrite N3 in E. discriminate.
Qed.
Lemma nothing_steps j free l : j_root j = None -> free <= j_threshold j -> forall s s', nothing_done free s -> steps j s l = Some s' -> nothing_done free s'.
Proof.
  intros Hr Hf. induction l as [|t l IH]; intros s s' N H; cbn [steps] in H; [injection H as <-; exact N|].
  destruct (step j s t) as [s1|] eqn:E; [|discriminate]. exact (IH _ _ (nothing_step _ _ _ _ _ Hr Hf N E) H).
Qed.
Lemma nothing_start free queues : nothing_done free (start free queues).
Proof.
  unfold nothing_done, start. cbn [s_free s_ready s_gone s_worked s_full s_dl]. repeat (split; [reflexivity|]).
  apply Forall_forall. intros x Hx. apply in_map_iff in Hx. destruct Hx as (q & <- & _). exact I.
Qed.

(** Where the bytes are. *)
Definition used (j : job) (s : disk) : nat :=
  sum (map (begun j) (s_dl s)) + sum (map (fun i => sum (j_sizes j i)) (s_ready s)) + sum (s_gone s) + sum (map (j_out j) (s_worked s)).
Lemma used_step j queues s t s' : j_remove j = true -> inv j queues s -> step j s t = Some s' -> s_full s' = false ->
  s_full s = false /\ s_free s' + used j s' = s_free s + used j s.
Proof.
  intros Hrm I H Hf. pose proof (i_rest _ _ _ I) as R. unfold used.
  destruct (step_cases _ _ _ _ H) as [(l1 & l2 & i & q & E & ->)|[(l1 & l2 & i & q & E & Ht & ->)|[(l1 & l2 & i & q & b & rest & E & ->)|[(l1 & l2 & i & q & E & ->)|[(i & r & E & ->)|(b & g & E & ->)]]]]].
  - cbn [s_full] in Hf. split; [exact Hf|]. rewrite E. cbn [s_free s_dl s_ready s_gone s_worked]. rewrite !map_app, !sum_app_. reflexivity.
  - cbn [s_full] in Hf. split; [exact Hf|]. rewrite E. cbn [s_free s_dl s_ready s_gone s_worked]. rewrite !map_app, !sum_app_. cbn [map sum]. unfold begun at 2 5. cbn [snd]. lia.
  - destruct (Nat.leb_spec b (s_free s)) as [Hb|Hb]; [|cbn [s_full] in Hf; discriminate Hf]. cbn [s_full] in Hf. split; [exact Hf|]. rewrite E in *.
    apply Forall_app in R. destruct R as [_ R]. inversion R as [|? ? HD _]; subst. cbn [snd] in HD. destruct HD as (did & D).
    cbn [s_free s_dl s_ready s_gone s_worked]. rewrite !map_app, !sum_app_. cbn [map sum]. unfold begun at 2 5. cbn [snd]. rewrite D, sum_app_. cbn [sum]. lia.
  - cbn [s_full] in Hf. split; [exact Hf|]. rewrite E. cbn [s_free s_dl s_ready s_gone s_worked]. rewrite !map_app, !sum_app_. cbn [map sum]. unfold begun at 2 5. cbn [snd sum]. lia.
  - cbv zeta in *. rewrite Hrm in *. destruct (Nat.leb_spec (j_out j i) (s_free s)) as [Hb|Hb]; [|cbn [s_full] in Hf; discriminate Hf]. cbn [s_full] in Hf. split; [exact Hf|].
    rewrite E. cbn [s_free s_dl s_ready s_gone s_worked]. rewrite !map_app, !sum_app_. cbn [map sum]. lia.
  - cbn [s_full] in Hf. split; [exact Hf|]. rewrite E. cbn [s_free s_dl s_ready s_gone s_worked sum]. lia.
Qed.
Lemma used_steps j queues l : j_remove j = true -> forall s s', inv j queues s -> steps j s l = Some s' -> s_full s' = false ->
  s_full s = false /\ s_free s' + used j s' = s_free s + used j s.
Proof.
  intros Hrm. induction l as [|t l IH]; intros s s' I H Hf; cbn [steps] in H; [injection H as <-; auto|].
  destruct (step j s t) as [s1|] eqn:E; [|discriminate]. destruct (IH _ _ (inv_step _ _ _ _ _ I E) H Hf) as [F1 U1].
  destruct (used_step _ _ _ _ _ Hrm I E F1) as [F0 U0]. split; [exact F0|]. lia.
Qed.
Lemma used_start j free queues : used j (start free queues) = 0.
Proof. unfold used, start. cbn [s_dl s_ready s_gone s_worked map sum]. induction queues as [|q l IH]; [reflexivity|exact IH]. Qed.

(** A job that cannot go on. *)
Lemma stuck_idle j s : stuck j s -> s_ready s = [] /\ s_gone s = [] /\
  Forall (fun x => x = ([], Waits) \/ (exists q i, x = (q, Checks i) /\ match j_root j with None => s_free s | Some r => r end <= j_threshold j)) (s_dl s).
Proof.
  intros H. split; [|split].
  - specialize (H Work). cbn [step] in H. destruct (s_ready s); [reflexivity|]. destruct (j_out j n <=? s_free s); discriminate.
  - specialize (H Remove). cbn [step] in H. destruct (s_gone s); [reflexivity|discriminate].
  - apply Forall_forall. intros x Hx. apply In_nth_error in Hx. destruct Hx as [d Hd]. specialize (H (Down d)). cbn [step] in H. rewrite Hd in H.
    destruct x as [q [|i|i [|b rest]]].
    + destruct q as [|i q]; [left; reflexivity|discriminate].
    + right. exists q, i. split; [reflexivity|]. destruct (Nat.leb_spec (match j_root j with None => s_free s | Some r => r end) (j_threshold j)) as [L|L]; [exact L|].
      destruct q; discriminate.
    + destruct q; discriminate.
    + destruct (b <=? s_free s), q; discriminate.
Qed.
Lemma idle_used j s : s_ready s = [] -> s_gone s = [] -> Forall (fun x => x = ([], Waits) \/ (exists q i, x = (q, Checks i) /\ match j_root j with None => s_free s | Some r => r end <= j_threshold j)) (s_dl s) ->
  used j s = sum (map (j_out j) (s_worked s)).
Proof.
  intros R G F. unfold used. rewrite R, G. cbn [map sum]. replace (sum (map (begun j) (s_dl s))) with 0; [lia|].
  induction F as [|x l [->|(q & i & -> & _)] _ IH]; [reflexivity|cbn [map sum begun snd]; lia|cbn [map sum begun snd]; lia].
Qed.
Lemma idle_all j queues s : inv j queues s -> s_ready s = [] -> Forall (fun x => x = ([], Waits)) (s_dl s) -> all_worked queues s.
Proof.
  intros I R F. unfold all_worked. pose proof (i_perm _ _ _ I) as P. rewrite R in P. cbn [app] in P.
  replace (flat_map pend (s_dl s)) with (@nil nat) in P; [exact P|]. clear -F. induction F as [|x l -> _ IH]; [reflexivity|]. cbn [flat_map]. rewrite <- IH. reflexivity.
Qed.
