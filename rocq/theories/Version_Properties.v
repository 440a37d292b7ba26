(** C193: the check for a newer version of the package. *)
From Verif Require Import Base Version_Model Version_Spec Version_Proofs.

(** C193: the calls of a process, each of which makes the check.  As long as the page comes without its fields the calls raise; the first
    other answer settles the matter: this call and all later ones return, there is no further request, and there is a single warning, namely
    of the version that answer announces, or none. *)
Theorem C193_partial cur n a l : v_pre cur = false -> v_dev cur = false -> a <> Incomplete ->
  exists p, calls cur (repeat Incomplete n ++ a :: l) fresh = (repeat (Err KeyError) n ++ repeat (Ok tt) (S (length l)), p) /\
    p_requests p = n + 1 /\ length (p_shown p) <= 1 /\ (forall v, In v (p_shown p) <-> announces cur a v).
Proof.
  intros Hp Hd Ha. assert (Hc : is_prerelease cur = false) by (unfold is_prerelease; rewrite Hp, Hd; reflexivity). unfold fresh. rewrite (incomplete_calls cur n 0 (a :: l) Hc). cbn [Nat.add].
  destruct (verdict_calls cur a l n Hc Ha) as (c & k & shown & E & L & S). rewrite E. eexists. split; [reflexivity|]. auto.
Qed.
Print Assumptions C193_partial.
Definition rel l := Ver l false false.
Example C193_case :
  let page := Page [rel [0; 2; 37]; rel [0; 2; 38]; rel [0; 2; 39]] (rel [0; 2; 39]) false in
  exists p, calls (rel [0; 2; 38]) [Incomplete; page; Offline; Incomplete; page] fresh = ([Err KeyError; Ok tt; Ok tt; Ok tt; Ok tt], p) /\
    p_shown p = [rel [0; 2; 39]] /\ p_requests p = 2 /\ announces (rel [0; 2; 38]) page (rel [0; 2; 39]).
Proof.
  eexists. split; [vm_compute; reflexivity|]. split; [reflexivity|]. split; [reflexivity|]. eexists. split; [reflexivity|].
  split; [cbn; auto|]. split; [discriminate|]. split; reflexivity.
Qed.

(** C193: without a network nothing is said, the call returns, and the process does not ask again. *)
Theorem C193_offline cur l : v_pre cur = false -> v_dev cur = false -> exists p,
  calls cur (Offline :: l) fresh = (repeat (Ok tt) (S (length l)), p) /\ p_shown p = [] /\ p_requests p = 1.
Proof.
  intros Hp Hd. destruct (C193_partial cur 0 Offline l Hp Hd ltac:(discriminate)) as (p & E & R & _ & S). exists p. split; [exact E|]. split; [|exact R].
  destruct (p_shown p) as [|v s]; [reflexivity|]. destruct (proj1 (S v) (or_introl eq_refl)) as (r & E1 & _). discriminate.
Qed.
Print Assumptions C193_offline.
Example C193_offline_case : exists p, calls (rel [0; 2; 38]) [Offline; Page [rel [0; 2; 38]] (rel [0; 3]) false] fresh = ([Ok tt; Ok tt], p) /\ p_shown p = [] /\ p_requests p = 1.
Proof. eexists. split; [vm_compute; reflexivity|]. split; reflexivity. Qed.

(** C193: a pre-release or a development release never asks. *)
Theorem C193_prerelease cur l : v_pre cur = true \/ v_dev cur = true -> exists p,
  calls cur l fresh = (repeat (Ok tt) (length l), p) /\ p_shown p = [] /\ p_requests p = 0.
Proof.
  intros H. assert (Hc : is_prerelease cur = true) by (unfold is_prerelease; destruct H as [->| ->]; [reflexivity|apply orb_true_r]).
  destruct (prerelease_calls cur l Hc) as (c & E). eexists. split; [exact E|]. split; reflexivity. Qed.
Print Assumptions C193_prerelease.
Example C193_prerelease_case : v_dev (Ver [0; 3; 0] false true) = true /\
  exists p, calls (Ver [0; 3; 0] false true) [Incomplete; Page [rel [0; 2]] (rel [0; 4]) false] fresh = ([Ok tt; Ok tt], p) /\ p_requests p = 0.
Proof. split; [reflexivity|]. eexists. split; [vm_compute; reflexivity|reflexivity]. Qed.

(** C193: if no release on the page is newer than the latest one, what is announced is newer than what is installed. *)
Theorem C193_newer_partial cur a v : plain_release cur -> latest_is_newest a -> last (v_release v) 1 <> 0 ->
  announces cur a v -> older (v_release cur) (v_release v).
Proof. exact (announced_newer cur a v). Qed.
Print Assumptions C193_newer_partial.
Example C193_newer_case : let a := Page [rel [0; 2; 9]; rel [0; 2; 38]; rel [0; 3]] (rel [0; 3]) false in
  plain_release (rel [0; 2; 38]) /\ latest_is_newest a /\ announces (rel [0; 2; 38]) a (rel [0; 3]) /\ older [0; 2; 38] [0; 3].
Proof.
  cbv zeta. split; [split; [reflexivity|split; [reflexivity|discriminate]]|].
  split. { cbn. intros v [<-|[<-|[<-|[]]]]; cbn; lia. }
  split; [|cbn; right; split; [reflexivity|left; lia]].
  eexists. split; [reflexivity|]. split; [cbn; auto|]. split; [discriminate|]. split; reflexivity.
Qed.

(** C193 is false in general: whoever has installed a release that was withdrawn later is told that a newer version is available and pointed
    to an older one (only the inequality of the two strings is tested), ... *)
Theorem C193_older_refuted : exists cur a v p, plain_release cur /\ calls cur [a] fresh = ([Ok tt], p) /\ p_shown p = [v] /\ older (v_release v) (v_release cur).
Proof.
  exists (rel [0; 2; 40]), (Page [rel [0; 2; 39]; rel [0; 2; 40]] (rel [0; 2; 39]) false), (rel [0; 2; 39]). eexists.
  split; [split; [reflexivity|split; [reflexivity|discriminate]]|]. split; [vm_compute; reflexivity|]. split; [reflexivity|]. cbn. lia.
Qed.
Print Assumptions C193_older_refuted.
(** ... and an answer that is JSON but lacks a field (an error page of the index or of a mirror) makes every dataset and every job of the process
    fail as long as it comes. *)
Theorem C193_stops_refuted : exists cur, plain_release cur /\ forall n, exists p, calls cur (repeat Incomplete n) fresh = (repeat (Err KeyError) n, p) /\ p_requests p = n.
Proof.
  exists (rel [0; 2; 38]). split; [split; [reflexivity|split; [reflexivity|discriminate]]|]. intros n.
  pose proof (incomplete_calls (rel [0; 2; 38]) n 0 [] eq_refl) as E. cbn [calls fst snd] in E. rewrite !app_nil_r in E. unfold fresh. rewrite E. cbn [calls fst snd].
  eexists. split; reflexivity.
Qed.
Print Assumptions C193_stops_refuted.
