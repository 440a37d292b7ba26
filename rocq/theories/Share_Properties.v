From Verif Require Import Base Share_Model Share_Proofs.

(** * C77.  Processes sharing a cache directory do not disturb each other's downloads. *)
(** Without compression: in every interleaving of any number of processes nobody fails; with a store that
    renames, the chunk is never visible half-written; once complete it stays complete; and once every
    process is done, the chunk is there. *)
Theorem C77_shared_downloads_partial : forall g sched, g_compressed g = false -> (g_atomic g = true \/ g_recheck g = true) -> let w := steps g (start g) sched in
  (forall i e, v_at w i <> Failed e)
  /\ (g_atomic g = true -> v_file w <> Writing)
  /\ (v_file w = Complete -> forall more, v_file (steps g w more) = Complete)
  /\ (g_remote g = true -> (exists i, v_at w i = Done) -> (forall i, v_at w i = Start \/ v_at w i = Done) -> v_file w = Complete).
Proof.
  intros g sched Hc0 Hs w. assert (Hc : sane g) by (split; assumption). assert (HI : Inv g w) by (apply steps_inv, start_inv; exact Hc).
  pose proof HI as [H1 H2 H3 H4]. split; [|split; [|split]].
  - intros i e E. specialize (H3 i). rewrite E in H3. exact H3.
  - intros A F. rewrite F in H2. destruct H2. congruence.
  - intros F more. apply complete_stays_steps; auto.
  - intros Hr (i & Di) Hall. assert (HP : Past w). { apply past_steps; auto; [apply start_inv|]. intros (j & [X|X]); discriminate. }
    assert (HL : v_lock w = None).
    { destruct (v_lock w) as [o|] eqn:E; [|reflexivity]. pose proof (lock_held_steps g Hc sched (start g) (start_inv g) ltac:(discriminate) o E) as G.
      fold w in G. destruct (Hall o) as [X|X]; rewrite X in G; discriminate. }
    destruct (HP (ex_intro _ i (or_intror Di))) as [HF|(o & Ho)]; [|congruence].
    destruct (v_file w) eqn:F; [congruence| |reflexivity]. destruct H2 as (_ & o & Ho & _). destruct (Hall o); congruence.
Qed.

(** Whatever the others do, ten of its own steps bring a process to the end of its request. *)
Theorem C77_no_waiting : forall g sched i, 10 <= count_occ Nat.eq_dec sched i ->
  match v_at (steps g (start g) sched) i with Done | Failed _ => True | _ => False end.
Proof.
  intros g sched i H. destruct (finishes g i sched (start g)) as [E|E].
  - destruct (v_at (steps g (start g) sched) i); cbn in E; try discriminate; exact I.
  - cbn [start v_at cost] in E. destruct (v_at (steps g (start g) sched) i); cbn in E; try lia; exact I.
Qed.

(** With compression a process can fail because another one is still copying... *)
Theorem C77_compressed_fails_refuted : exists sched i, let g := Cfg true true true true in
  v_at (steps g (start g) sched) i = Failed FileNotFoundError.
Proof. exists [0; 0; 0; 1; 1; 1; 1], 1. reflexivity. Qed.
(** ...or has already decompressed the chunk, although it is then there... *)
Theorem C77_compressed_gone_refuted : exists sched i, let g := Cfg true true true true in
  let w := steps g (start g) sched in v_at w i = Failed FileNotFoundError /\ v_target w = Complete.
Proof. exists [0; 0; 0; 0; 0; 1; 1; 0; 0; 0; 0; 0; 1; 1], 1. vm_compute. auto. Qed.
(** ...and a complete decompressed chunk can be truncated under a reader. *)
Theorem C77_compressed_truncated_refuted : exists g sched more, g_compressed g = true /\
  v_target (steps g (start g) sched) = Complete /\ v_target (steps g (start g) (sched ++ more)) = Writing.
Proof. exists (Cfg true true false true), [0; 0; 1; 1; 0; 0; 0; 0], [1; 1; 1]. vm_compute. auto. Qed.

(** Two processes, the second one arriving while the first one copies. *)
Example C77_case : let g := Cfg true true true false in
  let w := steps g (start g) [0; 0; 0; 1; 1; 1; 0; 0; 0] in
  v_at w 0 = Done /\ v_at w 1 = Done /\ v_file w = Complete /\ v_at w 2 = Start.
Proof. vm_compute. auto. Qed.

Print Assumptions C77_shared_downloads_partial.
Print Assumptions C77_no_waiting.
Print Assumptions C77_compressed_fails_refuted.
Print Assumptions C77_compressed_gone_refuted.
Print Assumptions C77_compressed_truncated_refuted.
