(** Proofs about using a StreamingDataset directly. *)
From Verif Require Import Base Assign_Model Assign_Spec Iter_Model Iter_Spec Config_Model Object_Model Object_Spec.
From Verif Require Import Assign_Proofs Shuffle_Proofs Iter_Proofs Resume_Proofs Epoch_Proofs.
Local Ltac Zify.zify_post_hook ::= idtac.

(** * One loop *)

Definition todo (shuf : shuf_t) (e : nat) (d : dstate) : list sample :=
  map (fun i => (nth (d_next d - 1) (d_chunks d) 0, i)) (d_upcoming d) ++
  chunk_order shuf (length (d_chunks d)) e (d_next d)
              (combine (skipn (d_next d) (d_chunks d)) (skipn (d_next d) (d_ivs d))).

Definition Good (d : dstate) : Prop :=
  length (d_chunks d) = length (d_ivs d) /\ Forall (fun iv => iv_rs iv < iv_re iv) (d_ivs d) /\
  d_num_chunks d = Some (length (d_chunks d)) /\ d_next d <= length (d_chunks d) /\
  (d_upcoming d <> [] -> 1 <= d_next d) /\
  d_global d + length (d_upcoming d) + sum (map iv_size (skipn (d_next d) (d_ivs d))) <= d_stop d.

Lemma todo_perm shuf e e' d : shuf_ok shuf -> Permutation (todo shuf e d) (todo shuf e' d).
Proof.
  intros Hs. unfold todo. apply Permutation_app_head.
  rewrite (chunk_order_perm shuf _ e _ _ Hs), (chunk_order_perm shuf _ e' _ _ Hs). apply Permutation_refl.
Qed.

Lemma good_at_epoch e d : Good d -> Good (at_epoch e d).
Proof. intros H; exact H. Qed.

Lemma pop_good shuf e d i up : Good d -> d_upcoming d = i :: up ->
  exists r d', pop_next d = (Yield r, d') /\ todo shuf e d = req_sample r :: todo shuf e d' /\ Good d' /\
    d_epoch d' = d_epoch d.
Proof.
  intros (H1 & H2 & H3 & H4 & H5 & H6) E. unfold pop_next. rewrite E in *.
  assert (Hk : 1 <= d_next d) by (apply H5; discriminate).
  destruct (nth_error (d_chunks d) (d_next d - 1)) as [c|] eqn:Ec; [|apply nth_error_None in Ec; lia].
  eexists; eexists; split; [reflexivity|]. split; [|split; [|reflexivity]].
  - unfold todo at 1. rewrite E, (nth_error_nth _ _ 0 Ec). cbn [map app].
    unfold todo. cbn [d_upcoming d_next d_chunks d_ivs]. rewrite (nth_error_nth _ _ 0 Ec). reflexivity.
  - unfold Good. cbn [d_chunks d_ivs d_num_chunks d_next d_upcoming d_global d_stop]. repeat (split; [assumption|]).
    cbn [length] in H6. split; [intros _; exact Hk|lia].
Qed.

Lemma next_good shuf d : shuf_ok shuf -> Good d ->
  match todo shuf (d_epoch d) d with
  | [] => exists d', next shuf d = (Stop, d') /\ d_epoch d' = d_epoch d + 1
  | x :: t => exists r d', next shuf d = (Yield r, d') /\ req_sample r = x /\ Good d' /\
                d_epoch d' = d_epoch d /\ todo shuf (d_epoch d) d' = t
  end.
Proof.
  intros Hs Hg. pose proof Hg as (H1 & H2 & H3 & H4 & H5 & H6).
  destruct (d_upcoming d) as [|i up] eqn:Eu.
  - destruct (nth_error (d_ivs d) (d_next d)) as [iv|] eqn:Ei.
    + assert (Hn : d_next d < length (d_ivs d)) by (apply nth_error_Some; congruence).
      destruct (nth_error (d_chunks d) (d_next d)) as [c|] eqn:Ec; [|apply nth_error_None in Ec; lia].
      assert (Hiv : iv_rs iv < iv_re iv) by (rewrite Forall_forall in H2; apply H2, (nth_error_In _ _ Ei)).
      set (d1 := DS (d_chunks d) (d_ivs d) (shuf (seq (iv_rs iv) (iv_re iv - iv_rs iv)) (length (d_chunks d)) (d_epoch d) (d_next d))
                    (d_next d + 1) (d_num_chunks d) (d_global d) (d_stop d) (d_triggered d) (d_epoch d) (d_restored d) 0).
      assert (Hlen : length (shuf (seq (iv_rs iv) (iv_re iv - iv_rs iv)) (length (d_chunks d)) (d_epoch d) (d_next d)) = iv_size iv)
        by (rewrite shuf_ok_length, seq_length by exact Hs; reflexivity).
      assert (Hg1 : Good d1).
      { unfold Good, d1. cbn [d_chunks d_ivs d_num_chunks d_next d_upcoming d_global d_stop].
        split; [exact H1|]. split; [exact H2|]. split; [exact H3|]. split; [lia|]. split; [lia|].
        rewrite Hlen. rewrite (skipn_nth_cons _ _ _ Ei) in H6. cbn [map sum length] in H6.
        replace (d_next d + 1) with (S (d_next d)) by lia. lia. }
      assert (Et : todo shuf (d_epoch d) d = todo shuf (d_epoch d) d1).
      { unfold todo at 1. rewrite Eu. cbn [map app].
        rewrite (skipn_nth_cons _ _ _ Ei), (skipn_nth_cons _ _ _ Ec). cbn [combine chunk_order].
        unfold todo, d1. cbn [d_upcoming d_next d_chunks d_ivs].
        replace (d_next d + 1 - 1) with (d_next d) by lia. rewrite (nth_error_nth _ _ 0 Ec).
        replace (d_next d + 1) with (S (d_next d)) by lia. reflexivity. }
      destruct (d_upcoming d1) as [|i up] eqn:Eu1.
      { exfalso. unfold d1 in Eu1. cbn [d_upcoming] in Eu1. rewrite Eu1 in Hlen. unfold iv_size in Hlen. cbn in Hlen. lia. }
      destruct (pop_good shuf (d_epoch d) d1 i up Hg1 Eu1) as (r & d' & P1 & P2 & P3 & P4).
      rewrite Et, P2. exists r, d'. split; [|repeat (split; [assumption || reflexivity|]); reflexivity].
      unfold next. rewrite Eu. unfold refill. rewrite H3.
      assert (Hns : (d_stop d <=? d_global d) = false).
      { apply Nat.leb_gt. rewrite (skipn_nth_cons _ _ _ Ei) in H6. cbn [map sum length] in H6. unfold iv_size in *. lia. }
      rewrite Hns. replace (length (d_chunks d) <=? d_next d) with false by (symmetry; apply Nat.leb_gt; lia).
      rewrite Ei. cbv zeta. unfold d1 in P1. rewrite H3 in P1. exact P1.
    + apply nth_error_None in Ei.
      assert (Et : todo shuf (d_epoch d) d = []).
      { unfold todo. rewrite Eu, (skipn_all2 (d_ivs d)) by exact Ei. rewrite combine_nil. reflexivity. }
      rewrite Et. unfold next. rewrite Eu. destruct (d_stop d <=? d_global d); [eexists; split; reflexivity|].
      unfold refill. rewrite H3. replace (length (d_chunks d) <=? d_next d) with true by (symmetry; apply Nat.leb_le; lia).
      eexists; split; reflexivity.
  - destruct (pop_good shuf (d_epoch d) d i up Hg Eu) as (r & d' & P1 & P2 & P3 & P4).
    rewrite P2. exists r, d'. split; [|repeat (split; [assumption || reflexivity|]); reflexivity].
    unfold next. rewrite Eu. replace (d_stop d <=? d_global d) with false; [exact P1|].
    symmetry; apply Nat.leb_gt. cbn [length] in H6. lia.
Qed.

(** * The object during a loop *)

Definition Looping (h : shuffler) (d : dstate) (o : obj) : Prop :=
  o_it o = Some d /\ o_shuffler o = Some h /\ o_cache o = true /\ Good d.

Lemma todo_epoch shuf e e' d : todo shuf e (at_epoch e' d) = todo shuf e d.
Proof. reflexivity. Qed.

Lemma calm_step k c o h d : calm c -> Looping h d o ->
  exists r o', o_step k c o = (r, o') /\ Looping h d o' /\ (quiet c -> o_epoch o' = o_epoch o).
Proof.
  intros Hc (H1 & H2 & H3 & H4).
  destruct c; cbn [calm] in Hc; try contradiction; cbn [o_step];
    try (eexists; eexists; split; [reflexivity|]; split; [repeat (split; [assumption|]); assumption|intros _; reflexivity]).
  - destruct (o_saved o); (eexists; eexists; split; [reflexivity|]; split; [repeat (split; [assumption|]); assumption|intros []]).
  - unfold obj_len, obj_get_len. rewrite H2. eexists; eexists; split; [reflexivity|].
    split; [repeat (split; [assumption || reflexivity|]); assumption|intros _; reflexivity].
  - unfold obj_get_len. rewrite H2. eexists; eexists; split; [reflexivity|].
    split; [repeat (split; [assumption || reflexivity|]); assumption|intros _; reflexivity].
  - unfold obj_get. rewrite H3. eexists; eexists; split; [reflexivity|].
    split; [repeat (split; [assumption || reflexivity|]); assumption|intros _; reflexivity].
  - unfold obj_save. destruct (o_saved o); (eexists; eexists; split; [reflexivity|]; split; [repeat (split; [assumption|]); assumption|intros _; reflexivity]).
Qed.

Lemma next_step k o h d : shuf_ok (sh_call k h) -> Looping h d o ->
  match todo (sh_call k h) (o_epoch o) d with
  | [] => exists o', o_step k Next o = (Stopped, o') /\ o_epoch o' = o_epoch o + 1 /\ o_saved o' = None
  | x :: t => exists o' d', o_step k Next o = (item x, o') /\ Looping h d' o' /\ o_epoch o' = o_epoch o /\
                todo (sh_call k h) (o_epoch o) d' = t
  end.
Proof.
  intros Hs (H1 & H2 & H3 & H4). cbn [o_step]. unfold obj_next. rewrite H1, H2.
  pose proof (next_good (sh_call k h) (at_epoch (o_epoch o) d) Hs (good_at_epoch _ _ H4)) as N.
  change (d_epoch (at_epoch (o_epoch o) d)) with (o_epoch o) in N. rewrite todo_epoch in N.
  revert N. destruct (todo (sh_call k h) (o_epoch o) d) as [|x t]; intros N.
  - destruct N as (d' & -> & E). eexists; split; [reflexivity|]. split; [exact E|reflexivity].
  - destruct N as (r & d' & -> & <- & G & E & T). eexists; exists d'. split; [reflexivity|].
    split; [split; [reflexivity|]; split; [exact H2|]; split; [exact H3|exact G]|]. split; [reflexivity|exact T].
Qed.

Definition is_next (c : op) : bool := match c with Next => true | _ => false end.

(** Calls in the body of a loop do not change what it delivers. *)
Lemma quiet_loop k h : shuf_ok (sh_call k h) -> forall cs o d,
  Looping h d o -> Forall (fun c => c = Next \/ quiet c) cs -> asked cs <= S (length (todo (sh_call k h) (o_epoch o) d)) ->
  answers cs (fst (o_run k cs o)) = firstn (asked cs) (map item (todo (sh_call k h) (o_epoch o) d) ++ [Stopped]).
Proof.
  intros Hs. induction cs as [|c cs IH]; intros o d HL Hc Ha; [reflexivity|].
  inversion Hc as [|? ? Hc1 Hc2]; subst. destruct Hc1 as [->|Hq].
  - cbn [o_run]. unfold asked in *. cbn [filter is_next length] in *.
    pose proof (next_step k o h d Hs HL) as N.
    destruct (todo (sh_call k h) (o_epoch o) d) as [|x t] eqn:Et.
    + destruct N as (o' & -> & _). destruct (o_run k cs o') as [rs o2] eqn:Er. cbn [fst answers].
      cbn [map app firstn]. f_equal.
      assert (Hn : filter (fun c => match c with Next => true | _ => false end) cs = [])
        by (apply length_zero_iff_nil; cbn [length] in Ha; lia).
      rewrite Hn. cbn [length firstn].
      clear -Hn. revert rs. induction cs as [|c cs IH]; intros rs; [reflexivity|].
      cbn [filter] in Hn. destruct c; try discriminate; destruct rs; cbn [answers]; auto.
    + destruct N as (o' & d' & -> & HL' & E & T). destruct (o_run k cs o') as [rs o2] eqn:Er. cbn [fst answers].
      cbn [map app firstn length] in *. f_equal.
      specialize (IH o' d' HL' Hc2). rewrite Er, E, T in IH. cbn [fst] in IH. apply IH. lia.
  - assert (Hcalm : calm c) by (destruct c; cbn [quiet calm] in *; tauto).
    destruct (calm_step k c o h d Hcalm HL) as (r & o' & Es & HL' & E). specialize (E Hq).
    cbn [o_run]. rewrite Es. destruct (o_run k cs o') as [rs o2] eqn:Er. cbn [fst].
    specialize (IH o' d HL' Hc2). rewrite Er, E in IH. cbn [fst] in IH.
    assert (A : answers (c :: cs) (r :: rs) = answers cs rs) by (destruct c; cbn [quiet] in Hq; tauto || reflexivity).
    assert (B : asked (c :: cs) = asked cs) by (destruct c; cbn [quiet] in Hq; tauto || reflexivity).
    rewrite A, B in *. apply IH. exact Ha.
Qed.

(** With changes of the epoch every sample is still delivered once. *)
Lemma calm_loop k h : shuf_ok (sh_call k h) -> forall cs o d,
  Looping h d o -> Forall (fun c => c = Next \/ calm c) cs ->
  asked cs = S (length (todo (sh_call k h) (o_epoch o) d)) ->
  exists s, answers cs (fst (o_run k cs o)) = map item s ++ [Stopped] /\
    Permutation s (todo (sh_call k h) (o_epoch o) d).
Proof.
  intros Hs. induction cs as [|c cs IH]; intros o d HL Hc Ha; [discriminate|].
  inversion Hc as [|? ? Hc1 Hc2]; subst. destruct Hc1 as [->|Hq].
  - cbn [o_run]. unfold asked in *. cbn [filter is_next length] in *.
    pose proof (next_step k o h d Hs HL) as N.
    destruct (todo (sh_call k h) (o_epoch o) d) as [|x t] eqn:Et.
    + destruct N as (o' & -> & _). destruct (o_run k cs o') as [rs o2] eqn:Er. cbn [fst answers].
      exists []. split; [|constructor]. cbn [map app]. f_equal.
      assert (Hn : filter (fun c => match c with Next => true | _ => false end) cs = [])
        by (apply length_zero_iff_nil; cbn [length] in Ha; lia).
      clear -Hn. revert rs. induction cs as [|c cs IH]; intros rs; [reflexivity|].
      cbn [filter] in Hn. destruct c; try discriminate; destruct rs; cbn [answers]; auto.
    + destruct N as (o' & d' & -> & HL' & E & T). destruct (o_run k cs o') as [rs o2] eqn:Er. cbn [fst answers].
      specialize (IH o' d' HL' Hc2). rewrite Er, E, T in IH. cbn [fst] in IH.
      destruct IH as (s & Es & Hp); [cbn [length] in Ha; lia|].
      exists (x :: s). split; [cbn [map app]; f_equal; exact Es|constructor; exact Hp].
  - destruct (calm_step k c o h d Hq HL) as (r & o' & Es & HL' & _).
    cbn [o_run]. rewrite Es. destruct (o_run k cs o') as [rs o2] eqn:Er. cbn [fst].
    specialize (IH o' d HL' Hc2). rewrite Er in IH. cbn [fst] in IH.
    assert (A : answers (c :: cs) (r :: rs) = answers cs rs) by (destruct c; cbn [calm] in Hq; tauto || reflexivity).
    assert (B : asked (c :: cs) = asked cs) by (destruct c; cbn [calm] in Hq; tauto || reflexivity).
    rewrite A. rewrite B in Ha. pose proof (todo_perm (sh_call k h) (o_epoch o') (o_epoch o) d Hs) as P.
    destruct IH as (s & E1 & E2); [rewrite Ha; f_equal; symmetry; apply Permutation_length; exact P|].
    exists s. split; [exact E1|]. rewrite E2. exact P.
Qed.

(** * What the user knows *)

Lemma or_one_max n : or_one n = Nat.max 1 n.
Proof. destruct n; reflexivity. Qed.

Lemma replay_loop_err f n B nw w l : match replay_loop f n B nw w l with Err ValueError => False | _ => True end.
Proof.
  revert n w l. induction f as [|f IH]; intros n w l; cbn [replay_loop]; [exact I|].
  destruct (B <=? n); [apply IH|exact I].
Qed.

(** The shuffled assignment exists also on several nodes. *)
Lemma full_shuffle_exists rng env seed dl nw B epoch ivs :
  rng_ok rng -> 1 <= nw -> 1 <= B -> 1 <= num_nodes env -> 1 <= world_size env ->
  num_nodes env * (world_size env / num_nodes env) = world_size env ->
  exists a, full_shuffle_assign rng env seed dl nw B epoch ivs = Ok a.
Proof.
  intros Hrng Hnw HB Hn HW Hdiv. unfold full_shuffle_assign.
  set (p := rng [seed; if 1 <? num_nodes env then 1 else epoch] (length ivs)).
  assert (Hp : Permutation p (seq 0 (length ivs))) by apply Hrng.
  assert (Hplt := Permutation_seq_lt _ _ Hp).
  rewrite permute_seq by exact Hplt.
  destruct (gather_ok ivs p Hplt) as (r & Hr & _ & Hrn). rewrite (Hrn dIv) in Hr. rewrite Hr. cbn [bind].
  destruct (assign_main (world_size env) nw B dl p (map (fun i => nth i ivs dIv) p) HW Hnw HB)
    as (first & Ha0 & Hshape & _ & _ & Hprov); [rewrite map_length; reflexivity|].
  rewrite Ha0. cbn [bind]. destruct ((epoch =? 1) || (num_nodes env =? 1)); [eauto|].
  destruct (intra_node_shuffle_ok rng env nw (fst first) seed epoch) as (idx & Hidx & Hidxp); auto; [apply Hshape|].
  assert (Hidxlt : Forall (fun i => i < length ivs) idx).
  { apply Forall_forall. intros c Hc. apply (Permutation_in _ Hidxp) in Hc.
    apply (in_concat_fst first _ c Hshape) in Hc. destruct Hc as (w & iv & Hw & Hc).
    rewrite Forall_forall in Hprov. specialize (Hprov w Hw).
    rewrite Forall_forall in Hprov. specialize (Hprov (c, iv) Hc). cbn [fst snd] in Hprov.
    destruct Hprov as (iv0 & Hin & _). apply in_combine_l in Hin.
    rewrite Forall_forall in Hplt. exact (Hplt c Hin). }
  rewrite Hidx. cbn [bind].
  destruct (gather_ok ivs idx Hidxlt) as (r2 & Hr2 & _ & Hrn2). rewrite (Hrn2 dIv) in Hr2. rewrite Hr2. cbn [bind].
  destruct (assign_main (world_size env) nw B dl idx (map (fun i => nth i ivs dIv) idx) HW Hnw HB)
    as (a & Ha & _); [rewrite map_length; reflexivity|]. eauto.
Qed.

Section Cfg.
  Context (k : ocfg) (Hk : ocfg_ok k).

  Lemma sh_call_ok h : shuf_ok (sh_call k h).
  Proof. apply shuffle_call_ok, Hk. Qed.

  Lemma sh_assign_ok h nw B e : 1 <= nw -> 1 <= B ->
    exists a, sh_assign k h nw B e = Ok a /\ assignment_ok (world_size (oc_env k) * nw) a.
  Proof.
    intros Hnw HB. destruct Hk as (Hrng & Hr & Hn & Hd).
    assert (E : exists a, sh_assign k h nw B e = Ok a).
    { unfold sh_assign, shuffle_assign. destruct (sh_full h).
      - apply full_shuffle_exists; auto; lia.
      - unfold no_shuffle_assign.
        destruct (assign_main (world_size (oc_env k)) nw B (sh_drop h) (seq 0 (length (oc_ivs k))) (oc_ivs k)) as (a & Ha & _);
          try lia; [rewrite seq_length; reflexivity|eauto]. }
    destruct E as (a & Ha). exists a. split; [exact Ha|]. eapply shuffle_assign_ok; [| | |exact Ha]; lia.
  Qed.

  Lemma sh_len_ok h nw B e : 1 <= nw -> 1 <= B -> exists L, sh_len k h nw B e = Ok L.
  Proof.
    intros Hnw HB. destruct (sh_assign_ok h nw B e Hnw HB) as (a & Ha & _). unfold sh_len, get_len.
    unfold sh_assign in Ha. rewrite Ha. cbn [bind]. eauto.
  Qed.

  (** The object and what the user knows agree. *)
  Definition agree (o : obj) (v : view) : Prop :=
    v = V (o_shuffle o) (o_drop o) (o_epoch o) (o_nw o) (o_batch o) (o_saved o) /\ 1 <= o_nw o /\ 1 <= o_batch o.

  Lemma obj_len_ok o : 1 <= o_nw o -> 1 <= o_batch o -> exists L h,
    obj_len k o = (Ok L, Obj (o_shuffle o) (o_drop o) (o_epoch o) (o_nw o) (o_batch o) (o_saved o) (Some h) (o_cache o) (o_it o)) /\
    h = match o_shuffler o with Some h => h | None => create_shuffler k o end /\
    sh_len k h (o_nw o) (o_batch o) (o_epoch o) = Ok L.
  Proof.
    intros Hnw HB. unfold obj_len, obj_get_len. rewrite !or_one_max, !Nat.max_r by lia.
    destruct (sh_len_ok (match o_shuffler o with Some h => h | None => create_shuffler k o end) (o_nw o) (o_batch o) (o_epoch o) Hnw HB) as (L & E).
    rewrite E. eauto.
  Qed.

  Lemma step_agree c o v : batch_ok c -> agree o v ->
    agree (snd (o_step k c o)) (view_step c (fst (o_step k c o)) v).
  Proof.
    intros Hc (-> & Hnw & HB). destruct c; cbn [o_step view_step batch_ok fst snd] in *;
      try (split; [reflexivity|]; cbn; lia).
    - destruct (o_saved o) eqn:Es; (split; [cbn; rewrite ?Es; reflexivity|]; cbn [o_nw o_batch with_epoch]; lia).
    - split; [cbn; rewrite or_one_max; reflexivity|]. cbn [o_nw o_batch]. rewrite or_one_max. lia.
    - destruct (obj_len_ok o Hnw HB) as (L & h & -> & _). cbn [fst snd]. split; [reflexivity|]. cbn [o_nw o_batch]. lia.
    - unfold obj_get_len. cbn [fst snd]. split; [cbn; rewrite or_one_max; reflexivity|]. cbn [o_nw o_batch]. rewrite or_one_max. lia.
    - unfold obj_get. destruct (o_cache o); (split; [reflexivity|]; cbn [snd o_nw o_batch]; lia).
    - unfold obj_iter. destruct (o_saved o) as [s|] eqn:Es.
      + unfold obj_validate. cbn [o_shuffle o_drop].
        assert (Hsame : agree (Obj (o_shuffle o) (o_drop o) (o_epoch o) (o_nw o) (o_batch o) (Some s) (Some (create_shuffler k o)) true (o_it o))
                  (V (o_shuffle o) (o_drop o) (o_epoch o) (o_nw o) (o_batch o) (Some s)))
          by (split; [reflexivity|]; cbn [o_nw o_batch]; lia).
        destruct (negb (Bool.eqb _ _)); [exact Hsame|]. destruct (negb (_ =? 1)); [exact Hsame|].
        destruct (negb (os_seed s =? _)); [exact Hsame|]. destruct (negb (Bool.eqb _ _)); [exact Hsame|].
        destruct (obj_len_ok (Obj (o_shuffle o) (o_drop o) (o_epoch o) (o_nw o) (o_batch o) (Some s) (Some (create_shuffler k o)) true (o_it o)) Hnw HB)
          as (L & h & -> & _). cbn [o_shuffle o_drop o_epoch o_nw o_batch o_saved o_cache o_it].
        destruct (L <? _); [split; [reflexivity|]; cbn [snd o_nw o_batch]; lia|].
        destruct (sh_assign_ok (create_shuffler k o) 1 (o_batch o) (sd_epoch (os_main s)) (le_n 1) HB) as (a & Ha & Haok).
        cbn [with_epoch o_batch o_epoch]. rewrite Ha. cbn [bind].
        assert (Hres : forall r : res dstate, (exists d, r = Ok d) \/ r = Err ValueError \/ exists e : exn, r = Err e /\ e <> ValueError).
        { intros [d|e]; [left; exists d; reflexivity|]. destruct e; eauto 6; right; right; eexists; split; (reflexivity || discriminate). }
        specialize (Hres (resume (sh_call k (create_shuffler k o)) (oc_env k) 1 0 (os_main s) a)).
        destruct Hres as [(d & E)|[E|(e & E & He)]].
        * rewrite E. split; [reflexivity|]. cbn. lia.
        * exfalso. clear -E. unfold resume in E.
          destruct (nth_error (fst a) _); [|discriminate]. destruct (nth_error (snd a) _); [|discriminate].
          unfold replay_sampling in E. destruct (_ =? 0) in E; [discriminate|]. cbv zeta in E.
          match type of E with context[replay_loop ?f ?n ?B ?w ?i ?l] => pose proof (replay_loop_err f n B w i l) as Hl end.
          destruct (replay_loop _ _ _ _ _ _) as [x|e]; cbn [bind] in E.
          -- destruct (_ <? _) in E; [discriminate|]. destruct (nth_error (replay_chunks _ _) 0) as [[ci off]|]; [|discriminate].
             destruct (nth_error _ ci); discriminate.
          -- injection E as ->. exact Hl.
        * rewrite E. cbn [fst snd]. destruct e; try congruence; (split; [reflexivity|]; cbn; lia).
      + destruct (bind _ _); (split; [cbn; rewrite ?Es; reflexivity|]; cbn; lia).
    - unfold obj_next. destruct (o_it o) as [d|]; [|split; [reflexivity|]; cbn; lia].
      set (shuf := match o_shuffler o with Some h => _ | None => _ end).
      destruct (next shuf (at_epoch (o_epoch o) d)) as [[r| |e] d'] eqn:En.
      + split; [reflexivity|]. cbn; lia.
      + assert (E : d_epoch d' = S (o_epoch o)).
        { unfold next in En. destruct (_ <=? _) in En; [injection En as <-; cbn; lia|].
          destruct (d_upcoming _).
          - destruct (refill shuf _) as [[s'|]|]; try discriminate.
            + unfold pop_next in En. destruct (d_upcoming s'); [discriminate|]. destruct (nth_error _ _); discriminate.
            + injection En as <-. cbn. lia.
          - unfold pop_next in En. destruct (d_upcoming _); [discriminate|]. destruct (nth_error _ _); discriminate. }
        split; [cbn; rewrite E; reflexivity|]. cbn; lia.
      + split; [reflexivity|]. cbn; lia.
    - unfold obj_save. destruct (o_saved o) as [s|] eqn:Es; (split; [cbn; rewrite ?Es; reflexivity|]; cbn; lia).
  Qed.

  Lemma run_agree cs : forall o v, Forall batch_ok cs -> agree o v ->
    agree (snd (o_run k cs o)) (view_after cs (fst (o_run k cs o)) v).
  Proof.
    induction cs as [|c cs IH]; intros o v Hc HA; [exact HA|]. inversion Hc as [|? ? H1 H2]; subst.
    pose proof (step_agree c o v H1 HA) as HA'. cbn [o_run]. destruct (o_step k c o) as [r o1]. cbn [fst snd] in HA'.
    specialize (IH o1 _ H2 HA'). destruct (o_run k cs o1) as [rs o2]. exact IH.
  Qed.

  Lemma history_agree sh dr h o v : Forall batch_ok h -> history k sh dr h o v -> agree o v.
  Proof.
    intros Hh (rs & E & ->). pose proof (run_agree h (new_obj sh dr) (view_new sh dr) Hh) as H. rewrite E in H.
    apply H. split; [reflexivity|]. cbn. lia.
  Qed.

  (** * Beginning a loop *)

  Lemma fresh_good a w e d : assignment_ok (world_size (oc_env k) * 1) a ->
    nth_error (workers a) (global_rank (oc_env k)) = Some w -> iter_fresh (oc_env k) 1 0 e a = Ok d ->
    Good d /\ forall shuf, todo shuf e d = stream shuf e w.
  Proof.
    intros Ha Hw E. destruct (assignment_ok_worker _ _ _ _ Ha Hw) as [Hl Hne].
    destruct (workers_nth _ _ _ Hw) as [E1 E2]. unfold iter_fresh in E.
    rewrite Nat.mul_1_r, Nat.add_0_r, E1, E2 in E. injection E as <-. split.
    - unfold Good. cbn [d_chunks d_ivs d_num_chunks d_next d_upcoming d_global d_stop skipn length].
      split; [exact Hl|]. split; [exact Hne|]. split; [reflexivity|]. split; [lia|]. split; [congruence|]. lia.
    - intros shuf. reflexivity.
  Qed.

  Lemma iter_none o : o_saved o = None -> 1 <= o_batch o ->
    exists s d o', epoch_samples k (o_shuffle o) (o_drop o) (o_batch o) (o_epoch o) s /\
      o_step k Iter o = (Done, o') /\ Looping (create_shuffler k o) d o' /\ o_epoch o' = o_epoch o /\
      todo (sh_call k (create_shuffler k o)) (o_epoch o) d = s.
  Proof.
    intros Es HB. destruct (sh_assign_ok (create_shuffler k o) 1 (o_batch o) (o_epoch o) (le_n 1) HB) as (a & Ea & Ha).
    destruct (nth_error (workers a) (global_rank (oc_env k))) as [w|] eqn:Ew.
    2:{ apply nth_error_None in Ew. rewrite (workers_length _ _ (proj1 Ha)) in Ew. destruct Hk as (_ & Hr & _). lia. }
    destruct (iter_fresh (oc_env k) 1 0 (o_epoch o) a) as [d|e] eqn:Ei.
    2:{ exfalso. destruct (workers_nth _ _ _ Ew) as [E1 E2]. unfold iter_fresh in Ei.
        rewrite Nat.mul_1_r, Nat.add_0_r, E1, E2 in Ei. discriminate. }
    destruct (fresh_good a w (o_epoch o) d Ha Ew Ei) as [Hg Ht].
    eexists; exists d; eexists. split; [exists a, w; split; [|split; [exact Ew|reflexivity]]|].
    { unfold sh_assign, create_shuffler in Ea. rewrite Es in Ea. exact Ea. }
    split; [|split; [|split]].
    - cbn [o_step]. unfold obj_iter. rewrite Es. cbn [o_batch o_epoch]. rewrite Ea. cbn [bind]. rewrite Ei. reflexivity.
    - repeat (split; [reflexivity|]). exact Hg.
    - reflexivity.
    - rewrite Ht. unfold sh_call, create_shuffler. rewrite Es. reflexivity.
  Qed.

  Lemma turns_one B n : 1 <= B -> turns 1 B n 0 = n.
  Proof.
    intros HB. unfold turns.
    assert (H : forall l, filter (fun j => (j / B) mod 1 =? 0) l = l).
    { induction l as [|x l IH]; [reflexivity|]. cbn [filter]. rewrite Nat.mod_1_r, Nat.eqb_refl. f_equal. exact IH. }
    rewrite H. apply seq_length.
  Qed.

  Lemma resume_good a w st d shuf : shuf_ok shuf -> assignment_ok (world_size (oc_env k) * 1) a ->
    nth_error (workers a) (global_rank (oc_env k)) = Some w -> sd_workers st = 1 -> 1 <= sd_batch st ->
    sd_samples st < length (stream shuf (sd_epoch st) w) -> resume shuf (oc_env k) 1 0 st a = Ok d ->
    Good d /\ todo shuf (sd_epoch st) d = skipn (sd_samples st) (stream shuf (sd_epoch st) w).
  Proof.
    intros Hs Ha Hw Hst HB Hlt E. destruct (assignment_ok_worker _ _ _ _ Ha Hw) as [Hl Hne].
    rewrite (resume_eq shuf (oc_env k) (world_size (oc_env k)) 1 0 st a w) in E; auto; try (destruct Hk as (_ & Hr & _); lia).
    2:{ rewrite Nat.mul_1_r, Nat.add_0_r. exact Hw. }
    rewrite turns_one in E by exact HB. rewrite stream_length in Hlt by assumption.
    destruct (replay_walk (snd w) (sd_samples st)) as [ci off] eqn:Ewalk.
    destruct (replay_walk_spec _ _ _ _ Ewalk) as (H1 & H2 & H3).
    destruct (nth_error (snd w) ci) as [iv|] eqn:Ei; [|discriminate]. injection E as <-.
    destruct w as [cs ivs]; cbn [fst snd] in *.
    assert (Hci : ci < length ivs) by (apply nth_error_Some; congruence).
    destruct (nth_error cs ci) as [c|] eqn:Ec; [|apply nth_error_None in Ec; lia].
    set (cur := shuf (seq (iv_rs iv) (iv_re iv - iv_rs iv)) (length ivs) (sd_epoch st) ci).
    assert (Hcur : length cur = iv_size iv) by (unfold cur; rewrite shuf_ok_length, seq_length by exact Hs; reflexivity).
    assert (Hstop : sum (map iv_size ivs) = sd_samples st - off + iv_size iv + sum (map iv_size (skipn (ci + 1) ivs))).
    { rewrite <- (firstn_skipn ci ivs) at 1. rewrite map_app, sum_app, (skipn_nth_cons _ _ _ Ei).
      replace (S ci) with (ci + 1) by lia. cbn [map sum]. lia. }
    split.
    - unfold Good. cbn [d_chunks d_ivs d_num_chunks d_next d_upcoming d_global d_stop].
      split; [exact Hl|]. split; [exact Hne|]. split; [rewrite Hl; reflexivity|]. split; [lia|]. split; [lia|].
      rewrite skipn_length. lia.
    - unfold todo. cbn [d_chunks d_ivs d_next d_upcoming]. replace (ci + 1 - 1) with ci by lia. rewrite (nth_error_nth _ _ 0 Ec).
      unfold stream; cbn [fst snd]. rewrite <- H2. rewrite <- (skipn_skipn off (sum (map iv_size (firstn ci ivs)))).
      assert (Hsz : sum (map iv_size (firstn ci ivs)) =
                    sum (map (fun ci => iv_size (snd ci)) (firstn ci (combine cs ivs)))).
      { rewrite <- (map_map (@snd nat interval) iv_size), <- (firstn_map (@snd nat interval)).
        rewrite (map_snd_combine cs ivs Hl). reflexivity. }
      rewrite Hsz, chunk_order_split by (apply shuf_ok_length; exact Hs). cbn [Nat.add].
      rewrite (skipn_nth_cons _ _ _ (combine_nth_error _ _ _ _ _ Ec Ei)). cbn [chunk_order].
      rewrite skipn_app, map_length, Hl. fold cur. rewrite Hcur.
      replace (off - iv_size iv) with 0 by lia. rewrite skipn_O, skipn_map. f_equal.
      rewrite <- (Nat.add_1_r ci). f_equal. clear -Hl. revert cs ivs Hl. generalize (ci + 1) as n.
      induction n as [|n IH]; intros cs ivs Hl; [reflexivity|].
      destruct cs as [|c cs], ivs as [|iv ivs]; cbn [length] in Hl; try lia; [reflexivity|].
      cbn [skipn combine]. apply IH; lia.
  Qed.

  (** * Lengths *)

  Definition rank_share (W r B : nat) (drop : bool) (N : nat) : nat :=
    B * (N / B / W) + if negb drop && (r =? W - 1) then left_items W B N else 0.

  Lemma quota_sum W nw B N dl r : 1 <= W -> 1 <= nw -> 1 <= B -> r < W ->
    sum (firstn nw (skipn (r * nw) (quotas W nw B dl N))) = rank_share W r B dl N.
  Proof.
    intros HW Hnw HB Hr. rewrite rank_slice_quotas by assumption. unfold rank_share.
    destruct (r =? W - 1).
    - rewrite last_quota_sum by assumption. destruct dl; cbn [negb andb]; reflexivity.
    - rewrite rank_quota_sum by exact Hnw. rewrite andb_false_r. lia.
  Qed.

  Lemma assign_from h nw B e : one_node k \/ sh_full h = false -> exists p, Permutation p (seq 0 (length (oc_ivs k))) /\
    sh_assign k h nw B e = assign (world_size (oc_env k)) nw B (sh_drop h) p (map (fun i => nth i (oc_ivs k) dIv) p).
  Proof.
    intros Hn. destruct Hk as (Hrng & Hr & _). unfold sh_assign, shuffle_assign. destruct (sh_full h).
    - destruct Hn as [Hn|Hn]; [|discriminate Hn]. exact (full_shuffle_first (oc_rng k) (oc_env k) (sh_seed h) (sh_drop h) nw B e (oc_ivs k) Hrng (or_intror Hn)).
    - exists (seq 0 (length (oc_ivs k))). split; [apply Permutation_refl|]. rewrite ivs_as_map. reflexivity.
  Qed.

  Lemma sh_counts h nw B e a : one_node k \/ sh_full h = false -> 1 <= nw -> 1 <= B -> sh_assign k h nw B e = Ok a ->
    map (fun w => length (worker_samples w)) (workers a) =
    quotas (world_size (oc_env k)) nw B (sh_drop h) (sum (map iv_size (oc_ivs k))).
  Proof.
    intros H1 Hnw HB Ea. destruct (assign_from h nw B e H1) as (p & Hp & E). rewrite E in Ea.
    destruct (assign_main (world_size (oc_env k)) nw B (sh_drop h) p (map (fun i => nth i (oc_ivs k) dIv) p)) as (a' & Ha & _ & _ & Hc & _);
      try (destruct Hk as (_ & Hr & _); lia); [rewrite map_length; reflexivity|].
    rewrite Ea in Ha. injection Ha as <-. rewrite Hc, (sum_map_perm _ p Hp). reflexivity.
  Qed.

  Lemma sh_len_eq h nw B e : one_node k \/ sh_full h = false -> 1 <= nw -> 1 <= B ->
    sh_len k h nw B e = Ok (rank_share (world_size (oc_env k)) (global_rank (oc_env k)) B (sh_drop h) (sum (map iv_size (oc_ivs k)))).
  Proof.
    intros H1 Hnw HB. destruct (sh_assign_ok h nw B e Hnw HB) as (a & Ea & Ha).
    pose proof (sh_counts h nw B e a H1 Hnw HB Ea) as Hc. unfold sh_len, get_len. unfold sh_assign in Ea. rewrite Ea. cbn [bind]. f_equal.
    rewrite <- (quota_sum _ nw) by (destruct Hk as (_ & Hr & _); lia). rewrite <- Hc.
    assert (E : map (fun w => length (worker_samples w)) (workers a) = map (fun l => sum (map iv_size l)) (snd a)).
    { destruct Ha as [(L1 & L2 & S3) _]. unfold workers in *. destruct a as [cs is]. cbn [fst snd] in *.
      assert (L : length cs = length is) by lia. clear -L S3.
      revert is L S3; induction cs as [|c cs IH]; intros [|i is] L S3; try discriminate; [reflexivity|].
      cbn [combine map] in *. inversion S3 as [|? ? Hw S3']; subst. cbn [fst snd] in Hw. f_equal; [|apply IH; auto].
      unfold worker_samples; cbn [fst snd]. apply dataset_samples_length. exact Hw. }
    rewrite E, skipn_map, firstn_map. clear. induction (firstn nw _) as [|x l IH]; [reflexivity|].
    cbn [flat_map map sum]. rewrite sum_app, IH. reflexivity.
  Qed.

  Lemma epoch_length sh dr B e s : one_node k \/ sh = false -> 1 <= B -> epoch_samples k sh dr B e s ->
    length s = rank_share (world_size (oc_env k)) (global_rank (oc_env k)) B dr (sum (map iv_size (oc_ivs k))).
  Proof.
    intros H1 HB (a & w & Ea & Ew & ->).
    pose proof (sh_counts (Sh sh (oc_seed k) dr) 1 B e a H1 (le_n 1) HB Ea) as Hc. cbn [sh_drop] in Hc.
    rewrite <- (quota_sum _ 1) by (destruct Hk as (_ & Hr & _); lia). rewrite <- Hc.
    rewrite Nat.mul_1_r, skipn_map, (skipn_nth_cons _ _ _ Ew). cbn [map firstn sum]. rewrite Nat.add_0_r.
    apply Permutation_length, stream_perm, shuffle_call_ok, Hk.
  Qed.

  Lemma epoch_exists sh dr B e : 1 <= B -> exists s, epoch_samples k sh dr B e s.
  Proof.
    intros HB. destruct (sh_assign_ok (Sh sh (oc_seed k) dr) 1 B e (le_n 1) HB) as (a & Ea & Ha).
    destruct (nth_error (workers a) (global_rank (oc_env k))) as [w|] eqn:Ew.
    - eexists; exists a, w. split; [exact Ea|]. split; [exact Ew|reflexivity].
    - apply nth_error_None in Ew. rewrite (workers_length _ _ (proj1 Ha)) in Ew. destruct Hk as (_ & Hr & _). lia.
  Qed.

  Lemma epoch_unique sh dr B e s s' : epoch_samples k sh dr B e s -> epoch_samples k sh dr B e s' -> s = s'.
  Proof. intros (a & w & E1 & E2 & ->) (a' & w' & E1' & E2' & ->). congruence. Qed.

  Lemma epoch_whole sh B e s : world_size (oc_env k) = 1 -> 1 <= B -> epoch_samples k sh false B e s ->
    Permutation s (dataset_samples (seq 0 (length (oc_ivs k))) (oc_ivs k)).
  Proof.
    intros HW HB (a & w & Ea & Ew & ->). rewrite stream_perm by (apply shuffle_call_ok, Hk).
    assert (H1 : one_node k \/ sh = false).
    { left. destruct Hk as (_ & _ & _ & Hd). rewrite HW in Hd. apply Nat.eq_mul_1 in Hd. exact (proj1 Hd). }
    destruct (assign_from (Sh sh (oc_seed k) false) 1 B e H1) as (p & Hp & E).
    unfold sh_assign in E. cbn [sh_full sh_seed sh_drop] in E. rewrite Ea, HW in E.
    destruct (assign_main 1 1 B false p (map (fun i => nth i (oc_ivs k) dIv) p)) as (a' & Ha & Hsh & Hf & _);
      try lia; [rewrite map_length; reflexivity|].
    rewrite Ha in E. injection E as ->. pose proof (workers_length _ _ Hsh) as Hl.
    assert (Hr : global_rank (oc_env k) = 0) by (destruct Hk as (_ & Hr & _); lia). rewrite Hr in Ew.
    destruct (workers a') as [|w' [|? ?]]; cbn in Hl; try lia. cbn in Ew. injection Ew as ->.
    cbn [flat_map] in Hf. rewrite app_nil_r in Hf. rewrite Hf.
    rewrite firstn_all2 by (rewrite dataset_samples_length by (rewrite map_length; reflexivity); lia).
    apply dataset_samples_perm. exact Hp.
  Qed.
End Cfg.
