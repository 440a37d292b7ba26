From Verif Require Import Base Assign_Model Config_Model Format_Model Format_Proofs Loader_Model Loader_Spec Loader_Proofs.
From Coq Require Import Permutation.
Local Open Scope nat_scope.

(** * C38.  Token blocks tile each chunk: a chunk whose samples have [ns] tokens offers [tokens ns / block] samples;
    side by side they are the chunk's tokens, except fewer than [block] tokens at the end. *)
Theorem C38_blocks_tile : forall items ns itemsize block name begin, 1 <= itemsize -> 1 <= block -> have_tokens itemsize items ns ->
  exists samples rest,
    length samples = tokens ns / block
    /\ num_samples (ByBlock block) (Ci name (length items) (Some (tokens ns))) = Ok (length samples)
    /\ (forall j, j < length samples -> load_block (chunk_data items) (length items) itemsize block (begin + j) begin = Ok (nth j samples []))
    /\ Forall (fun s => length s = itemsize * block) samples
    /\ concat items = concat samples ++ rest /\ length rest < itemsize * block.
Proof.
  intros items ns itemsize block name begin Hi Hb HT. pose proof (have_tokens_length _ _ _ HT) as HL. set (n := tokens ns / block).
  pose proof (Nat.div_mod (tokens ns) block ltac:(lia)) as HD. pose proof (Nat.mod_upper_bound (tokens ns) block ltac:(lia)) as HM. fold n in HD.
  destruct (slices_spec (itemsize * block) n (concat items)) as (S1 & S2 & S3 & S4); [rewrite HL; nia|].
  exists (slices (itemsize * block) n (concat items)), (skipn (itemsize * block * n) (concat items)).
  split; [exact S1|]. split; [cbn [num_samples k_dim]; replace (block =? 0) with false by (symmetry; apply Nat.eqb_neq; lia); rewrite S1; reflexivity|].
  split; [|split; [exact S2|split; [exact S4|rewrite skipn_length, HL; nia]]].
  intros j Hj. rewrite S1 in Hj. unfold load_block. rewrite tokens_buffer_ok, HL. replace (begin + j - begin) with j by lia.
  replace (itemsize * tokens ns <? itemsize * j * block + itemsize * block) with false by (symmetry; apply Nat.ltb_ge; nia).
  f_equal. symmetry. apply nth_error_nth. rewrite S3 by exact Hj. do 3 f_equal. nia.
Qed.

(** Whatever the prefetching thread, deletions and [close] do in between, in any order, a sample that is delivered
    is the right block and nothing raises, provided files appear complete. *)
Theorem C38_any_history_partial : forall items ns itemsize block chunk_bytes files os, 1 <= itemsize -> 1 <= block ->
  (forall c, have_tokens itemsize (items c) (ns c) /\ 1 <= tokens (ns c)) ->
  (forall c, files c = None \/ files c = Some (chunk_data (items c))) ->
  Forall (op_ok (fun c => chunk_data (items c)) (fun c => tokens (ns c) / block)) os ->
  exists st outs, t_steps itemsize block (fun c => length (items c)) chunk_bytes (t_init files) os = Ok (st, outs)
    /\ Forall2 (out_ok (fun c j => token_block (items c) itemsize block j)) os outs.
Proof.
  intros items ns itemsize block chunk_bytes files os Hi Hb HT Hf HF. apply (t_steps_ok itemsize block items chunk_bytes (fun c => tokens (ns c) / block)); auto.
  - intros c E. destruct (HT c) as [H1 H2]. apply have_tokens_length in H1. rewrite E in H1. cbn in H1. nia.
  - intros c. destruct (HT c) as [H1 H2]. apply have_tokens_length in H1. rewrite H1. pose proof (Nat.mul_div_le (tokens (ns c)) block ltac:(lia)). nia.
  - split; [exact Hf|]. cbn. discriminate.
Qed.

(** A store that writes in place: the thread maps a file another process is still writing, and the sample raises
    although the file is complete by then. *)
Theorem C38_in_place_refuted : exists items part, part = firstn 20 (chunk_data items) /\ have_tokens 2 items [2; 2]
  /\ t_steps 2 2 (fun _ => length items) (fun _ => length (chunk_data items)) (t_init (fun _ => None))
       [TArrive 0 part; TPre 0; TArrive 0 (chunk_data items); TLoad 0 1 0] = Err ValueError.
Proof. exists [[1; 0; 2; 0]; [3; 0; 4; 0]]%N. eexists. split; [reflexivity|]. split; reflexivity. Qed.

(** A chunk whose samples have no tokens at all cannot be mapped: the prefetching thread, or the read, fails. *)
Theorem C38_no_tokens : forall items ns itemsize block chunk_bytes c index begin o, have_tokens itemsize items ns -> tokens ns = 0 ->
  chunk_bytes c <= length (chunk_data items) -> o = TPre c \/ o = TLoad c index begin ->
  t_steps itemsize block (fun _ => length items) chunk_bytes (t_init (fun _ => Some (chunk_data items))) [o] = Err ValueError.
Proof.
  intros items ns itemsize block chunk_bytes c index begin o HT H0 Hc Ho. pose proof (have_tokens_length _ _ _ HT) as HL. rewrite H0, Nat.mul_0_r in HL.
  assert (E : tokens_buffer (chunk_data items) (length items) = []) by (rewrite tokens_buffer_ok; destruct (concat items); [reflexivity|discriminate HL]).
  destruct Ho as [-> | ->].
  - cbn [t_steps t_step t_init t_file]. destruct (chunk_data items) as [|b l] eqn:Ed; [discriminate Ed|].
    unfold t_load_chunk. cbn [t_map t_file]. rewrite E. reflexivity.
  - cbn [t_steps t_step t_init t_file t_reg andb orb]. rewrite (proj2 (Nat.leb_le _ _) Hc). unfold t_load_chunk. cbn [t_map t_file]. rewrite E. reflexivity.
Qed.
Print Assumptions C38_no_tokens.
Example C38_no_tokens_case : have_tokens 2 [[]; []] [0; 0] /\
  t_steps 2 2 (fun _ => 2) (fun _ => length (chunk_data [[]; []])) (t_init (fun _ => Some (chunk_data [[]; []]))) [TLoad 0 0 0] = Err ValueError.
Proof. split; reflexivity. Qed.

(** Two samples of three and two tokens, blocks of two tokens: two blocks, the second across the samples. *)
Example C38_case : let items := [[1; 0; 2; 0; 3; 0]; [4; 0; 5; 0]]%N in
  have_tokens 2 items [3; 2] /\ map (fun i => load_block (chunk_data items) 2 2 2 i 7) [7; 8; 9]
    = [Ok [1; 0; 2; 0]; Ok [3; 0; 4; 0]; Err ValueError]%N.
Proof. vm_compute. auto. Qed.
Example C38_history_case : let items := [[1; 0; 2; 0; 3; 0]; [4; 0; 5; 0]]%N in
  match t_steps 2 2 (fun _ => 2) (fun _ => length (chunk_data items)) (t_init (fun _ => None))
          [TLoad 3 7 7; TArrive 3 (chunk_data items); TPre 3; TLoad 3 8 7; TClose 3; TGone 3; TLoad 3 8 7; TArrive 3 (chunk_data items); TLoad 3 7 7; TDelete 3; TLoad 3 7 7]
  with Ok (_, outs) => outs = [TWaits; TDone; TDone; TBlock [3; 0; 4; 0]; TDone; TDone; TWaits; TDone; TBlock [1; 0; 2; 0]; TDone; TWaits]%N | Err _ => False end.
Proof. vm_compute. auto. Qed.

(** * C39.  Low-memory Parquet reading returns the requested row, whatever was read before. *)
Theorem C39_row_partial : forall (row : Type) (groups : list (list row)) is_, uniform groups ->
  Forall (fun i => i < length (concat groups)) is_ ->
  exists st rs, p_reads groups p_init is_ = Ok (st, rs) /\ Forall2 (fun i r => nth_error (concat groups) i = Some r) is_ rs.
Proof.
  intros row groups is_ HU HF. destruct (p_reads_ok groups HU is_ p_init) as (st & rs & H1 & H2 & _); [intros g df c; discriminate|exact HF|]. eauto.
Qed.
(** Groups of other sizes: the wrong row, or an error. *)
Theorem C39_wrong_row_refuted : exists (groups : list (list nat)) i st r, p_read groups p_init i = Ok (st, r) /\ nth_error (concat groups) i <> Some r.
Proof. exists [[10]; [11; 12]; [13]], 2. do 2 eexists. split; [reflexivity|]. cbn. discriminate. Qed.
Theorem C39_error_refuted : exists (groups : list (list nat)) i, i < length (concat groups) /\ p_read groups p_init i = Err GenericException.
Proof. exists [[10; 11]; [12]; [13]], 3. split; [cbn; lia|reflexivity]. Qed.
Example C39_case : match p_reads [[10; 11]; [12; 13]; [14]] p_init [4; 1; 1; 0; 3; 2; 0] with Ok (_, rs) => rs = [14; 11; 11; 10; 13; 12; 10] | Err _ => False end
  /\ uniform [[10; 11]; [12; 13]; [14]].
Proof. split; [reflexivity|]. exists 2, [[10; 11]; [12; 13]], [14]. cbn. repeat split; auto. Qed.

(** * C78.  Low-memory Parquet reading gives back a row group once all of its rows were read. *)
Theorem C78_row_groups_released_partial : forall (row : Type) (groups : list (list row)) g0 rest order st rs, uniform groups -> groups = g0 :: rest ->
  Permutation order (seq 0 (length (concat groups))) -> p_reads groups p_init order = Ok (st, rs) ->
  forall g df, nth_error groups g = Some df -> length df = length g0 -> st g = None.
Proof.
  intros row groups g0 rest order st rs HU E0 HP E g df Hg Hl. destruct (uniform_first groups HU) as (g0' & rest' & full & lst & E0' & E1 & HF & Hlst).
  rewrite E0 in E0'. injection E0' as <- <-. assert (Hn : 1 <= length g0) by lia.
  assert (HN : NoDup (rev order ++ [])). { rewrite app_nil_r. apply NoDup_rev. apply (Permutation_NoDup (Permutation_sym HP)), seq_NoDup. }
  pose proof (p_reads_counts groups g0 rest E0 Hn order [] p_init st rs ltac:(intros ?; left; reflexivity) HN E g) as HC.
  assert (HF2 : length g0 <= cnt (length g0) g (rev order ++ [])).
  { apply cnt_full; [exact Hn|exact HN|]. intros k Hk. rewrite app_nil_r, <- in_rev. apply (Permutation_in _ (Permutation_sym HP)), in_seq.
    rewrite E1 in Hg. pose proof (group_start (length g0) full lst g df HF Hg) as HS. rewrite <- E1 in HS. lia. }
  destruct (st g) as [[df' c]|]; [lia|reflexivity].
Qed.
Theorem C78_last_group_kept_refuted : exists (groups : list (list nat)) order, uniform groups /\ Permutation order (seq 0 (length (concat groups))) /\
  match p_reads groups p_init order with Ok (st, _) => st 1 <> None | Err _ => False end.
Proof.
  exists [[10; 11]; [12]], [0; 1; 2]. split; [exists 2, [[10; 11]], [12]; cbn; repeat split; auto|]. split; [apply Permutation_refl|]. vm_compute. discriminate.
Qed.
Example C78_case : match p_reads [[10; 11]; [12; 13]; [14; 15]] p_init [5; 0; 3; 2; 1; 4] with Ok (st, _) => map st [0; 1; 2] = [None; None; None] | Err _ => False end.
Proof. reflexivity. Qed.

(** * C79.  The memory map of a chunk of tokens is released when the reader moves on. *)
(** Without the prefetching thread (local data), a chunk of which [k] samples were read is unmapped by
    [close] only if [k = 1]. *)
Theorem C79_closed_iff_one_sample_partial : forall itemsize block items ns c begin k, 1 <= itemsize -> 1 <= block -> have_tokens itemsize items ns -> block <= tokens ns -> 1 <= k ->
  exists st outs, t_steps itemsize block (fun _ => length items) (fun _ => length (chunk_data items)) (t_init (fun _ => Some (chunk_data items))) (loads c begin k ++ [TClose c]) = Ok (st, outs)
    /\ (t_map st c = None <-> k = 1).
Proof.
  intros itemsize block items ns c begin k Hi Hb HT Hd Hk. pose proof (have_tokens_length _ _ _ HT) as HL.
  assert (HB : tokens_buffer (chunk_data items) (length items) = concat items) by apply tokens_buffer_ok.
  destruct (loads_state itemsize block items (length (chunk_data items)) c begin (chunk_data items) k (t_init (fun _ => Some (chunk_data items)))) as (st & outs & E & C & F & M);
    [rewrite HB; intros E; rewrite E in HL; cbn in HL; nia|reflexivity|lia|rewrite HB, HL; nia|left; reflexivity|].
  assert (EA : t_steps itemsize block (fun _ => length items) (fun _ => length (chunk_data items)) (t_init (fun _ => Some (chunk_data items))) (loads c begin k ++ [TClose c])
     = Ok (Tst (t_file st) (if (t_count st c - 1 =? 0)%Z then upd (t_map st) c None else t_map st) (upd (t_count st) c (t_count st c - 1)%Z) (t_reg st), outs ++ [TDone])).
  { rewrite t_steps_app, E. reflexivity. }
  rewrite EA. eexists _, _. split; [reflexivity|]. cbn [t_map]. rewrite C. cbn [t_init t_count]. replace (k =? 0) with false in M by (symmetry; apply Nat.eqb_neq; lia).
  destruct (Z.eqb_spec (0 + Z.of_nat k - 1) 0) as [Z0|Z0].
  - rewrite upd_same. split; [intros _; lia|reflexivity].
  - rewrite M. split; [discriminate|intros ->; lia].
Qed.
Theorem C79_kept_refuted : exists items, match t_steps 2 2 (fun _ => length items) (fun _ => length (chunk_data items)) (t_init (fun _ => Some (chunk_data items)))
    [TLoad 0 0 0; TLoad 0 1 0; TClose 0] with Ok (st, _) => t_map st 0 <> None | Err _ => False end.
Proof. exists [[1; 0; 2; 0]; [3; 0; 4; 0]]%N. vm_compute. discriminate. Qed.
(** Deleting the chunk does release it. *)
Theorem C79_delete_releases : forall itemsize block chunk_size chunk_bytes st c f, t_file st c = Some f ->
  exists st', t_step itemsize block chunk_size chunk_bytes st (TDelete c) = Ok (st', TDone) /\ t_map st' c = None /\ t_file st' c = None.
Proof. intros itemsize block chunk_size chunk_bytes st c f E. cbn [t_step]. rewrite E. eexists. split; [reflexivity|]. cbn. rewrite !upd_same. auto. Qed.
(** Two blocks of a chunk are read: it stays mapped until it is deleted; after a single block [close] unmaps it. *)
Example C79_case : let items := [[1; 0; 2; 0]; [3; 0; 4; 0]]%N in
  let go acts := match t_steps 2 2 (fun _ => length items) (fun _ => length (chunk_data items)) (t_init (fun _ => Some (chunk_data items))) acts with
                 | Ok (st, _) => Some (match t_map st 0 with Some _ => true | None => false end, match t_file st 0 with Some _ => true | None => false end)
                 | Err _ => None end in
  have_tokens 2 items [2; 2] /\
  map go [loads 0 7 1 ++ [TClose 0]; loads 0 7 2 ++ [TClose 0]; loads 0 7 2 ++ [TClose 0; TDelete 0]] = [Some (false, true); Some (true, true); Some (false, false)].
Proof. vm_compute. auto. Qed.

(** * C80.  Waiting for a chunk ends: it is opened as soon as it is there, and given up with FileNotFoundError after the
    maximal waiting time; a download is forced at most once. *)
Theorem C80_waiting_ends_partial : forall force_time max_wait obs, let r := wait force_time max_wait false obs in
  snd r <= 1
  /\ match fst r with
     | Ready => exists pre t post, obs = pre ++ (t, true) :: post /\ t <= max_wait /\ Forall (fun o => fst o <= max_wait /\ snd o = false) pre
     | Raised e => e = FileNotFoundError /\ exists pre t b post, obs = pre ++ (t, b) :: post /\ max_wait < t /\ Forall (fun o => fst o <= max_wait /\ snd o = false) pre
     | Waiting => Forall (fun o => fst o <= max_wait /\ snd o = false) obs /\ (snd r = 0 -> Forall (fun o => fst o <= force_time) obs)
     end.
Proof.
  intros f m obs. unfold wait. destruct (wait_turns_spec f m obs false) as (H1 & H2 & H3 & H4 & H5). cbv zeta. split; [exact H1|].
  destruct (fst (wait_turns f m false obs)) eqn:E; [apply H3; reflexivity|apply H4; reflexivity|]. split; [apply H2; reflexivity|]. intros Hs. apply H5; auto.
Qed.
(** The Parquet loader waits forever and forces nothing. *)
Theorem C80_parquet_refuted : exists obs : nat -> list bool, forall n, length (obs n) = n /\ wait_parquet false (obs n) = Waiting.
Proof. exists (repeat false). intros n. split; [apply repeat_length|]. induction n as [|n IH]; [reflexivity|exact IH]. Qed.
Example C80_case : map (wait 30 120 false) [[(1, false); (40, false); (50, false); (60, true)]; [(1, false); (31, false); (121, true)]; [(5, true)]; [(10, false)]]
  = [(Ready, 1); (Raised FileNotFoundError, 1); (Ready, 0); (Waiting, 0)].
Proof. reflexivity. Qed.

(** * C81.  A loader passed by the user serves several epochs.  Each remote epoch reads its chunks and ends with [close]. *)
Theorem C81_epochs_iff_partial : forall epochs, Forall (fun e => e <> []) epochs ->
  ((exists st, pt_epochs ptl_init epochs = Ok (st, epochs)) <-> forall pre a b post, epochs = pre ++ a :: b :: post -> last a 0 <> hd 0 b).
Proof.
  intros epochs H. destruct (pt_epochs_spec epochs None H) as [(st & E & _ & E2)|(E & E1)]; change (Ptl None None) with ptl_init in E.
  - split; [intros _; exact E2|eauto].
  - split; [rewrite E; intros (st & X); discriminate|]. intros X. exfalso. destruct E1 as [E1|(pre & a & b & post & X1 & X2)].
    + destruct epochs; [exact E1|discriminate].
    + apply (X pre a b post X1 X2).
Qed.
(** A dataset of one chunk: the second epoch fails. *)
Theorem C81_one_chunk_refuted : exists epochs, Forall (fun e => e <> []) epochs /\ pt_epochs ptl_init epochs = Err AssertionError.
Proof. exists [[0; 0; 0]; [0; 0; 0]]. split; [repeat constructor; discriminate|reflexivity]. Qed.
(** Sending the loader to a worker process makes it usable again. *)
Theorem C81_pickled : forall st epoch, exists st', pt_loads (pt_pickle st) epoch = Ok (st', epoch).
Proof.
  intros st [|c cs]; [eexists; reflexivity|]. change (pt_pickle st) with (Ptl None None). rewrite pt_loads_first by discriminate. eauto.
Qed.
Example C81_case : match pt_epochs ptl_init [[0; 0; 1; 2]; [0; 1; 1; 0]; [2; 1]] with Ok (_, es) => es = [[0; 0; 1; 2]; [0; 1; 1; 0]; [2; 1]] | Err _ => False end.
Proof. vm_compute. reflexivity. Qed.

Print Assumptions C38_blocks_tile.
Print Assumptions C38_any_history_partial.
Print Assumptions C38_in_place_refuted.
Print Assumptions C39_row_partial.
Print Assumptions C39_wrong_row_refuted.
Print Assumptions C39_error_refuted.
Print Assumptions C78_row_groups_released_partial.
Print Assumptions C78_last_group_kept_refuted.
Print Assumptions C79_closed_iff_one_sample_partial.
Print Assumptions C79_kept_refuted.
Print Assumptions C79_delete_releases.
Print Assumptions C80_waiting_ends_partial.
Print Assumptions C80_parquet_refuted.
Print Assumptions C81_epochs_iff_partial.
Print Assumptions C81_one_chunk_refuted.
Print Assumptions C81_pickled.
