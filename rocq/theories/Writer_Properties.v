(** Properties C14-C19, C59, C60: chunk format and writer. *)
From Verif Require Import Base Dict Format_Model Format_Proofs Writer_Model Writer_Spec
  Writer_Proofs Writer_Proofs2 Writer_Proofs3.

(** C14. *)
Theorem C14_chunk_read_back c first a l s decompress ch :
  Forall (fun x => 1 <= length (it_data x)) l ->
  bind (add_all c (new_writer first) a l) (done c false) = Ok s ->
  (forall k d, c_seal c k d = d) -> (forall d, decompress (c_compress c d) = d) ->
  In ch (w_chunks s) -> (N.of_nat (ch_bytes ch) < two32)%N ->
  ch_bytes ch = length (decompress (ch_file ch)) /\
  forall i x begin, nth_error (ch_items ch) i = Some x ->
    load_item (decompress (ch_file ch)) (begin + i) begin = Ok (it_data x).
Proof. exact (read_written c first a l s decompress ch). Qed.
Print Assumptions C14_chunk_read_back.

(** The same for any items at all, packed by hand. *)
Theorem C14_any_items items i x begin :
  (blen (chunk_data items) < two32)%N -> nth_error items i = Some x ->
  load_item (chunk_data items) (begin + i) begin = Ok x.
Proof. exact (load_item_ok items i x begin). Qed.
Print Assumptions C14_any_items.

Definition plain (l : list N) : item := Item l None.
Definition cfg_size (k : nat) : wcfg := WCfg None (Some k) (fun _ d => d) (fun d => d).
Definition cfg_bytes (b : nat) : wcfg := WCfg (Some b) None (fun _ d => d) (fun d => d).
Example C14_case :
  map (fun i => load_item (chunk_data [[1; 2]; []; [3; 4; 5]]%N) (7 + i) 7) [0; 1; 2]
  = [Ok [1; 2]%N; Ok []; Ok [3; 4; 5]%N].
Proof. reflexivity. Qed.

(** C15: fields with a declared size (None: variable) that is the true one. *)
Theorem C15_fields_round_trip fields :
  Forall (fun f => fst f = None \/ fst f = Some (blen (snd f))) fields ->
  let item := encode_fields (map snd fields) (sizes_of fields) in
  (blen item < two32)%N ->
  decode_fields (length fields) item = Ok (map snd fields).
Proof.
  intros H item Hb. subst item.
  assert (E : sizes_of fields = map blen (map snd fields)).
  { unfold sizes_of. rewrite map_map. apply map_ext_in. intros [o d] Hin. rewrite Forall_forall in H.
    destruct (H _ Hin) as [E|E]; cbn in *; rewrite E; reflexivity. }
  rewrite E in *. rewrite <- (map_length snd fields). apply decode_encode, Hb.
Qed.
Print Assumptions C15_fields_round_trip.

Example C15_case :
  let fields := [(Some 2, [7; 8]); (None, []); (None, [1; 2; 3])]%N in
  encode_fields (map snd fields) (sizes_of fields) = [2; 0; 0; 0; 0; 0; 0; 0; 3; 0; 0; 0; 7; 8; 1; 2; 3]%N /\
  decode_fields 3 (encode_fields (map snd fields) (sizes_of fields)) = Ok [[7; 8]; []; [1; 2; 3]]%N.
Proof. split; reflexivity. Qed.

(** C60: items of MDS shards; 0 stands for a column of variable size. *)
Theorem C60_mds_round_trip column_sizes data :
  Forall2 (fun c d => c = 0%N \/ c = blen d) column_sizes data ->
  (blen (mds_encode column_sizes data) < two32)%N ->
  mds_decode column_sizes (length data) (mds_encode column_sizes data) = Ok data.
Proof. exact (mds_decode_encode column_sizes data). Qed.
Print Assumptions C60_mds_round_trip.

Example C60_case :
  mds_decode [0; 2; 0]%N 3 (mds_encode [0; 2; 0]%N [[5]; [6; 7]; []]%N) = Ok [[5]; [6; 7]; []]%N.
Proof. reflexivity. Qed.

(** C16. *)
Theorem C16_stored_in_order c first a l :
  Forall (fun x => 1 <= length (it_data x)) l ->
  exists s, bind (add_all c (new_writer first) a l) (done c false) = Ok s /\
    stored s = l /\ w_items s = [] /\
    chunks_of c first (w_chunks s) /\
    Forall (fun ch => 1 <= ch_size ch) (w_chunks s) /\
    sum (map ch_size (w_chunks s)) = length l.
Proof.
  intros Hl. destruct (write_in_order c first a l Hl) as (s & E & Hi & _ & Hof & Hst & Hf & _).
  exists s. split; [exact E|]. split; [exact Hst|]. split; [exact Hi|]. split; [exact Hof|].
  assert (Hsz : forall ch, In ch (w_chunks s) -> ch_size ch = length (ch_items ch)).
  { intros ch Hin. apply In_nth_error in Hin. destruct Hin as [k Hk]. apply (Hof k ch Hk). }
  split.
  - apply Forall_forall. intros ch Hin. rewrite (Hsz ch Hin). rewrite Forall_forall in Hf.
    specialize (Hf _ (in_map ch_items _ _ Hin)). destruct Hf as [Hf _]. destruct (ch_items ch); [congruence|cbn; lia].
  - rewrite <- Hst. unfold stored. rewrite length_concat, map_map. f_equal. apply map_ext_in, Hsz.
Qed.
Print Assumptions C16_stored_in_order.

Definition show (r : res wstate) : res (list (N * list (list N))) :=
  bind r (fun s => Ok (map (fun ch => (blen (ch_file ch), map it_data (ch_items ch))) (w_chunks s))).
Definition ex_items := map plain [[1]; [2; 3]; [4; 5; 6; 7; 8]; [9]; [10]; [11]]%N.
Example C16_case :
  show (bind (add_all (cfg_bytes 3) (new_writer 0) 0 ex_items) (done (cfg_bytes 3) false))
  = Ok [(19, [[1]; [2; 3]]); (17, [[4; 5; 6; 7; 8]]); (23, [[9]; [10]; [11]])]%N.
Proof. vm_compute. reflexivity. Qed.

(** C17: a writer without limits, or with both, is refused. *)
Theorem C17_one_limit c first :
  (c_size c = None /\ c_bytes c = None \/ (exists k b, c_size c = Some k /\ c_bytes c = Some b /\ 1 <= k /\ 1 <= b)) <->
  create_writer c first = Err ValueError.
Proof.
  unfold create_writer. destruct (c_size c) as [[|k]|], (c_bytes c) as [[|b]|]; cbn [is_none truthy andb orb]; split; intros H; try discriminate H; try reflexivity;
    try (exfalso; destruct H as [[H1 H2]|(k' & b' & H1 & H2 & H3 & H4)]; try discriminate; injection H1 as <-; injection H2 as <-; lia).
  - right. exists (S k), (S b). repeat split; lia.
  - left. auto.
Qed.
Print Assumptions C17_one_limit.

Example C17_one_limit_case : create_writer (WCfg None None (fun _ b => b) (fun b => b)) 0 = Err ValueError /\
  create_writer (WCfg (Some 64) (Some 2) (fun _ b => b) (fun b => b)) 0 = Err ValueError /\
  create_writer (WCfg (Some 64) (Some 0) (fun _ b => b) (fun b => b)) 0 = Ok (new_writer 0).
Proof. repeat split; reflexivity. Qed.

(** C17, item limit. *)
Theorem C17_chunk_size c first a l s k :
  1 <= k -> c_bytes c = None -> c_size c = Some k ->
  Forall (fun x => 1 <= length (it_data x) /\ it_dim x = None) l ->
  bind (add_all c (new_writer first) a l) (done c false) = Ok s ->
  forall pre ch post, w_chunks s = pre ++ ch :: post -> ch_size ch <= k /\ (post <> [] -> ch_size ch = k).
Proof. exact (limits_size c first a l s k). Qed.
Print Assumptions C17_chunk_size.

(** C17, byte limit; chunks are also as full as possible. *)
Theorem C17_chunk_bytes c first a l s b :
  1 <= b -> c_bytes c = Some b -> c_size c = None ->
  Forall (fun x => 1 <= length (it_data x)) l ->
  bind (add_all c (new_writer first) a l) (done c false) = Ok s ->
  (forall ch, In ch (w_chunks s) -> sum (map (fun y => length (it_data y)) (ch_items ch)) <= b \/ exists x, ch_items ch = [x] /\ b < length (it_data x)) /\
  (forall pre ch x items post, map ch_items (w_chunks s) = pre ++ ch :: (x :: items) :: post ->
     b < sum (map (fun y => length (it_data y)) ch) + length (it_data x)).
Proof. exact (limits_bytes c first a l s b). Qed.
Print Assumptions C17_chunk_bytes.

(** C17 for samples with several tokens: a chunk holds at most k tokens or is a
    single sample, and could not have taken the next sample. *)
Theorem C17_tokens c first a l s :
  Forall (fun x => 1 <= length (it_data x)) l ->
  bind (add_all c (new_writer first) a l) (done c false) = Ok s ->
  Forall (fun ch => fits c ch \/ exists x, ch = [x]) (map ch_items (w_chunks s)) /\
  tight c (map ch_items (w_chunks s)).
Proof.
  intros Hl Hs. destruct (write_in_order c first a l Hl) as (s' & E & _ & _ & _ & _ & Hf & Ht).
  rewrite Hs in E. injection E as <-. split; [|exact Ht]. eapply Forall_impl; [|exact Hf].
  cbn. intros ch [Hn [H|H]]; [left; exact H|right]. destruct ch as [|x [|y ch]]; [congruence|exists x; reflexivity|discriminate].
Qed.
Print Assumptions C17_tokens.

Example C17_tokens_case :
  show (bind (add_all (cfg_size 4) (new_writer 0) 0 [Item [1; 2; 3]%N (Some 3); Item [4]%N (Some 1); Item [5; 6]%N (Some 2); Item [] (Some 0); Item [7]%N (Some 1)])
         (done (cfg_size 4) false))
  = Ok [(20, [[1; 2; 3]; [4]]); (23, [[5; 6]; []; [7]])]%N.
Proof. vm_compute. reflexivity. Qed.

Example C17_case :
  show (bind (add_all (cfg_size 4) (new_writer 0) 0 ex_items) (done (cfg_size 4) false))
  = Ok [(33, [[1]; [2; 3]; [4; 5; 6; 7; 8]; [9]]); (18, [[10]; [11]])]%N.
Proof. vm_compute. reflexivity. Qed.

(** C18 (violated): three empty samples and chunk_size=2: no chunk is closed, and
    finishing raises. *)
Theorem C18_empty_samples_refuted :
  exists c l, c_size c = Some 2 /\
    bind (add_all c (new_writer 0) 0 l) (done c false) = Err AssertionError.
Proof. exists (cfg_size 2), (map plain [[]; []; []]). split; vm_compute; reflexivity. Qed.
Print Assumptions C18_empty_samples_refuted.

(** C18, what does hold: with items of any size either everything is stored or
    finishing raises an AssertionError.  Missing: the limits, the order, and that
    it does not raise. *)
Theorem C18_empty_samples_partial c first a l :
  (exists s, bind (add_all c (new_writer first) a l) (done c false) = Ok s /\ Permutation (stored s) l)
  \/ bind (add_all c (new_writer first) a l) (done c false) = Err AssertionError.
Proof. exact (write_all_partial c first a l). Qed.
Print Assumptions C18_empty_samples_partial.

Example C18_case :
  show (bind (add_all (cfg_bytes 1) (new_writer 0) 0 (map plain [[]; [1]; [2]; []]%N)) (done (cfg_bytes 1) false))
  = Ok [(26, [[]; [1]; [2]; []])]%N.
Proof. vm_compute. reflexivity. Qed.

(** C19 (violated): a single sample of 2^32 bytes is written without an error and
    read back as the empty byte string. *)
Theorem C19_four_gib_refuted :
  exists c x s ch,
    bind (add_all c (new_writer 0) 0 [x]) (done c false) = Ok s /\ w_chunks s = [ch] /\
    it_data x <> [] /\ load_item (ch_file ch) 0 0 = Ok [].
Proof.
  destruct (item_of_size two32) as [x Hb].
  destruct (four_gib (cfg_bytes 64) 0 0 x (fun _ _ => eq_refl) (fun _ => eq_refl) Hb) as (s & ch & H1 & H2 & H3).
  exists (cfg_bytes 64), x, s, ch. split; [exact H1|]. split; [exact H2|]. split; [|exact H3].
  intros E. rewrite E in Hb. discriminate.
Qed.
Print Assumptions C19_four_gib_refuted.

(** C19, what does hold: chunk files below 4 GiB are readable (C14); missing: larger files. *)
Theorem C19_four_gib_partial items i x begin :
  (blen (chunk_data items) < two32)%N -> nth_error items i = Some x ->
  load_item (chunk_data items) (begin + i) begin = Ok x.
Proof. exact (load_item_ok items i x begin). Qed.
Print Assumptions C19_four_gib_partial.

Example C19_four_gib_case : let items := [[7; 8]; []; [9; 10; 11]]%N in
  (blen (chunk_data items) < two32)%N /\ map (fun i => load_item (chunk_data items) i 40) [40; 41; 42] = [Ok [7; 8]; Ok []; Ok [9; 10; 11]]%N.
Proof. vm_compute. auto. Qed.

(** C59: additions in any order, of items of any size. *)
Theorem C59_any_order c first l :
  NoDup (map fst l) ->
  exists s, add_any c (new_writer first) l = Ok s /\
  ((exists s', done c false s = Ok s' /\ Permutation (stored s') (map snd l) /\
      Forall (run_of l) (map ch_items (w_chunks s')) /\ w_items s' = [])
   \/ done c false s = Err AssertionError).
Proof. exact (write_any_order c first l). Qed.
Print Assumptions C59_any_order.

Theorem C59_pending_index_refused c first l s i x :
  NoDup (map fst l) -> add_any c (new_writer first) l = Ok s -> w_chunks s = [] -> In i (map fst l) ->
  add_item c s i x = Err ValueError.
Proof. exact (pending_refused c first l s i x). Qed.
Print Assumptions C59_pending_index_refused.

Example C59_case :
  show (bind (add_any (cfg_size 2) (new_writer 0) (combine [3; 1; 0; 2; 4] (map plain [[3]; [1]; [0]; [2]; [4]]%N))) (done (cfg_size 2) false))
  = Ok [(18, [[0]; [1]]); (18, [[2]; [3]]); (13, [[4]])]%N.
Proof. vm_compute. reflexivity. Qed.

