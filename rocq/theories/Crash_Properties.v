From Verif Require Import Base Crash_Model Crash_Spec Crash_Proofs.

(** * C37.  A crash during download never leaves a truncated chunk behind. *)
Theorem C37_local_download_atomic_partial : forall cut remote, cut_ok cut -> forall ks,
  absent_or_complete (attempts cut Local None remote empty_cache ks) File remote
  /\ (** an attempt that is not interrupted repairs what the crashes left *)
     forall k, length (fst (fetch cut Local None remote (attempts cut Local None remote empty_cache ks))) <= k ->
       attempt cut Local None remote (attempts cut Local None remote empty_cache ks) k File = Some remote.
Proof.
  intros cut remote Hc ks. assert (H : absent_or_complete (attempts cut Local None remote empty_cache ks) File remote).
  { apply (local_history cut Hc). left. reflexivity. }
  split; [exact H|]. intros k Hk. unfold attempt. rewrite firstn_all2 by exact Hk. rewrite no_comp. cbn [fst].
  set (s := attempts cut Local None remote empty_cache ks) in *. destruct (exists_ s File) eqn:E.
  - unfold download. rewrite E. unfold exists_ in E. destruct H as [H|H]; rewrite H in E; [discriminate|exact H].
  - apply (local_complete cut Hc remote s E).
Qed.

(** Azure writes in place: an interrupted download leaves a truncated chunk that no later request
    repairs. *)
Theorem C37_azure_refuted : exists cut remote k, cut_ok cut /\ exists d, d <> remote /\
  forall ks, attempts cut Azure None remote empty_cache (k :: ks) File = Some d.
Proof.
  exists (fun l => map (fun x => [x]) l), [1; 2; 3], 2. split.
  - intros l. induction l as [|x l IH]; [reflexivity|cbn; f_equal; exact IH].
  - exists [1]. split; [discriminate|]. intros ks. apply (azure_stuck _ [1; 2; 3] [1] ks). reflexivity.
Qed.

(** Decompression writes in place, whatever the store. *)
Theorem C37_decompress_refuted : exists cut dec remote out k, cut_ok cut /\ dec remote = Some out /\ exists d, d <> out /\
  forall ks, attempts cut Local (Some dec) remote empty_cache (k :: ks) Target = Some d.
Proof.
  exists (fun l => map (fun x => [x]) l), (fun l => Some (l ++ l)), [1; 2], [1; 2; 1; 2], 7. split; [|split; [reflexivity|]].
  - intros l. induction l as [|x l IH]; [reflexivity|cbn; f_equal; exact IH].
  - exists [1]. split; [discriminate|]. intros ks. apply (target_stuck _ (cut_ok_sing) _ [1; 2] [1] ks). reflexivity.
Qed.

(** * C75.  A reader never opens an incomplete chunk. *)
Theorem C75_reader_sees_complete_chunk : forall cut st remote, cut_ok cut -> forall ks,
  reader_accepts (attempts cut st None remote empty_cache ks) File (length remote) = true ->
  attempts cut st None remote empty_cache ks File = Some remote.
Proof.
  intros cut st remote Hc ks. apply accepts_complete. apply (nocomp_history cut Hc). exact I.
Qed.
Theorem C75_reader_sees_complete_chunk_compressed : forall cut dec remote out, cut_ok cut -> dec remote = Some out -> forall ks,
  reader_accepts (attempts cut Local (Some dec) remote empty_cache ks) Target (length out) = true ->
  attempts cut Local (Some dec) remote empty_cache ks Target = Some out.
Proof.
  intros cut dec remote out Hc Hd ks. apply accepts_complete. apply (comp_history cut Hc dec remote out Hd ks). split; [left; reflexivity|exact I].
Qed.

(** * C76.  A request for a chunk that is in the cache fetches nothing. *)
Theorem C76_cached_chunk_not_fetched_partial : forall cut st remote s d, s File = Some d ->
  fetch cut st None remote s = ([], None).
Proof. intros cut st remote s d H. rewrite no_comp. unfold download, exists_. rewrite H. reflexivity. Qed.

(** With compression the first complete request leaves exactly the decompressed chunk... *)
Theorem C76_first_request_compressed : forall cut dec remote out, cut_ok cut -> dec remote = Some out ->
  let s := run empty_cache (fst (fetch cut Local (Some dec) remote empty_cache)) in
  snd (fetch cut Local (Some dec) remote empty_cache) = None /\ s Target = Some out /\ s File = None.
Proof.
  intros cut dec remote out Hc Hd. destruct (comp_complete cut Hc dec remote out empty_cache Hd eq_refl (or_introl eq_refl)) as (H1 & H2 & H3).
  cbv zeta. auto.
Qed.
(** ...but the second one downloads the compressed chunk again and leaves it there. *)
Theorem C76_compressed_chunk_fetched_again : forall cut dec remote out, cut_ok cut -> dec remote = Some out ->
  let s := run empty_cache (fst (fetch cut Local (Some dec) remote empty_cache)) in
  let s' := run s (fst (fetch cut Local (Some dec) remote s)) in
  fst (fetch cut Local (Some dec) remote s) <> [] /\ s' File = Some remote /\ s' Target = Some out.
Proof.
  intros cut dec remote out Hc Hd. cbv zeta. destruct (comp_complete cut Hc dec remote out empty_cache Hd eq_refl (or_introl eq_refl)) as (H1 & H2 & _).
  cbv zeta in *. set (s := run empty_cache (fst (fetch cut Local (Some dec) remote empty_cache))) in *.
  destruct (local_complete cut Hc remote s) as [L1 L2]; [unfold exists_; rewrite H2; reflexivity|]. cbv zeta in *.
  assert (E : fst (fetch cut Local (Some dec) remote s) = download cut Local remote s).
  { unfold fetch, try_decompress, exists_. rewrite L2, H1. cbn [fst]. apply app_nil_r. }
  rewrite E, L1, L2, H1. split; [|auto]. unfold download, exists_. rewrite H2. unfold write_file. discriminate.
Qed.
Theorem C76_compressed_refuted : exists cut dec remote, cut_ok cut /\
  let s := run empty_cache (fst (fetch cut Local (Some dec) remote empty_cache)) in
  s Target <> None /\ fst (fetch cut Local (Some dec) remote s) <> [].
Proof.
  exists (fun l => map (fun x => [x]) l), (fun l => Some (l ++ l)), [1; 2]. split; [exact cut_ok_sing|]. split; vm_compute; discriminate.
Qed.

(** A download interrupted twice, then repeated. *)
Example C37_case : let cut := fun l => map (fun x : nat => [x]) l in
  map (fun ks => attempts cut Local None [7; 8; 9] empty_cache ks File) [[]; [2]; [2; 4]; [2; 4; 100]] = [None; None; None; Some [7; 8; 9]]
  /\ attempts cut Local None [7; 8; 9] empty_cache [3] Tmp = Some [7; 8].
Proof. vm_compute. auto. Qed.
(** Two bytes of three: the reader still waits; three: it opens the chunk. *)
Example C75_case : let cut := fun l => map (fun x : nat => [x]) l in
  map (fun k => reader_accepts (attempts cut Azure None [7; 8; 9] empty_cache [k]) File 3) [0; 1; 2; 3; 4] = [false; false; false; false; true]
  /\ map (fun k => reader_accepts (attempts cut Local (Some (fun l => Some (l ++ l))) [7; 8] empty_cache [k]) Target 4) [8; 9; 10] = [false; false; true].
Proof. vm_compute. auto. Qed.
(** Three requests for a compressed chunk: the first one decompresses and removes the download, the second one downloads again;
    after that nothing is fetched. *)
Example C76_case : let cut := fun l => map (fun x : nat => [x]) l in let dec := fun l : list nat => Some (l ++ l) in
  let next s := run s (fst (fetch cut Local (Some dec) [7; 8] s)) in
  map (fun s => (s File, s Target)) [next empty_cache; next (next empty_cache); next (next (next empty_cache))]
    = [(None, Some [7; 8; 7; 8]); (Some [7; 8], Some [7; 8; 7; 8]); (Some [7; 8], Some [7; 8; 7; 8])] /\
  fst (fetch cut Local (Some dec) [7; 8] (next (next empty_cache))) = [] /\
  fst (fetch cut Local None [7; 8] (attempts cut Local None [7; 8] empty_cache [100])) = [].
Proof. vm_compute. auto. Qed.

Print Assumptions C37_local_download_atomic_partial.
Print Assumptions C37_azure_refuted.
Print Assumptions C37_decompress_refuted.
Print Assumptions C75_reader_sees_complete_chunk.
Print Assumptions C75_reader_sees_complete_chunk_compressed.
Print Assumptions C76_cached_chunk_not_fetched_partial.
Print Assumptions C76_first_request_compressed.
Print Assumptions C76_compressed_chunk_fetched_again.
Print Assumptions C76_compressed_refuted.
