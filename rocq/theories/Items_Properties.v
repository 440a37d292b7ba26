(** C168-C171: the item loaders over their life. *)
From Verif Require Import Base Format_Model Loader_Model Loader_Spec Encrypt_Model Items_Model Items_Spec.
From Verif Require Import Items_Proofs Items_Proofs2 Items_Proofs3.

(** C168: after any orderly history every call returns what it has to: a row of a chunk whose file is there is read,
    one whose file is not (completely) there is waited for, nothing raises.
    Part: row groups of one size in low-memory mode (C39); after the first row of a chunk was asked for its file arrives complete. *)
Theorem C168_rows_partial (row : Type) d (whole : nat -> list (list row)) size low pre os o :
  (low = true -> forall c, uniform (whole c)) ->
  orderly d whole size (pre && negb low) [] (os ++ [o]) ->
  right_answer whole os o
    (snd (q_step low pre (fun p => size (snd p)) o (fst (q_run low pre (fun p => size (snd p)) os (q_init (fun _ => None)))))).
Proof. intros HU. exact (parquet_history d whole size low pre HU os o). Qed.
Print Assumptions C168_rows_partial.

Definition ex_rows (c : nat) : list (list nat) := if c =? 0 then [[10; 11]; [12; 13]; [14]] else [[20; 21]; [22]].
Definition ex_size (c : nat) : nat := 100 + c.
Definition ex_history : list (qop nat) :=
  [QSetup 7; QArrive (7, 0) (PF 3 None); QLoad (7, 0) 4; QArrive (7, 0) (complete ex_rows ex_size 0); QLoad (7, 0) 4; QLoad (7, 0) 2; QPre (7, 1);
   QArrive (7, 1) (complete ex_rows ex_size 1); QLoad (7, 1) 2; QClose 0; QDelete (7, 0); QLoad (7, 0) 3; QArrive (7, 0) (complete ex_rows ex_size 0)].
Example C168_case :
  (forall c, uniform (ex_rows c)) /\ orderly 7 ex_rows ex_size false [] (ex_history ++ [QLoad (7, 0) 3]) /\
  is_there 0 ex_history = true /\
  snd (q_run true true (fun p => ex_size (snd p)) (ex_history ++ [QLoad (7, 0) 3]) (q_init (fun _ => None))) =
  [QDone; QDone; QWaits; QDone; QRow 14; QRow 12; QDone; QDone; QRow 22; QDone; QDone; QWaits; QDone; QRow 13].
Proof.
  split.
  { intros c. unfold ex_rows. destruct (c =? 0); [exists 2, [[10; 11]; [12; 13]], [14]|exists 2, [[20; 21]], [22]]; cbn; repeat split; auto. }
  split; [|split; vm_compute; reflexivity].
  cbn. unfold a_part. cbn. repeat (apply conj; [reflexivity || lia || (left; reflexivity) || (right; intuition lia)|]); exact I.
Qed.

(** A chunk that was read, deleted and is being fetched again: the loader remembers its path and does not look at the
    size of the file. *)
Theorem C168_fetched_again_refuted :
  exists (whole : nat -> list (list nat)) size os f, (forall c, uniform (whole c)) /\
    orderly 0 whole size false [] os /\ a_part size 0 f /\
    snd (q_run true false (fun p => size (snd p)) (os ++ [QArrive (0, 0) f; QLoad (0, 0) 0]) (q_init (fun _ => None))) =
    [QDone; QRow 10; QDone; QDone; QRaised GenericException].
Proof.
  exists ex_rows, ex_size, [QArrive (0, 0) (complete ex_rows ex_size 0); QLoad (0, 0) 0; QDelete (0, 0)], (PF 3 None).
  split; [apply C168_case|]. split.
  { cbn. repeat (apply conj; [reflexivity || lia || (left; reflexivity)|]); exact I. }
  split; [split; cbn; auto; lia|]. vm_compute. reflexivity.
Qed.
Print Assumptions C168_fetched_again_refuted.

(** Loading ahead looks only whether there is a file. *)
Theorem C168_ahead_refuted :
  exists (f : pfile nat) size, a_part size 0 f /\
    snd (q_run false true (fun p => size (snd p)) [QArrive (0, 0) f; QPre (0, 0)] (q_init (fun _ => None))) = [QDone; QRaised GenericException].
Proof. exists (PF 3 None), ex_size. split; [split; cbn; auto; lia|]. vm_compute. reflexivity. Qed.
Print Assumptions C168_ahead_refuted.

(** C169 where it holds: a PyTreeLoader given to datasets without encryption whose samples have the same number
    of fields (the same "data_format") reads for each dataset its own samples, in any order. *)
Theorem C169_pytree_partial num d filesize fields n os :
  (forall p, d (num p) = Some (stored (fields p))) -> (forall p, filesize p <= length (stored (fields p))) ->
  (forall p, (blen (stored (fields p)) < two32)%N) -> (forall p, Forall (fun fs => length fs = n) (fields p)) ->
  Forall (alike n fields) os ->
  Forall2 (own_sample fields) os (snd (y_run num None d filesize os (Yst (Yc None n) new_loader))).
Proof. intros H1 H2 H3 H4. exact (shared_pytree num d filesize fields n H1 H2 H3 H4 os). Qed.
Print Assumptions C169_pytree_partial.

Definition ex_num (p : path) : nat := 2 * snd p + Nat.b2n (negb (fst p =? 0)).
Definition ex_fields (p : path) : list (list bytes) :=
  if fst p =? 0 then [[[1%N]; [2%N; 3%N]]; [[4%N]; []]] else [[[5%N; 6%N]; [7%N]]].
Definition ex_disk : disk := fun k => Some (stored (ex_fields (if Nat.even k then 0 else 1, 0))).
Example C169_case :
  (forall p, ex_disk (ex_num p) = Some (stored (ex_fields p))) /\ (forall p, (blen (stored (ex_fields p)) < two32)%N) /\
  (forall p, Forall (fun fs => length fs = 2) (ex_fields p)) /\
  Forall (alike 2 ex_fields) [YLoad (0, 0) 1; YSetup (Yc None 2); YLoad (1, 0) 0; YLoad (0, 0) 0] /\
  snd (y_run ex_num None ex_disk (fun _ => 5) [YLoad (0, 0) 1; YSetup (Yc None 2); YLoad (1, 0) 0; YLoad (0, 0) 0] (Yst (Yc None 2) new_loader)) =
  [YFields [[4%N]; []]; YDone; YFields [[5%N; 6%N]; [7%N]]; YFields [[1%N]; [2%N; 3%N]]].
Proof.
  split. { intros [a b]. unfold ex_disk, ex_num, ex_fields. cbn [fst snd]. destruct (a =? 0); cbn [negb Nat.b2n]; rewrite Nat.even_add, Nat.even_mul; reflexivity. }
  split. { intros [a b]. unfold ex_fields. cbn [fst]. destruct (a =? 0); vm_compute; reflexivity. }
  split. { intros [a b]. unfold ex_fields. cbn [fst]. destruct (a =? 0); repeat constructor. }
  split; [repeat constructor; vm_compute; lia|]. vm_compute. reflexivity.
Qed.

(** Two datasets with one TokensLoader: the second is given the tokens of the first. *)
Theorem C169_tokens_refuted :
  exists conf f g v, f <> g /\
    snd (k_run 2 (fun _ => 14) [KArrive (0, 0) f; KArrive (1, 0) g; KSetup conf; KSetup conf; KLoad (0, 0) 0 0; KLoad (1, 0) 0 0] (tk_init conf (fun _ => None)))
    = [KDone; KDone; KDone; KDone; KBlock v; KBlock v] /\
    load_block g 1 1 2 0 0 <> load_block f 1 1 2 0 0 /\ f = chunk_data [[1%N; 2%N]] /\ g = chunk_data [[3%N; 4%N]].
Proof.
  exists (Ds [1] 1), (chunk_data [[1%N; 2%N]]), (chunk_data [[3%N; 4%N]]), (Vw 0 0 2).
  split; [vm_compute; discriminate|]. split; [vm_compute; reflexivity|]. split; [vm_compute; discriminate|]. split; reflexivity.
Qed.
Print Assumptions C169_tokens_refuted.

(** Two datasets with one ParquetLoader. *)
Theorem C169_parquet_refuted :
  exists f g : list (list nat), nth_error (concat g) 0 = Some 20 /\
    snd (q_run true false (fun _ => 1) [QArrive (0, 0) (PF 1 (Some f)); QArrive (1, 0) (PF 1 (Some g)); QSetup 0; QSetup 1; QLoad (0, 0) 0; QLoad (1, 0) 0]
           (q_init (fun _ => None))) = [QDone; QDone; QDone; QDone; QRow 10; QRow 10].
Proof. exists [[10]], [[20]]. split; reflexivity. Qed.
Print Assumptions C169_parquet_refuted.

(** Two datasets with one PyTreeLoader and encrypted chunks (here the cipher changes nothing). *)
Theorem C169_encrypted_refuted :
  exists e d fs gs, fs <> gs /\ d 0 = Some (stored [fs]) /\ d 1 = Some (stored [gs]) /\
    snd (y_run (fun p => fst p) (Some e) d (fun _ => 1) [YLoad (0, 0) 0; YLoad (1, 0) 0] (Yst (Yc (Some (enc_state e)) 1) new_loader))
    = [YFields fs; YFields fs].
Proof.
  exists (Cipher 0 Chunk_level None (fun _ x => x) (fun x => Ok x)), (fun k => Some (stored [[[N.of_nat k]]])), [[0%N]], [[1%N]].
  split; [discriminate|]. split; [reflexivity|]. split; [reflexivity|]. vm_compute. reflexivity.
Qed.
Print Assumptions C169_encrypted_refuted.

(** Two datasets with other fields: the first is read with the fields of the second. *)
Theorem C169_fields_refuted :
  exists d fs gs, d 0 = Some (stored [fs]) /\ d 1 = Some (stored [gs]) /\
    snd (y_run (fun p => fst p) None d (fun _ => 1) [YSetup (Yc None (length fs)); YSetup (Yc None (length gs)); YLoad (0, 0) 0] (Yst (Yc None (length fs)) new_loader))
    <> [YDone; YDone; YFields fs].
Proof.
  exists (fun k => Some (stored [if k =? 0 then [[1%N]; [2%N]] else [[3%N]]])), [[1%N]; [2%N]], [[3%N]].
  split; [reflexivity|]. split; [reflexivity|]. vm_compute. discriminate.
Qed.
Print Assumptions C169_fields_refuted.

(** C170, exactly for a dataset in a local directory: the samples are read chunk by chunk; in the end every block that was
    delivered can be read and holds its tokens, unless it was the only one of its chunk and another chunk came after. *)
Theorem C170_blocks_iff_partial d itemsize block items conf runs :
  1 <= itemsize -> 1 <= block -> ds_item conf = itemsize -> NoDup (map fst runs) -> Forall (good_run itemsize block items conf) runs ->
  exists st vs,
    k_read block (fun p => length (chunk_data (items (snd p)))) d None (samples_of runs)
           (tk_init conf (fun p => if fst p =? d then Some (chunk_data (items (snd p))) else None)) = (st, map KBlock vs) /\
    map (look st) vs = still_there items itemsize block runs.
Proof. intros Hi Hb Hc. exact (blocks_in_the_end d itemsize block items conf Hi Hb Hc runs). Qed.
Print Assumptions C170_blocks_iff_partial.

Definition ex_items (c : nat) : list bytes := [[N.of_nat c; 1%N]; [2%N; 3%N]].
Definition ex_conf : dset := Ds [2; 2; 2] 1.
Example C170_case :
  Forall (good_run 1 2 ex_items ex_conf) [(0, [0; 1]); (2, [1]); (1, [0; 0])] /\ NoDup [0; 2; 1] /\
  still_there ex_items 1 2 [(0, [0; 1]); (2, [1]); (1, [0; 0])] =
  [Some [0%N; 1%N]; Some [2%N; 3%N]; None; Some [1%N; 1%N]; Some [1%N; 1%N]].
Proof.
  split; [|split; [|vm_compute; reflexivity]].
  - repeat constructor; cbn; try discriminate; try lia.
  - repeat constructor; cbn; intuition lia.
Qed.

(** The first sample of a batch of two cannot be read any more when the second has been read: chunks of which one
    block is read. *)
Theorem C170_batch_refuted :
  exists conf files v w st, k_read 2 (fun _ => 1) 0 None [(0, 0); (1, 0)] (tk_init conf files) = (st, [KBlock v; KBlock w]) /\
    look st v = None /\ look st w = Some [3%N; 4%N].
Proof.
  exists (Ds [1; 1] 1), (fun p => Some (chunk_data [if snd p =? 0 then [1%N; 2%N] else [3%N; 4%N]])). do 3 eexists.
  split; [vm_compute; reflexivity|]. split; vm_compute; reflexivity.
Qed.
Print Assumptions C170_batch_refuted.

(** The prefetching thread deletes a chunk while blocks of it are in use. *)
Theorem C170_deleted_refuted :
  exists conf f v w st, 
    k_run 2 (fun _ => 1) [KArrive (0, 0) f; KArrive (0, 1) f; KLoad (0, 0) 0 0; KLoad (0, 0) 1 0; KLoad (0, 1) 0 0; KDelete (0, 0)] (tk_init conf (fun _ => None))
    = (st, [KDone; KDone; KBlock v; KBlock w; KBlock (Vw 1 0 2); KDone]) /\ look st v = None /\ look st w = None.
Proof.
  exists (Ds [1; 1] 1), (chunk_data [[1%N; 2%N; 3%N; 4%N]]). do 3 eexists.
  split; [vm_compute; reflexivity|]. split; vm_compute; reflexivity.
Qed.
Print Assumptions C170_deleted_refuted.

(** A chunk that was deleted and fetched again is like a new one, and the chunks beside it are not touched: its counter starts
    again, so that it is closed after as many reads as before. *)
Theorem C170_deleted_and_fetched block cb st p id f :
  k_file st p = Some f -> k_map st (snd p) = Some id ->
  let st' := fst (k_step block cb (KDelete p) st) in
  k_file st' p = None /\ k_map st' (snd p) = None /\ k_count st' (snd p) = 0%Z /\
  (forall q, q <> p -> k_file st' q = k_file st q) /\
  (forall c, c <> snd p -> k_map st' c = k_map st c /\ k_count st' c = k_count st c).
Proof.
  intros Hf Hm. cbn [k_step]. rewrite Hf, Hm. cbn [fst k_file k_map k_count].
  unfold Loader_Model.upd. split; [unfold pupd; destruct p as [a b]; unfold path_eqb; cbn [fst snd]; rewrite !Nat.eqb_refl; reflexivity|]. rewrite Nat.eqb_refl.
  split; [reflexivity|]. split; [reflexivity|]. split.
  - intros q Hq. unfold pupd, path_eqb. destruct p as [a b], q as [a' b']. cbn [fst snd]. destruct (Nat.eqb_spec a' a), (Nat.eqb_spec b' b); cbn; try reflexivity; congruence.
  - intros c Hc. destruct (Nat.eqb_spec c (snd p)); [congruence|]. split; reflexivity.
Qed.
Print Assumptions C170_deleted_and_fetched.

Example C170_fetched_case :
  let f := chunk_data [[1%N; 2%N; 3%N; 4%N]] in
  let os := [KArrive (0, 0) f; KArrive (0, 1) f; KLoad (0, 1) 0 0; KLoad (0, 0) 0 0; KDelete (0, 1); KArrive (0, 1) f; KLoad (0, 1) 1 0] in
  let '(st, outs) := k_run 2 (fun _ => 1) os (tk_init (Ds [1; 1] 1) (fun _ => None)) in
  map (fun o => match o with KBlock v => look st v | _ => None end) outs = [None; None; None; Some [1; 2]; None; None; Some [3; 4]]%N /\
  k_map (fst (k_step 2 (fun _ => 1) (KClose 1) st)) 1 = None /\ k_map st 0 = Some 1.
Proof. vm_compute. repeat split; reflexivity. Qed.

(** C171 where it holds: with the default loader after any use; Parquet datasets that are read with a prefetching thread, after
    loops that ran to their end. *)
Theorem C171_pytree_partial remote us : exists h, copy_dataset (uses us (fresh_dataset PyTrees remote)) = Ok h.
Proof. exact (copy_pytree remote us). Qed.
Print Assumptions C171_pytree_partial.
Theorem C171_parquet_partial low us : Forall whole_loop us ->
  exists h, copy_dataset (uses us (fresh_dataset (Parquet low) true)) = Ok h.
Proof. exact (copy_parquet_after_loops low us). Qed.
Print Assumptions C171_parquet_partial.
(** ... and so after any use at all that ends with a whole loop. *)
Theorem C171_parquet_last_loop_partial low us cs : cs <> [] ->
  exists h, copy_dataset (uses (us ++ [ULoop cs true]) (fresh_dataset (Parquet low) true)) = Ok h.
Proof. exact (copy_parquet_then_loop low us cs). Qed.
Print Assumptions C171_parquet_last_loop_partial.
Example C171_last_loop_case :
  copy_dataset (uses [ULoop [0; 0; 2] false; UGet 5] (fresh_dataset (Parquet true) true)) = Err TypeError /\
  h_held (uses ([ULoop [0; 0; 2] false; UGet 5] ++ [ULoop [2; 1] true]) (fresh_dataset (Parquet true) true)) = [].
Proof. split; vm_compute; reflexivity. Qed.
Example C171_case : Forall whole_loop [ULoop [0; 0; 2; 1; 1] true; UReset; ULoop [1; 0] true] /\
  h_held (uses [ULoop [0; 0; 2; 1; 1] false] (fresh_dataset (Parquet true) true)) = [(1, 2)] /\
  h_held (uses [ULoop [0; 0; 2; 1; 1] true] (fresh_dataset (Parquet true) true)) = [] /\
  h_last (uses [UGet 4; ULoop [0; 3] false] (fresh_dataset PyTrees false)) = Some 3.
Proof. split; [repeat constructor; cbn; discriminate|]. repeat (apply conj; [vm_compute; reflexivity|]). vm_compute. reflexivity. Qed.

(** With a TokensLoader, whatever was done before, the dataset cannot be split after one of its samples was read. *)
Theorem C171_tokens_fails remote us c : copy_dataset (uses (us ++ [UGet c]) (fresh_dataset Tokens remote)) = Err TypeError.
Proof. exact (copy_tokens_after_read remote us c). Qed.
Print Assumptions C171_tokens_fails.
Theorem C171_tokens_refuted : exists us remote, copy_dataset (uses us (fresh_dataset Tokens remote)) = Err TypeError.
Proof. exists [ULoop [0; 0; 1] true], false. vm_compute. reflexivity. Qed.
Print Assumptions C171_tokens_refuted.
(** Local Parquet datasets: after a loop the attribute that is to be taken away is not there. *)
Theorem C171_local_parquet_refuted : exists us low, copy_dataset (uses us (fresh_dataset (Parquet low) false)) = Err GenericException.
Proof. exists [ULoop [0; 0; 1] true], true. vm_compute. reflexivity. Qed.
Print Assumptions C171_local_parquet_refuted.

(** C172: at most one chunk is held. *)
Theorem C172_one_chunk low remote us : length (h_held (uses us (fresh_dataset (Parquet low) remote))) <= 1.
Proof. exact (one_chunk low remote us). Qed.
Print Assumptions C172_one_chunk.
Example C172_case :
  h_held (uses [ULoop [0; 0; 2] false; UGet 5; UReset; ULoop [1; 1; 3; 3] true] (fresh_dataset (Parquet true) false)) = [(3, 2)] /\
  h_held (uses [ULoop [0; 0; 2; 2] false; ULoop [1; 1] false] (fresh_dataset Tokens false)) = [(1, 2); (2, 2); (0, 1)].
Proof. split; vm_compute; reflexivity. Qed.
