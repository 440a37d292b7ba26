(** Properties C50, C51, C104 and C105: whole datasets, encryption and compression. *)
From Verif Require Import Base Assign_Model Assign_Spec Config_Model Iter_Model Iter_Spec Iter_Properties
  Format_Model Codec_Model Codec_Spec Tree_Model Tree_Spec Sample_Model Sample_Spec Sample_Properties
  Writer_Model Encrypt_Model Encrypt_Spec Dataset_Model Dataset_Spec Encrypt_Proofs Dataset_Proofs Dataset_Proofs2 Dataset_Proofs3 Dataset_Proofs4.
From Coq Require Import NArith.
Local Open Scope nat_scope.

(** C50: samples given to a writer are written, *)
Theorem C50_written isfile pickle unpickle rw rr cb cs compress e ts :
  (forall x, unpickle (pickle x) = Ok x) -> key_ok e -> match e with Some c => e_limit c = None | None => True end ->
  (is_none cb && is_none cs) || (truthy cb && truthy cs) = false -> storable_samples rw rr ts ->
  exists x, write_dataset isfile pickle rw cb cs compress e ts = Ok x.
Proof. intros H. exact (dataset_written isfile pickle unpickle rw rr H cb cs compress e ts). Qed.
Print Assumptions C50_written.

(** read back by index, in any order and any number of times.  Partial, as all that follows on reading:
    chunks of 4 GiB and more are not covered (they are read wrongly, C19), *)
Theorem C50_random_access_partial isfile pickle unpickle rw rr cb cs compress decompress e ts x :
  (forall x, unpickle (pickle x) = Ok x) -> key_ok e -> codec_ok compress decompress -> storable_samples rw rr ts ->
  write_dataset isfile pickle rw cb cs compress e ts = Ok x -> small_chunks x ->
  exists o, open_dataset rr decompress x = Ok o /\
    (forall is, Forall (fun i => i < length ts) is ->
       exists r st, get_items unpickle o e new_loader (map Z.of_nat is) = Ok (r, st) /\ at_positions ts is r) /\
    (forall st i, (i < 0 \/ Z.of_nat (length ts) <= i)%Z -> get_item unpickle o e st i = Err ValueError).
Proof. intros H. exact (dataset_random_access isfile pickle unpickle rw rr H cb cs compress decompress e ts x). Qed.
Print Assumptions C50_random_access_partial.

(** and streamed: every sample is yielded once by one of the workers of one of the ranks, and without
    shuffling the workers together yield the samples in the order in which they were given. *)
Theorem C50_epoch_partial isfile pickle unpickle rw rr cb cs compress decompress e ts x rng shuffle W seed nw B epoch :
  (forall x, unpickle (pickle x) = Ok x) -> key_ok e -> codec_ok compress decompress -> storable_samples rw rr ts ->
  write_dataset isfile pickle rw cb cs compress e ts = Ok x -> small_chunks x ->
  rng_ok rng -> 1 <= W -> 1 <= nw -> 1 <= B ->
  exists o a parts, open_dataset rr decompress x = Ok o /\
    (forall r, shuffle_assign rng shuffle (Env W r 1) seed false nw B epoch (o_ivs o) = Ok a) /\
    length parts = W * nw /\
    (forall r i, r < W -> i < nw ->
       exists part reqs s0 s', nth_error parts (r * nw + i) = Some part /\
         iter_fresh (Env W r 1) nw i epoch a = Ok s0 /\ Run (shuffle_call rng shuffle seed) s0 reqs s' /\
         yielded unpickle o e reqs = Ok part) /\
    Permutation (concat parts) ts /\ (shuffle = false -> concat parts = ts).
Proof. intros H. exact (dataset_epoch isfile pickle unpickle rw rr H cb cs compress decompress e ts x rng shuffle W seed nw B epoch). Qed.
Print Assumptions C50_epoch_partial.

(** A cipher that puts the number of the message in front, and a compressor that puts a 9 in front. *)
Definition toy (lv : level) (limit : option nat) : cipher :=
  Cipher 5 lv limit (fun n d => (N.of_nat n) :: d) (fun b => match b with [] => Err ValueError | _ :: d => Ok d end).
Definition toy_zip (d : bytes) : bytes := 9%N :: d.
Definition toy_unzip (b : bytes) : res bytes := match b with [] => Err ValueError | _ :: d => Ok d end.
Definition nobody (n : nat) : bool := false.
Definition five : list (tree leaf) :=
  [sample 1 [120]%N; sample (-7) []; sample 3 [8364]%N; sample 4 [65; 66]%N; sample 5 [67]%N].
Definition via (compress : bytes -> bytes) (decompress : bytes -> res bytes) (e key : option cipher) (is : list Z) : res (list (tree leaf)) :=
  bind (write_dataset no_file no_pickle nobody None (Some 2) compress e five) (fun x =>
  bind (open_dataset nobody decompress x) (fun o =>
  bind (get_items no_unpickle o key new_loader is) (fun r => Ok (fst r)))).
Definition plain (d : bytes) : bytes := d.
Definition unplain (d : bytes) : res bytes := Ok d.

Local Ltac good :=
  unfold good_values; cbn [leaves flat_map app];
  repeat (apply Forall_cons || apply Forall_nil || split); cbn -[N.pow Z.pow];
  try exact I; try discriminate; try lia; try reflexivity; try (unfold surrogate; lia).
Lemma five_storable : storable_samples nobody nobody five.
Proof.
  unfold storable_samples, five. split; [cbn; repeat constructor; cbn; intuition discriminate|].
  split; [cbn; repeat constructor|]. split; [discriminate|]. split; [good|].
  apply Forall_forall. intros t Ht. cbn [In] in Ht.
  destruct Ht as [<-|[<-|[<-|[<-|[]]]]]; (split; [repeat constructor|good]).
Qed.
Lemma small_sizes x : forallb (fun n => (N.of_nat n <? two32)%N) (map snd (x_chunks x)) = true -> small_chunks x.
Proof.
  unfold small_chunks. intros H. apply Forall_forall. intros c Hc. rewrite forallb_forall in H.
  apply N.ltb_lt, H, in_map, Hc.
Qed.
Example C50_case :
  storable_samples nobody nobody five /\
  match write_dataset no_file no_pickle nobody None (Some 2) plain None five with
  | Ok x => map snd (x_chunks x) = [49; 53; 29] /\ small_chunks x
  | Err _ => False
  end /\
  via plain unplain None None [0; 1; 2; 3; 4]%Z = Ok five /\
  via plain unplain None None [4; 0; 4]%Z = Ok [sample 5 [67]%N; sample 1 [120]%N; sample 5 [67]%N] /\
  via plain unplain None None [5]%Z = Err ValueError.
Proof.
  split; [exact five_storable|].
  split.
  { destruct (write_dataset no_file no_pickle nobody None (Some 2) plain None five) as [x|] eqn:E; [|vm_compute in E; discriminate].
    assert (Hx : map snd (x_chunks x) = [49; 53; 29]) by (vm_compute in E; injection E as <-; reflexivity).
    split; [exact Hx|]. apply small_sizes. rewrite Hx. vm_compute. reflexivity. }
  repeat split; vm_compute; reflexivity.
Qed.

(** C51: with encryption and compression the same is read as without, errors included. *)
Theorem C51_transparent_partial isfile pickle unpickle rw rr cb cs cb' cs' compress decompress e ts x x' :
  (forall x, unpickle (pickle x) = Ok x) -> key_ok e -> codec_ok compress decompress -> storable_samples rw rr ts ->
  write_dataset isfile pickle rw cb cs compress e ts = Ok x -> small_chunks x ->
  write_dataset isfile pickle rw cb' cs' (fun d => d) None ts = Ok x' -> small_chunks x' ->
  exists o o', open_dataset rr decompress x = Ok o /\ open_dataset rr (fun d => Ok d) x' = Ok o' /\
    forall is, bind (get_items unpickle o e new_loader is) (fun r => Ok (fst r)) =
               bind (get_items unpickle o' None new_loader is) (fun r => Ok (fst r)).
Proof.
  intros H Hk Hc Hts Hw Hsm Hw' Hsm'.
  exact (dataset_same isfile pickle unpickle rw rr H cb cs compress decompress e cb' cs' _ _ None ts x x' Hk Hc I
           (fun d => eq_refl) Hts Hw Hsm Hw' Hsm').
Qed.
Print Assumptions C51_transparent_partial.

(** Without the encryption object, or with one of another algorithm or level, nothing is read. *)
Theorem C51_wrong_key isfile pickle unpickle rw rr cb cs compress decompress c ts x o key :
  (forall x, unpickle (pickle x) = Ok x) -> cipher_ok c -> codec_ok compress decompress -> storable_samples rw rr ts ->
  write_dataset isfile pickle rw cb cs compress (Some c) ts = Ok x -> small_chunks x ->
  open_dataset rr decompress x = Ok o ->
  (forall k, key = Some k -> e_alg k <> e_alg c \/ e_level k <> e_level c) ->
  forall i, get_item unpickle o key new_loader i = Err ValueError.
Proof. intros H. exact (dataset_wrong_key isfile pickle unpickle rw rr H cb cs compress decompress c ts x o key). Qed.
Print Assumptions C51_wrong_key.

Lemma toy_ok lv limit : cipher_ok (toy lv limit).
Proof. split; intros n d; cbn; [reflexivity|lia]. Qed.
Example C51_case :
  key_ok (Some (toy Sample_level None)) /\ key_ok (Some (toy Chunk_level None)) /\ codec_ok toy_zip toy_unzip /\
  via toy_zip toy_unzip (Some (toy Sample_level None)) (Some (toy Sample_level None)) [3; 0; 4; 3]%Z =
    Ok [sample 4 [65; 66]%N; sample 1 [120]%N; sample 5 [67]%N; sample 4 [65; 66]%N] /\
  via toy_zip toy_unzip (Some (toy Chunk_level None)) (Some (toy Chunk_level None)) [0; 1; 2; 3; 4]%Z = Ok five /\
  via toy_zip toy_unzip (Some (toy Chunk_level None)) None [0]%Z = Err ValueError /\
  via toy_zip toy_unzip (Some (toy Chunk_level None)) (Some (toy Sample_level None)) [0]%Z = Err ValueError.
Proof. split; [apply toy_ok|]. split; [apply toy_ok|]. split; [intros d; reflexivity|]. repeat split; vm_compute; reflexivity. Qed.

(** RSA: samples of more than 190 bytes cannot be written, at either level. *)
Theorem C51_limit isfile pickle rw rr cb cs compress c n ts bs conf x :
  cipher_ok c -> e_limit c = Some n -> storable_samples rw rr ts -> write_samples isfile pickle rw ts = Ok (bs, conf) ->
  write_dataset isfile pickle rw cb cs compress (Some c) ts = Ok x -> Forall (fun b => length b <= n) bs.
Proof. exact (dataset_fits isfile pickle rw rr cb cs compress c n ts bs conf x). Qed.
Print Assumptions C51_limit.

(** At sample level, samples that fit are written. *)
Theorem C51_within_limit isfile pickle rw rr cb cs compress c n ts bs conf :
  cipher_ok c -> e_level c = Sample_level -> e_limit c = Some n ->
  (is_none cb && is_none cs) || (truthy cb && truthy cs) = false ->
  storable_samples rw rr ts -> write_samples isfile pickle rw ts = Ok (bs, conf) ->
  Forall (fun b => length b <= n) bs -> exists x, write_dataset isfile pickle rw cb cs compress (Some c) ts = Ok x.
Proof. exact (dataset_fit isfile pickle rw rr cb cs compress c n ts bs conf). Qed.
Print Assumptions C51_within_limit.

Example C51_limit_case :
  match write_samples no_file no_pickle nobody five with Ok (bs, _) => map (@length _) bs = [17; 16; 19; 18; 17] | Err _ => False end /\
  (exists x, write_dataset no_file no_pickle nobody None (Some 2) plain (Some (toy Sample_level (Some 19))) five = Ok x) /\
  write_dataset no_file no_pickle nobody None (Some 2) plain (Some (toy Sample_level (Some 18))) five = Err ValueError /\
  write_dataset no_file no_pickle nobody None (Some 2) plain (Some (toy Chunk_level (Some 52))) five = Err ValueError.
Proof.
  split; [vm_compute; reflexivity|]. split; [|split; vm_compute; reflexivity].
  destruct (write_dataset no_file no_pickle nobody None (Some 2) plain (Some (toy Sample_level (Some 19))) five) as [x|] eqn:E; [eauto|].
  vm_compute in E. discriminate.
Qed.

Definition long_string : tree leaf := Leaf (LStr (repeat 97%N 200)).
Theorem C51_rsa_refuted : exists ts bs conf,
  storable_samples nobody nobody ts /\ write_samples no_file no_pickle nobody ts = Ok (bs, conf) /\
  forall key seal open (r : rsa key) cb cs compress,
    cipher_ok (rsa_cipher key seal open r) ->
    forall x, write_dataset no_file no_pickle nobody cb cs compress (Some (rsa_cipher key seal open r)) ts <> Ok x.
Proof.
  assert (Hs : storable_samples nobody nobody [long_string]).
  { repeat split; try discriminate; repeat constructor; cbn; try lia; try discriminate; try (intros []; lia). }
  destruct (write_samples no_file no_pickle nobody [long_string]) as [[bs conf]|er] eqn:E; [|vm_compute in E; discriminate].
  exists [long_string], bs, conf. split; [exact Hs|]. split; [exact E|].
  intros key seal open r cb cs compress Hk x H.
  pose proof (C51_limit _ _ _ _ _ _ _ _ rsa_limit _ _ _ _ Hk eq_refl Hs E H) as HF.
  vm_compute in E. injection E as <- _. inversion HF as [|? ? H1 _]; subst. apply Nat.leb_le in H1. vm_compute in H1. discriminate.
Qed.
Print Assumptions C51_rsa_refuted.

(** Blocks of tokens: the reader does not give the key to this loader, and the block is cut out
    of the encrypted chunk without an error. *)
Theorem C51_tokens_refuted : exists c tokens block wrong,
  cipher_ok c /\ e_level c = Chunk_level /\
  load_tokens None (fun _ => Some (chunk_data [tokens])) 0 0 0 (length (chunk_data [tokens])) 1 1 2 = Ok block /\
  load_tokens (Some c) (fun _ => Some (e_seal c 0 (chunk_data [tokens]))) 0 0 0 (length (e_seal c 0 (chunk_data [tokens]))) 1 1 2 = Ok wrong /\
  block = [1; 2]%N /\ wrong <> block.
Proof.
  exists (toy Chunk_level None), [1; 2; 3; 4]%N, [1; 2]%N, [0; 1]%N. split; [apply toy_ok|].
  repeat split; try (vm_compute; reflexivity). discriminate.
Qed.
Print Assumptions C51_tokens_refuted.

(** C104: what can be read by index after a worker has streamed the whole dataset: everything if the
    chunks are local and not compressed; otherwise, without encryption, not the samples of the chunk
    that was read last. *)
Theorem C104_after_pass_partial isfile pickle unpickle rw rr cb cs compress decompress e ts x rng shuffle seed B epoch :
  (forall x, unpickle (pickle x) = Ok x) -> key_ok e -> codec_ok compress decompress -> storable_samples rw rr ts ->
  write_dataset isfile pickle rw cb cs compress e ts = Ok x -> small_chunks x -> rng_ok rng -> 1 <= B ->
  exists o a s0 reqs s' r st c0,
    open_dataset rr decompress x = Ok o /\
    shuffle_assign rng shuffle (Env 1 0 1) seed false 1 B epoch (o_ivs o) = Ok a /\
    iter_fresh (Env 1 0 1) 1 0 epoch a = Ok s0 /\ Run (shuffle_call rng shuffle seed) s0 reqs s' /\
    read_list unpickle o e new_loader (map (fun q => (rq_chunk q, rq_index q)) reqs) = Ok (r, st) /\
    Permutation r ts /\ option_map rq_chunk (nth_error reqs (length reqs - 1)) = Some c0 /\
    forall i, i < length ts -> exists c, get_chunk_index (o_ivs o) (Z.of_nat i) = Ok (i, c) /\
      (forall t, nth_error ts i = Some t -> exists st', get_item unpickle o e (after_pass false st) (Z.of_nat i) = Ok (t, st')) /\
      (e = None /\ c = c0 -> get_item unpickle o e (after_pass true st) (Z.of_nat i) = Err AssertionError) /\
      (e <> None \/ c <> c0 -> forall t, nth_error ts i = Some t ->
         exists st', get_item unpickle o e (after_pass true st) (Z.of_nat i) = Ok (t, st')).
Proof. intros H. exact (dataset_after_pass isfile pickle unpickle rw rr H cb cs compress decompress e ts x rng shuffle seed B epoch). Qed.
Print Assumptions C104_after_pass_partial.

Definition then_item (remote : bool) (i : Z) : res (tree leaf) :=
  bind (write_dataset no_file no_pickle nobody None (Some 2) toy_zip None five) (fun x =>
  bind (open_dataset nobody toy_unzip x) (fun o =>
  bind (get_items no_unpickle o None new_loader [0; 1; 2; 3; 4]%Z) (fun r =>
  bind (get_item no_unpickle o None (after_pass remote (snd r)) i) (fun q => Ok (fst q))))).
Theorem C104_refuted : exists ts x o st,
  write_dataset no_file no_pickle nobody None (Some 2) toy_zip None ts = Ok x /\ open_dataset nobody toy_unzip x = Ok o /\
  get_items no_unpickle o None new_loader [0; 1; 2; 3; 4]%Z = Ok (ts, st) /\
  get_item no_unpickle o None (after_pass true st) 4 = Err AssertionError.
Proof.
  assert (H : match write_dataset no_file no_pickle nobody None (Some 2) toy_zip None five with
              | Ok x => match open_dataset nobody toy_unzip x with
                        | Ok o => match get_items no_unpickle o None new_loader [0; 1; 2; 3; 4]%Z with
                                  | Ok (r, st) => (r, get_item no_unpickle o None (after_pass true st) 4) = (five, Err AssertionError)
                                  | Err _ => False
                                  end
                        | Err _ => False
                        end
              | Err _ => False
              end) by (vm_compute; reflexivity).
  destruct (write_dataset no_file no_pickle nobody None (Some 2) toy_zip None five) as [x|] eqn:Ex; [|destruct H].
  destruct (open_dataset nobody toy_unzip x) as [o|] eqn:Eo; [|destruct H].
  destruct (get_items no_unpickle o None new_loader [0; 1; 2; 3; 4]%Z) as [[r st]|] eqn:Er; [|destruct H].
  injection H as -> H. exists five, x, o, st. auto.
Qed.
Print Assumptions C104_refuted.

Example C104_case :
  then_item false 4 = Ok (sample 5 [67]%N) /\ then_item true 4 = Err AssertionError /\ then_item true 3 = Ok (sample 4 [65; 66]%N).
Proof. repeat split; vm_compute; reflexivity. Qed.

(** C105: an encryption object that is saved and loaded with its password decrypts what the
    original encrypted, and the other way round. *)
Theorem C105_fernet_partial key derive seal open password lv salt :
  (forall k n d, open k (seal k n d) = Ok d) ->
  let f := fernet_new key derive password lv salt in
  (exists g, fernet_load key derive (fernet_save key f) password = Ok g /\
     (forall n d, e_decrypt (fernet_cipher key seal open g) (e_seal (fernet_cipher key seal open f) n d) = Ok d) /\
     (forall n d, e_decrypt (fernet_cipher key seal open f) (e_seal (fernet_cipher key seal open g) n d) = Ok d) /\
     enc_state (fernet_cipher key seal open g) = enc_state (fernet_cipher key seal open f)) /\
  (forall other g, fernet_load key derive (fernet_save key f) other = Ok g ->
     (forall k k' n d, k <> k' -> exists er, open k' (seal k n d) = Err er) -> derive other salt <> derive password salt ->
     forall n d, exists er, e_decrypt (fernet_cipher key seal open g) (e_seal (fernet_cipher key seal open f) n d) = Err er).
Proof.
  intros Hk f. split.
  - exists f. repeat split; intros; apply Hk.
  - intros other g Hg Hwrong Hd n d. cbn in Hg. injection Hg as <-. cbn. apply Hwrong. congruence.
Qed.
Print Assumptions C105_fernet_partial.
Theorem C105_rsa_partial key seal open pem unpem (r : rsa key) :
  (forall k n d, open k (seal k n d) = Ok d) -> (forall p k, unpem p (pem p k) = Ok k) ->
  exists g, rsa_load key unpem (rsa_save key pem r) (rs_password key r) = Ok g /\
     (forall n d, e_decrypt (rsa_cipher key seal open g) (e_seal (rsa_cipher key seal open r) n d) = Ok d) /\
     (forall n d, e_decrypt (rsa_cipher key seal open r) (e_seal (rsa_cipher key seal open g) n d) = Ok d) /\
     enc_state (rsa_cipher key seal open g) = enc_state (rsa_cipher key seal open r).
Proof.
  intros Hk Hp. exists r. destruct r as [p lv k]. cbn. rewrite Hp. repeat split; intros; apply Hk.
Qed.
Print Assumptions C105_rsa_partial.

(** The file of an object of the other kind raises KeyError, whatever the password. *)
Theorem C105_other_kind key derive pem unpem (f : fernet key) (r : rsa key) password :
  rsa_load key unpem (fernet_save key f) password = Err KeyError /\
  fernet_load key derive (rsa_save key pem r) password = Err KeyError.
Proof. split; reflexivity. Qed.
Print Assumptions C105_other_kind.

(** The file of an RSA object contains the password; it is opened with any other. *)
Theorem C105_rsa_password_refuted :
  exists (r : rsa nat) (pem : list N -> nat -> bytes) (unpem : list N -> bytes -> res nat) wrong,
    (forall p k, unpem p (pem p k) = Ok k) /\ (forall p q k, p <> q -> unpem q (pem p k) = Err ValueError) /\
    wrong <> rs_password nat r /\
    rsa_load nat unpem (rsa_save nat pem r) wrong = Ok r.
Proof.
  set (unpem := fun (q : list N) (b : bytes) =>
         match b with k :: p => if list_eq_dec N.eq_dec p q then Ok (N.to_nat k) else Err ValueError | [] => @Err nat ValueError end).
  exists (Rsa nat [115]%N Chunk_level 3), (fun p k => N.of_nat k :: p), unpem, [120]%N.
  split. { intros p k. cbn. destruct (list_eq_dec N.eq_dec p p); [|contradiction]. rewrite Nat2N.id. reflexivity. }
  split. { intros p q k H. cbn. destruct (list_eq_dec N.eq_dec p q); [contradiction|reflexivity]. }
  split; [discriminate|reflexivity].
Qed.
Print Assumptions C105_rsa_password_refuted.

Example C105_case :
  let derive (p s : list N) := p ++ s in
  fernet_load (list N) derive (fernet_save (list N) (fernet_new (list N) derive [112]%N Chunk_level [1; 2]%N)) [112]%N =
    Ok (Fernet (list N) Chunk_level [1; 2]%N [112; 1; 2]%N) /\
  fernet_load (list N) derive (fernet_save (list N) (fernet_new (list N) derive [112]%N Chunk_level [1; 2]%N)) [113]%N =
    Ok (Fernet (list N) Chunk_level [1; 2]%N [113; 1; 2]%N).
Proof. split; reflexivity. Qed.
