(** C187: the keys of RSA objects in files and in pickles. *)
From Verif Require Import Base Format_Model Encrypt_Model Keys_Model Keys_Spec.

Section Keys.
Context {priv pub : Type} (L : library priv pub) (W : works L).

Lemma given_text p k : load_private L (given p) (private_pem L (given p) k) = Ok k.
Proof. destruct p as [|x p]; [apply (w_plain L W)|]. apply (w_password L W). discriminate. Qed.
Lemma load_opt_text {A} (f : bytes -> res A) b a : b <> [] -> f b = Ok a -> load_opt f (Some b) = Ok (Some a).
Proof. intros Hb E. destruct b; [congruence|]. cbn [load_opt]. rewrite E. reflexivity. Qed.
End Keys.

(** C187: with a password that is not empty, the files written by [save_keys] are read by [load_keys] of any
    other object with that password: from then on both decrypt what the other (and they themselves)
    encrypt, and the other object keeps its own password and level. *)
Theorem C187_key_files_partial {priv pub} (L : library priv pub) password lv generated (other : rsa_object priv pub) :
  works L -> password <> [] ->
  let o := rsa_new L password lv generated in
  exists private_file public_file other',
    save_keys L o = Ok (private_file, public_file) /\
    load_keys L other (Some private_file) (Some public_file) password = (other', Ok tt) /\
    understand L o other' /\ understand L other' o /\ understand L other' other' /\
    k_password other' = k_password other /\ k_level other' = k_level other.
Proof.
  intros W Hp o. exists (private_pem L (given password) generated), (public_pem L (public_key L generated)). eexists.
  split; [|split; [|split; [|split; [|split; [|split]]]]].
  - unfold save_keys, getstate. cbn [o rsa_new k_private k_public k_password option_map t_private t_public].
    pose proof (w_text L W (given password) generated). pose proof (w_public_text L W (public_key L generated)).
    destruct (private_pem L _ _) eqn:E1; [congruence|]. destruct (public_pem L _) eqn:E2; [congruence|]. reflexivity.
  - unfold load_keys. cbn [read_file].
    assert (G : given password = Some password) by (destruct password; [congruence|reflexivity]).
    rewrite G, (w_password L W) by exact Hp. rewrite (w_public L W). reflexivity.
  - intros n d c. unfold rsa_encrypt, rsa_decrypt. cbn [o rsa_new k_private k_public]. destruct (rsa_limit <? length d); [discriminate|].
    intros E. injection E as <-. apply (w_open L W).
  - intros n d c. unfold rsa_encrypt, rsa_decrypt. cbn [o rsa_new k_private k_public]. destruct (rsa_limit <? length d); [discriminate|].
    intros E. injection E as <-. apply (w_open L W).
  - intros n d c. unfold rsa_encrypt, rsa_decrypt. cbn [o rsa_new k_private k_public]. destruct (rsa_limit <? length d); [discriminate|].
    intros E. injection E as <-. apply (w_open L W).
  - reflexivity.
  - reflexivity.
Qed.
Print Assumptions C187_key_files_partial.

(** C187: a wrong password or a missing private file raises and leaves the object as it was. *)
Theorem C187_wrong_password {priv pub} (L : library priv pub) password lv generated (other : rsa_object priv pub) wrong public_file :
  works L -> password <> [] -> wrong <> password ->
  (forall a b, save_keys L (rsa_new L password lv generated) = Ok (a, b) ->
     load_keys L other (Some a) public_file wrong = (other, Err ValueError)) /\
  load_keys L other None public_file wrong = (other, Err FileNotFoundError).
Proof.
  intros W Hp Hw. split; [|reflexivity]. intros a b E. unfold save_keys, getstate in E.
  cbn [rsa_new k_private k_public k_password option_map t_private t_public] in E.
  destruct (_ || _); [discriminate|]. injection E as <- <-. unfold load_keys. cbn [read_file].
  assert (G : given password = Some password) by (destruct password; [congruence|reflexivity]).
  rewrite G, (w_wrong L W) by congruence. reflexivity.
Qed.
Print Assumptions C187_wrong_password.

(** C187: what goes through a pickle (to the workers of a dataloader) is the same object, whatever keys it
    has, with and without a password. *)
Theorem C187_pickled {priv pub} (L : library priv pub) (o : rsa_object priv pub) : works L -> setstate L (getstate L o) = Ok o.
Proof.
  intros W. destruct o as [pw lv k p]. unfold setstate, getstate. cbn [k_password k_level k_private k_public t_private t_public t_password t_level].
  assert (E1 : load_opt (load_private L (given pw)) (option_map (private_pem L (given pw)) k) = Ok k).
  { destruct k as [k|]; [|reflexivity]. apply load_opt_text; [apply (w_text L W)|apply (given_text L W)]. }
  assert (E2 : load_opt (load_public L) (option_map (public_pem L) p) = Ok p).
  { destruct p as [p|]; [|reflexivity]. apply load_opt_text; [apply (w_public_text L W)|apply (w_public L W)]. }
  rewrite E1. cbn [bind]. rewrite E2. reflexivity.
Qed.
Print Assumptions C187_pickled.

(** A package that works: keys are numbers, a message is sealed by putting the public key and the number of
    the call in front, the text of a private key begins with whether there is a password. *)
Definition toy : library N N := {|
  public_key := fun k => (k + 1)%N;
  seal := fun p n d => p :: N.of_nat n :: d;
  open := fun k b => match b with p :: _ :: d => if (p =? k + 1)%N then Ok d else Err ValueError | _ => Err ValueError end;
  private_pem := fun p k => match p with None => [0; k]%N | Some p => 1%N :: k :: p end;
  load_private := fun p b =>
    match p, b with
    | None, [0; k]%N => Ok k
    | Some q, 1%N :: k :: p => if list_eq_dec N.eq_dec p q then Ok k else Err ValueError
    | Some _, 0%N :: _ => Err TypeError
    | _, _ => Err ValueError
    end;
  public_pem := fun p => [2; p]%N;
  load_public := fun b => match b with [2; p]%N => Ok p | _ => Err ValueError end
|}.
Lemma toy_works : works toy.
Proof.
  constructor; cbn.
  - intros k n d. rewrite N.eqb_refl. reflexivity.
  - reflexivity.
  - intros p k _. destruct (list_eq_dec N.eq_dec p p); [reflexivity|contradiction].
  - reflexivity.
  - intros p q k _ H. destruct (list_eq_dec N.eq_dec p q); [contradiction|reflexivity].
  - reflexivity.
  - intros [p|] k; discriminate.
  - discriminate.
Qed.

Example C187_case :
  let o := rsa_new toy [115; 101]%N Chunk_level 7%N in
  save_keys toy o = Ok ([1; 7; 115; 101], [2; 8])%N /\
  load_keys toy (rsa_new toy []%N Sample_level 40%N) (Some [1; 7; 115; 101]%N) (Some [2; 8]%N) [115; 101]%N =
    (RsaObject [] Sample_level (Some 7%N) (Some 8%N), Ok tt) /\
  rsa_encrypt toy o 3 [1; 2]%N = Ok [8; 3; 1; 2]%N /\ rsa_decrypt toy o [8; 3; 1; 2]%N = Ok [1; 2]%N.
Proof. repeat (apply conj; [vm_compute; reflexivity|]). vm_compute; reflexivity. Qed.

(** C187 is false with an empty password: the private key is written without encryption, but read with a
    password (the empty one), which the package refuses. *)
Theorem C187_key_files_refuted : works toy /\ exists lv generated other,
  let o := rsa_new toy [] lv generated in
  exists private_file public_file, save_keys toy o = Ok (private_file, public_file) /\
    load_keys toy other (Some private_file) (Some public_file) [] = (other, Err TypeError).
Proof.
  split; [exact toy_works|]. exists Sample_level, 7%N, (rsa_new toy [] Sample_level 40%N). do 2 eexists. split; vm_compute; reflexivity.
Qed.
Print Assumptions C187_key_files_refuted.

(** It is so with every package that works. *)
Theorem C187_empty_password {priv pub} (L : library priv pub) lv generated (other : rsa_object priv pub) a b public_file :
  works L -> save_keys L (rsa_new L [] lv generated) = Ok (a, b) -> load_keys L other (Some a) public_file [] = (other, Err TypeError).
Proof.
  intros W E. unfold save_keys, getstate in E.
  cbn [rsa_new k_private k_public k_password option_map t_private t_public given] in E.
  destruct (_ || _); [discriminate|]. injection E as <- <-. unfold load_keys. cbn [read_file].
  rewrite (w_unprotected L W). reflexivity.
Qed.
Print Assumptions C187_empty_password.

(** A call of [load_keys] that raises may leave the object with the private key of one pair and the public key of
    another: when only the public file is missing.  It then does not decrypt what it encrypts. *)
Theorem C187_failed_load_refuted : works toy /\ exists o a b o',
  save_keys toy (rsa_new toy [115]%N Sample_level 7%N) = Ok (a, b) /\
  load_keys toy o (Some a) None [115]%N = (o', Err FileNotFoundError) /\
  understand toy o o /\ exists n d c, rsa_encrypt toy o' n d = Ok c /\ rsa_decrypt toy o' c = Err ValueError.
Proof.
  split; [exact toy_works|]. exists (rsa_new toy [115]%N Sample_level 40%N). do 3 eexists.
  split; [vm_compute; reflexivity|]. split; [vm_compute; reflexivity|]. split.
  - intros n d c. unfold rsa_encrypt, rsa_decrypt. cbn [rsa_new k_private k_public]. destruct (rsa_limit <? length d); [discriminate|].
    intros E. injection E as <-. apply (w_open toy toy_works).
  - exists 0, [5]%N. eexists. split; vm_compute; reflexivity.
Qed.
Print Assumptions C187_failed_load_refuted.

(** Without the one or the other key: [encrypt] and [decrypt] raise and no files are written. *)
Theorem C187_missing_keys {priv pub} (L : library priv pub) password lv (k : option priv) (p : option pub) :
  let o := RsaObject password lv k p in
  (p = None -> (forall n d, rsa_encrypt L o n d = Err GenericException) /\ save_keys L o = Err GenericException) /\
  (k = None -> (forall d, rsa_decrypt L o d = Err GenericException) /\ save_keys L o = Err GenericException).
Proof.
  cbn. split; intros ->; (split; [reflexivity|]); unfold save_keys, getstate; cbn; [|reflexivity].
  destruct k as [k|]; cbn; [|reflexivity]. rewrite orb_true_r. reflexivity.
Qed.
Print Assumptions C187_missing_keys.
