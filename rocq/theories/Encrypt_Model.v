(** Model of encryption and of the state of the default item loader.
    Source: src/litdata/utilities/encryption.py, src/litdata/streaming/item_loader.py
    119-335, src/litdata/streaming/writer.py 266-270 and 328-332, src/litdata/streaming/config.py
    137-175, src/litdata/streaming/reader.py 391-403.

    The ciphers themselves (package cryptography) and the compressors are arguments. *)
From Verif Require Import Base Dict Format_Model Codec_Model Tree_Model Writer_Model.

(** encryption.py 18-24: [EncryptionLevel]. *)
Inductive level := Sample_level | Chunk_level.
Definition level_eqb (a b : level) : bool :=
  match a, b with Sample_level, Sample_level | Chunk_level, Chunk_level => true | _, _ => false end.

(** encryption.py 26-53: an encryption object.  The algorithm name is a number.
    [e_seal n] is the encryption of the n-th message (Fernet and RSA are randomized);
    [e_limit] is the longest message it accepts (RSA with OAEP padding has one, Fernet none). *)
Record cipher := Cipher {
  e_alg : nat;
  e_level : level;
  e_limit : option nat;
  e_seal : nat -> bytes -> bytes;
  e_decrypt : bytes -> res bytes
}.

(** encryption.py 94-95 and 158-168: [encrypt]; a message that is too long raises ValueError. *)
Definition too_long (e : cipher) (d : bytes) : bool :=
  match e_limit e with Some n => n <? length d | None => false end.
Definition encrypt (e : cipher) (n : nat) (d : bytes) : res bytes :=
  if too_long e d then Err ValueError else Ok (e_seal e n d).

(** encryption.py 100-104 and 182-186: [state_dict], the entry of the index file (writer.py 155). *)
Definition enc_state (e : cipher) : nat * level := (e_alg e, e_level e).

(** writer.py 328-338: the sample-level part of [add_item]; [n] numbers the samples. *)
Fixpoint seal_samples (e : option cipher) (n : nat) (l : list item) : res (list item) :=
  match l with
  | [] => Ok []
  | x :: l' =>
      bind (match e with
            | Some c => match e_level c with
                        | Sample_level => bind (encrypt c n (it_data x)) (fun d => Ok (Item d (it_dim x)))
                        | Chunk_level => Ok x
                        end
            | None => Ok x
            end) (fun y => bind (seal_samples e (S n) l') (fun ys => Ok (y :: ys)))
  end.

(** writer.py 268-270: the chunk-level part of [_create_chunk]. *)
Definition chunk_seal (e : option cipher) (k : nat) (d : bytes) : bytes :=
  match e with
  | Some c => match e_level c with Chunk_level => e_seal c k d | Sample_level => d end
  | None => d
  end.
Definition chunk_too_long (e : option cipher) (ch : chunk) : bool :=
  match e with
  | Some c => match e_level c with
              | Chunk_level => too_long c (chunk_data (map it_data (ch_items ch)))
              | Sample_level => false
              end
  | None => false
  end.

(** A writer with an encryption object: samples are added with the indexes 0, 1, ...
    and [done] is called.  An exception ends the run, wherever it is raised: the
    chunks that the cipher refuses are therefore looked for at the end. *)
Definition write_items (chunk_bytes chunk_size : option nat) (compress : bytes -> bytes)
           (e : option cipher) (l : list item) : res wstate :=
  let c := WCfg chunk_bytes chunk_size (chunk_seal e) compress in
  bind (seal_samples e 0 l) (fun l =>
  bind (create_writer c 0) (fun s =>
  bind (add_all c s 0 l) (fun s =>
  bind (done c false s) (fun s =>
  if existsb (chunk_too_long e) (w_chunks s) then Err ValueError else Ok s)))).

(** item_loader.py 122-126: the state of [PyTreeLoader]: the path of the chunk that was
    opened last, the open file (its contents) and the decrypted chunks by chunk index. *)
Record pyl := PyL { y_path : option nat; y_handle : option bytes; y_dec : list (nat * bytes) }.
Definition new_loader : pyl := PyL None None [].

(** item_loader.py 299-303: [close]. *)
Definition close_loader (st : pyl) : pyl := PyL (y_path st) None (y_dec st).

(** The chunk files of the cache directory, by number, decompressed (config.py 151-175); [None]:
    there is no such file.  Simplification: one call sees one state of the directory,
    the one in which the loop of lines 186-196 ends; a file that has not arrived by then
    raises FileNotFoundError, as after [_MAX_WAIT_TIME]. *)
Definition disk := nat -> option bytes.

Definition same_path (p : nat) (o : option nat) : bool := match o with Some q => p =? q | None => false end.

(** item_loader.py 181-204: wait for the file and open it. *)
Definition open_chunk (d : disk) (path filesize : nat) (st : pyl) : res pyl :=
  if same_path path (y_path st) then Ok st
  else match d path with
       | Some f => if filesize <=? length f then Ok (PyL (Some path) (Some f) (y_dec st)) else Err FileNotFoundError
       | None => Err FileNotFoundError
       end.

(** item_loader.py 327-334: [_validate_encryption]. *)
Definition validate_encryption (conf : nat * level) (e : option cipher) : res cipher :=
  match e with
  | None => Err ValueError
  | Some c =>
      if negb (e_alg c =? fst conf) then Err ValueError
      else if negb (level_eqb (e_level c) (snd conf)) then Err ValueError
      else Ok c
  end.

(** item_loader.py 223-251: [_load_encrypted_data]. *)
Definition load_encrypted (conf : nat * level) (e : option cipher) (d : disk) (path chunk_index offset : nat) (st : pyl)
  : res (bytes * pyl) :=
  bind (validate_encryption conf e) (fun c =>
  match snd conf with
  | Chunk_level =>
      bind (match dget chunk_index (y_dec st) with
            | Some data => Ok (data, st)
            | None =>
                match d path with
                | None => Err FileNotFoundError
                | Some f => bind (e_decrypt c f) (fun data => Ok (data, PyL (y_path st) (y_handle st) [(chunk_index, data)]))
                end
            end) (fun r => bind (load_data (fst r) offset) (fun b => Ok (b, snd r)))
  | Sample_level =>
      match d path with
      | None => Err FileNotFoundError
      | Some f => bind (load_data f offset) (fun b => bind (e_decrypt c b) (fun b => Ok (b, st)))
      end
  end).

(** item_loader.py 146-211: [load_item_from_chunk] up to the deserialization.  Without
    encryption the open file is read (line 210 fails if there is none). *)
Definition load_bytes (conf : option (nat * level)) (e : option cipher) (d : disk)
           (index chunk_index path begin filesize : nat) (st : pyl) : res (bytes * pyl) :=
  let offset := item_offset index begin in
  bind (open_chunk d path filesize st) (fun st =>
  match conf with
  | Some cf => load_encrypted cf e d path chunk_index offset st
  | None =>
      match y_handle st with
      | None => Err AssertionError
      | Some f => bind (load_data f offset) (fun b => Ok (b, st))
      end
  end).

(** reader.py 396-403: other loaders are not given the encryption object; for
    [TokensLoader] (item_loader.py 484-521) a block is cut out of the file as it is.  The
    bytes of the block are returned, [itemsize] bytes for each token. *)
Definition load_tokens (e : option cipher) (d : disk) (index path begin filesize chunk_size itemsize block : nat)
  : res bytes :=
  match d path with
  | Some f => if filesize <=? length f then load_block f chunk_size itemsize block index begin else Err FileNotFoundError
  | None => Err FileNotFoundError
  end.

(** ** Saving and loading encryption objects *)

Section Keys.
Context (key : Type).
(** [_derive_key] (encryption.py 85-92), the Fernet cipher with a key. *)
Context (derive : list N -> bytes -> key) (fernet_seal : key -> nat -> bytes -> bytes) (fernet_open : key -> bytes -> res bytes).
(** RSA: [seal] uses the public key of a private key; [pem] is the private key
    encrypted with a password, [unpem] reads it. *)
Context (rsa_seal : key -> nat -> bytes -> bytes) (rsa_open : key -> bytes -> res bytes).
Context (pem : list N -> key -> bytes) (unpem : list N -> bytes -> res key).

Definition fernet_alg := 0.
Definition rsa_alg := 1.
(** 2048 bits with OAEP and SHA-256: 256 - 2 * 32 - 2 bytes. *)
Definition rsa_limit := 190.

(** The JSON file written by [save]: Fernet (encryption.py 106-110) and RSA (188-210 with 243-245). *)
Inductive keyfile :=
| FernetFile (lv : level) (salt : bytes)
| RsaFile (private_key : bytes) (password : list N) (lv : level).

(** encryption.py 63-79: [FernetEncryption]; [salt] is [os.urandom(16)]. *)
Record fernet := Fernet { fn_level : level; fn_salt : bytes; fn_key : key }.
Definition fernet_new (password : list N) (lv : level) (salt : bytes) : fernet := Fernet lv salt (derive password salt).
Definition fernet_cipher (f : fernet) : cipher :=
  Cipher fernet_alg (fn_level f) None (fernet_seal (fn_key f)) (fernet_open (fn_key f)).
Definition fernet_save (f : fernet) : keyfile := FernetFile (fn_level f) (fn_salt f).
(** encryption.py 112-122. *)
Definition fernet_load (file : keyfile) (password : list N) : res fernet :=
  match file with
  | FernetFile lv salt => Ok (Fernet lv salt (derive password salt))
  | RsaFile _ _ _ => Err KeyError
  end.

(** encryption.py 132-156: [RSAEncryption]; [k] is the generated private key. *)
Record rsa := Rsa { rs_password : list N; rs_level : level; rs_key : key }.
Definition rsa_cipher (r : rsa) : cipher :=
  Cipher rsa_alg (rs_level r) (Some rsa_limit) (rsa_seal (rs_key r)) (rsa_open (rs_key r)).
(** encryption.py 188-210 and 243-245. *)
Definition rsa_save (r : rsa) : keyfile := RsaFile (pem (rs_password r) (rs_key r)) (rs_password r) (rs_level r).
(** encryption.py 247-254 with 212-230: [load] creates an object with the given password and
    replaces all of its state, the password included, by what the file says. *)
Definition rsa_load (file : keyfile) (password : list N) : res rsa :=
  match file with
  | RsaFile p stored lv => bind (unpem stored p) (fun k => Ok (Rsa stored lv k))
  | FernetFile _ _ => Err KeyError
  end.

End Keys.
