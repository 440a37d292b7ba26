(** Model of RSA objects with a private and a public key, of pickling them and of key files.
    Source: src/litdata/utilities/encryption.py 125-268.

    The package cryptography is an argument: the pair made by its key generation, its
    encryption, the PEM text of keys and reading it.
    Simplifications: AttributeError, which the model's exceptions lack, is GenericException; file contents are
    kept as bytes; [password.encode()] is the password itself (a lone surrogate is not looked at). *)
From Verif Require Import Base Format_Model Encrypt_Model.

Record library (priv pub : Type) := Library {
  public_key : priv -> pub;                             (* [private_key.public_key()] *)
  seal : pub -> nat -> bytes -> bytes;                  (* [public_key.encrypt], the n-th call *)
  open : priv -> bytes -> res bytes;                    (* [private_key.decrypt] *)
  private_pem : option (list N) -> priv -> bytes;       (* [private_bytes]; [None]: [NoEncryption] *)
  load_private : option (list N) -> bytes -> res priv;  (* [load_pem_private_key] *)
  public_pem : pub -> bytes;
  load_public : bytes -> res pub
}.
Arguments public_key {priv pub}. Arguments seal {priv pub}. Arguments open {priv pub}. Arguments private_pem {priv pub}.
Arguments load_private {priv pub}. Arguments public_pem {priv pub}. Arguments load_public {priv pub}.

Section Rsa.
Context {priv pub : Type} (L : library priv pub).

(** encryption.py 132-156: the attributes of an [RSAEncryption]. *)
Record rsa_object := RsaObject { k_password : list N; k_level : level; k_private : option priv; k_public : option pub }.
Definition rsa_new (password : list N) (lv : level) (generated : priv) : rsa_object :=
  RsaObject password lv (Some generated) (Some (public_key L generated)).

(** encryption.py 158-180: [encrypt], [decrypt]. *)
Definition rsa_encrypt (o : rsa_object) (n : nat) (d : bytes) : res bytes :=
  match k_public o with
  | None => Err GenericException
  | Some p => if rsa_limit <? length d then Err ValueError else Ok (seal L p n d)
  end.
Definition rsa_decrypt (o : rsa_object) (d : bytes) : res bytes :=
  match k_private o with None => Err GenericException | Some k => open L k d end.

(** [if self.password]: the empty string is no password. *)
Definition given (password : list N) : option (list N) := match password with [] => None | p => Some p end.

(** encryption.py 188-210: [__getstate__]. *)
Record rsa_state := RsaState { t_private : option bytes; t_public : option bytes; t_password : list N; t_level : level }.
Definition getstate (o : rsa_object) : rsa_state :=
  RsaState (option_map (private_pem L (given (k_password o))) (k_private o))
           (option_map (public_pem L) (k_public o)) (k_password o) (k_level o).

Definition load_opt {A} (f : bytes -> res A) (b : option bytes) : res (option A) :=
  match b with
  | None | Some [] => Ok None
  | Some b => bind (f b) (fun a => Ok (Some a))
  end.
(** encryption.py 212-230: [__setstate__]. *)
Definition setstate (t : rsa_state) : res rsa_object :=
  bind (load_opt (load_private L (given (t_password t))) (t_private t)) (fun k =>
  bind (load_opt (load_public L) (t_public t)) (fun p =>
  Ok (RsaObject (t_password t) (t_level t) k p))).

(** encryption.py 256-264: [save_keys]: the contents of the two files. *)
Definition empty_text (b : option bytes) : bool := match b with None | Some [] => true | _ => false end.
Definition save_keys (o : rsa_object) : res (bytes * bytes) :=
  let t := getstate o in
  if empty_text (t_private t) || empty_text (t_public t) then Err GenericException
  else match t_private t, t_public t with Some a, Some b => Ok (a, b) | _, _ => Err GenericException end.

(** encryption.py 232-241 and 266-268: [load_keys]; [None] is a file that does not exist.  The private key is
    replaced before the public key is read; the password of the object is not changed.  The
    second component is what the call raises. *)
Definition read_file {A} (f : bytes -> res A) (file : option bytes) : res A :=
  match file with None => Err FileNotFoundError | Some b => f b end.
Definition load_keys (o : rsa_object) (private_file public_file : option bytes) (password : list N) : rsa_object * res unit :=
  match read_file (load_private L (Some password)) private_file with
  | Err e => (o, Err e)
  | Ok k =>
      let o' := RsaObject (k_password o) (k_level o) (Some k) (k_public o) in
      match read_file (load_public L) public_file with
      | Err e => (o', Err e)
      | Ok p => (RsaObject (k_password o) (k_level o) (Some k) (Some p), Ok tt)
      end
  end.
End Rsa.
Arguments rsa_object : clear implicits.
