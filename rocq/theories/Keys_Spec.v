(** What is assumed of the package cryptography. *)
From Verif Require Import Base Format_Model Keys_Model.

Record works {priv pub} (L : library priv pub) : Prop := Works {
  (* what a public key encrypts, its private key decrypts *)
  w_open : forall k n d, open L k (seal L (public_key L k) n d) = Ok d;
  (* a key is read from its text with the password it was written with, without one if there was none *)
  w_plain : forall k, load_private L None (private_pem L None k) = Ok k;
  w_password : forall p k, p <> [] -> load_private L (Some p) (private_pem L (Some p) k) = Ok k;
  w_public : forall p, load_public L (public_pem L p) = Ok p;
  (* reading it with another password, or with one although it has none, raises *)
  w_wrong : forall p q k, p <> [] -> p <> q -> load_private L (Some q) (private_pem L (Some p) k) = Err ValueError;
  w_unprotected : forall q k, load_private L (Some q) (private_pem L None k) = Err TypeError;
  (* the text of a key is not empty *)
  w_text : forall p k, private_pem L p k <> [];
  w_public_text : forall p, public_pem L p <> []
}.

(** Two objects decrypt what they encrypt for each other. *)
Definition understand {priv pub} (L : library priv pub) (a b : rsa_object priv pub) : Prop :=
  forall n d c, rsa_encrypt L a n d = Ok c -> rsa_decrypt L b c = Ok d.
