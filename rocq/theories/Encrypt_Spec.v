(** What a cipher and a compressor must do. *)
From Verif Require Import Base Format_Model Encrypt_Model.

(** Decryption inverts encryption, and a message never becomes shorter. *)
Definition cipher_ok (e : cipher) : Prop :=
  (forall n d, e_decrypt e (e_seal e n d) = Ok d) /\ (forall n d, length d <= length (e_seal e n d)).

(** No encryption, or one that works. *)
Definition key_ok (e : option cipher) : Prop := match e with Some c => cipher_ok c | None => True end.

(** Decompression inverts compression. *)
Definition codec_ok (compress : bytes -> bytes) (decompress : bytes -> res bytes) : Prop :=
  forall d, decompress (compress d) = Ok d.
