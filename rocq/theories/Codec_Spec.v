(** What the properties about stored values say. *)
From Verif Require Import Base Format_Model Codec_Model.
From Coq Require Import NArith ZArith.

Definition small (x : N) : Prop := (x < two32)%N.

(** A value as Python can hold it: the elements of an array are as many as its
    shape says, code points are below 0x110000; dimensions and image sizes are
    below 2^32. *)
Definition valid (l : leaf) : Prop :=
  match l with
  | LStr s => Forall (fun c => c < 1114112)%N s
  | LFloat bits => (bits < 2 ^ 64)%N
  | LPil w h mode raw => small w /\ small h /\ Forall (fun c => c < 128)%N mode /\ small (N.of_nat (length mode))
  | LJpegs images => images <> [] /\ small (N.of_nat (length images)) /\ Forall (fun b => small (blen b)) images
  | LArr d shape data =>
      Forall small shape /\ small (N.of_nat (length shape)) /\
      match nth_error numpy_itemsizes d with
      | Some k => blen data = (N.of_nat k * prod shape)%N
      | None => True
      end
  | LTensor d shape data =>
      Forall small shape /\ small (N.of_nat (length shape)) /\
      blen data = (N.of_nat (torch_itemsize d) * prod shape)%N
  | _ => True
  end.

(** A value that the documentation promises to store: integers of 64 bits, strings
    without lone surrogates, arrays of numbers and booleans, tensors of any dtype
    but bfloat16. *)
Definition surrogate (c : N) : Prop := (55296 <= c < 57344)%N.
Definition storable (l : leaf) : Prop :=
  match l with
  | LStr s => Forall (fun c => ~ surrogate c) s
  | LInt z => (- 2 ^ 63 <= z < 2 ^ 63)%Z
  | LArr d shape _ => length shape = 0 \/ d < 14
  | LTensor d _ _ => d <> BF16
  | _ => True
  end.

(** A value of a later sample is of the same kind as the value of the first
    sample in its place: same Python type; one-dimensional arrays and tensors of
    the same dtype; arrays of more dimensions in any dtype and shape; anything
    where the first value is pickled. *)
Definition same_kind (first l : leaf) : Prop :=
  match first, l with
  | LStr _, LStr _ | LBool _, LBool _ | LInt _, LInt _ | LFloat _, LFloat _
  | LBytes _, LBytes _ | LPil _ _ _ _, LPil _ _ _ _ | LJpegs _, LJpegs _ => True
  | LArr _ [] _, _ => True
  | LArr d [_] _, LArr d' [_] _ => d = d'
  | LArr _ (_ :: _ :: _) _, LArr d' _ _ => d' < 14
  | LTensor d [_] _, LTensor d' [_] _ => d = d'
  | LTensor _ [] _, LTensor _ _ _ => True
  | LTensor _ (_ :: _ :: _) _, LTensor _ _ _ => True
  | LNone, _ | LOther _, _ => True
  | _, _ => False
  end.

(** A double is a multiple of 2^-1074; [double_scaled bits] is its value times
    2^1075 (IEEE 754: sign, 11 bits of exponent, 52 bits of fraction). *)
Definition double_exp (bits : N) : N := ((bits / 2 ^ 52) mod 2048)%N.
Definition finite (bits : N) : Prop := double_exp bits <> 2047%N.
Definition double_scaled (bits : N) : Z :=
  let e := double_exp bits in
  let m := (bits mod 2 ^ 52)%N in
  let a := (if e =? 0 then m * 2 else (m + 2 ^ 52) * 2 ^ e)%N in
  if (bits <? 2 ^ 63)%N then Z.of_N a else (- Z.of_N a)%Z.
