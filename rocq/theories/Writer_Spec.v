(** What it means for a list of chunks to respect the limits of the writer. *)
From Verif Require Import Base Format_Model Writer_Model.

(** The items of all written chunks, in the order of the index. *)
Definition stored (s : wstate) : list item := concat (map ch_items (w_chunks s)).

(** A limit that is absent (or zero) admits everything. *)
Definition within (limit : option nat) (n : nat) : Prop :=
  match limit with None => True | Some k => k = 0 \/ n <= k end.

(** A sample counts with its number of tokens, at least once. *)
Definition weight (x : item) : nat := match it_dim x with Some d => Nat.max 1 d | None => 1 end.

(** The items of a chunk respect both limits. *)
Definition fits (c : wcfg) (l : list item) : Prop :=
  within (c_bytes c) (sum (map it_bytes l)) /\ within (c_size c) (sum (map weight l)).

(** No chunk could have taken the first item of the next one. *)
Fixpoint tight (c : wcfg) (chunks : list (list item)) : Prop :=
  match chunks with
  | ch :: ((next :: _) as r) =>
      (exists x l, next = x :: l /\ ~ fits c (ch ++ [x])) /\ tight c r
  | _ => True
  end.

(** Chunk files and infos agree with the items: chunk number [k], the file is
    the compressed and encrypted encoding of the items, and the recorded size
    in bytes is the length of that encoding before compression; the recorded
    dimension is the number of tokens if the samples are token arrays. *)
Definition chunk_of (c : wcfg) (k : nat) (ch : chunk) : Prop :=
  let data := c_seal c k (chunk_data (map it_data (ch_items ch))) in
  ch_index ch = k /\ ch_file ch = c_compress c data /\ ch_bytes ch = length data /\
  ch_size ch = length (ch_items ch) /\
  (Forall (fun x => it_dim x = None) (ch_items ch) -> ch_dim ch = None) /\
  (forall ds, map it_dim (ch_items ch) = map Some ds -> ds <> [] -> Forall (fun d => 1 <= d) ds ->
     ch_dim ch = Some (sum ds)).

Definition chunks_of (c : wcfg) (first : nat) (chs : list chunk) : Prop :=
  forall k ch, nth_error chs k = Some ch -> chunk_of c (first + k) ch.
