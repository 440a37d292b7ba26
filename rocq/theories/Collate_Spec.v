(** What the properties about the batches of a [CacheDataLoader] say. *)
From Verif Require Import Base Collate_Model.

(** The sample behind an item; [None]: there is none. *)
Inductive sample_of {V} : item V -> option V -> Prop :=
| sample_none : sample_of INone None
| sample_value v : sample_of (IValue v) (Some v)
| sample_coro o : sample_of (ICoro (Ok o)) o.
(** The samples of a batch, without [None]. *)
Inductive samples_in {V} : list (item V) -> list V -> Prop :=
| samples_nil : samples_in [] []
| samples_some i v b vs : sample_of i (Some v) -> samples_in b vs -> samples_in (i :: b) (v :: vs)
| samples_skip i b vs : sample_of i None -> samples_in b vs -> samples_in (i :: b) vs.

(** What the user should get: the collated samples of every batch that has some. *)
Inductive hands_out {V C} (collate : list (arg V) -> res (option C)) : list (list (item V)) -> list C -> Prop :=
| hands_nil : hands_out collate [] []
| hands_empty b bs cs : samples_in b [] -> hands_out collate bs cs -> hands_out collate (b :: bs) cs
| hands_batch b vs bs c cs : samples_in b vs -> vs <> [] -> collate (map AValue vs) = Ok (Some c) ->
    hands_out collate bs cs -> hands_out collate (b :: bs) (c :: cs).

(** All items of a batch are coroutines, and one at least gives a sample; or none is one. *)
Definition coroutine {V} (i : item V) : Prop := exists r, i = ICoro r.
Definition one_kind {V} (b : list (item V)) : Prop :=
  (Forall coroutine b /\ exists v, In (ICoro (Ok (Some v))) b) \/ Forall (fun i => ~ coroutine i) b.
