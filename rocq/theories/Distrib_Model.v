(** Distribution of the inputs of map/optimize over nodes and workers.
    Models utilities/packing.py, the two mapping functions of
    processing/data_processor.py, the choice between them in [DataProcessor.run],
    and the batching of the inputs in processing/functions.py. *)
From Verif Require Import Base Assign_Model.

Section Items.
Context {A : Type}.

(** [sorted(zip(items, weights), key=weight, reverse=True)] (packing.py 42): Python's
    sort is stable, also in reverse: equal weights keep their order. *)
Fixpoint insert_desc (x : A * Z) (l : list (A * Z)) : list (A * Z) :=
  match l with
  | [] => [x]
  | y :: l' => if (snd y <=? snd x)%Z then x :: l else y :: insert_desc x l'
  end.
Definition sort_desc (l : list (A * Z)) : list (A * Z) := fold_right insert_desc [] l.

(** packing.py 47: [min(bin_weights, key=...)], the first bin of least weight;
    [best] is the position and weight of the least one seen so far. *)
Fixpoint min_bin (i : nat) (best : nat * Z) (bins : list (list A * Z)) : nat :=
  match bins with
  | [] => fst best
  | b :: bins' => min_bin (S i) (if (snd b <? snd best)%Z then (i, snd b) else best) bins'
  end.

(** packing.py 46-49: one round of the loop.  The two dictionaries are one list of
    bins.  Without bins [min] gives the default 0 and the update of the weights
    raises KeyError. *)
Definition place (bins : list (list A * Z)) (x : A * Z) : res (list (list A * Z)) :=
  match bins with
  | [] => Err KeyError
  | b :: bins' =>
      let k := min_bin 1 (0, snd b) bins' in
      Ok (upd k (fun b => (fst b ++ [fst x], (snd b + snd x)%Z)) bins)
  end.
Fixpoint place_all (bins : list (list A * Z)) (xs : list (A * Z)) : res (list (list A * Z)) :=
  match xs with
  | [] => Ok bins
  | x :: xs' => bind (place bins x) (fun bins' => place_all bins' xs')
  end.

(** packing.py 18-51: [_pack_greedily]. *)
Definition pack_greedily (items : list A) (weights : list Z) (num_bins : nat) : res (list (list A * Z)) :=
  if negb (length items =? length weights) then Err ValueError
  else if existsb (fun w => (w <=? 0)%Z) weights then Err ValueError
  else place_all (repeat ([], 0%Z) num_bins) (sort_desc (combine items weights)).

(** data_processor.py 334-362: [_map_items_to_workers_weighted].  [perm w n] is the
    permutation numpy draws for the share of worker [w].  (numpy turns the share
    into an array and back; that the values survive this is not modelled.) *)
Definition map_weighted (perm : nat -> nat -> list nat) (nodes node_rank nw : nat) (items : list A)
           (weights : option (list Z)) : res (list (list A)) :=
  let ws := match weights with None => map (fun _ => 1%Z) items | Some ws => ws end in
  bind (pack_greedily items ws (nodes * nw)) (fun bins =>
  Ok (map (fun w => let share := match nth_error bins w with Some b => fst b | None => [] end in
                    permute (perm w (length share)) share)
          (seq (node_rank * nw) nw))).

(** data_processor.py 308-312: the remainder is handed out from the last worker backwards. *)
Fixpoint bump (r : nat) (l : list nat) {struct l} : list nat :=
  match l with [] => [] | x :: l' => match r with 0 => l | S r' => S x :: bump r' l' end end.
Definition share_sizes (world n : nat) : list nat :=
  rev (bump (n mod world) (rev (repeat (n / world) world))).

(** [np.cumsum([0] + sizes)] (line 314). *)
Fixpoint cumsum0 (acc : nat) (l : list nat) : list nat :=
  acc :: match l with [] => [] | x :: l' => cumsum0 (acc + x) l' end.

(** data_processor.py 296-331: [_map_items_to_workers_sequentially]. *)
Definition map_sequentially (nodes node_rank nw : nat) (items : list A) : res (list (list A)) :=
  let world := nodes * nw in
  if world =? 0 then Err ZeroDivisionError
  else
    let cs := cumsum0 0 (share_sizes world (length items)) in
    let first := node_rank * nw in
    let stop := (node_rank + 1) * nw in
    let out := map (fun w => let s := nth w cs 0 in let e := nth (w + 1) cs 0 in firstn (e - s) (skipn s items))
                   (filter (fun w => (first <=? w) && (w <? stop)) (seq 0 world)) in
    if negb (length out =? nw) then Err RuntimeError else Ok out.

(** data_processor.py 1125-1141: the choice in [DataProcessor.run].  [sizes] is
    the list of file sizes of the items when files are reordered (a non-empty
    input directory and [reorder_files]), [None] otherwise. *)
Definition distribute (perm : nat -> nat -> list nat) (nodes node_rank nw : nat) (items : list A)
           (weights sizes : option (list Z)) : res (list (list A)) :=
  match weights with
  | Some ws => if negb (length ws =? length items) then Err ValueError
               else map_weighted perm nodes node_rank nw items (Some ws)
  | None => match sizes with
            | Some sz => map_weighted perm nodes node_rank nw items (Some sz)
            | None => map_sequentially nodes node_rank nw items
            end
  end.

(** data_processor.py 1163-1166: [fast_dev_run].  In Python [isinstance(True, int)]
    holds and [w[:True]] is [w[:1]]. *)
Inductive fdr := FdrBool (b : bool) | FdrInt (n : nat).
Definition limit_items (f : fdr) (shares : list (list A)) : list (list A) :=
  match f with
  | FdrBool false | FdrInt 0 => shares
  | FdrBool true => map (firstn 1) shares
  | FdrInt n => map (firstn n) shares
  end.

(** functions.py 296-297 (map) and 467-468 (optimize): batching of the inputs. *)
Fixpoint batch_from (fuel pos b : nat) (inputs : list A) : list (list A) :=
  match fuel with
  | 0 => []
  | S f => if pos <? length inputs
           then firstn b (skipn pos inputs) :: batch_from f (pos + b) b inputs
           else []
  end.
Definition batch_inputs (b : nat) (inputs : list A) : option (list (list A)) :=
  if 1 <? b then Some (batch_from (length inputs) 0 b inputs) else None.   (* None: inputs unchanged *)
End Items.
