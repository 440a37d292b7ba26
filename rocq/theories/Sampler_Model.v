(** The batch sampler of the cache dataloader: streaming/sampler.py. *)
From Verif Require Import Base Assign_Model.

Section Batches.
Context {A : Type}.

(** sampler.py 240-245: [_chunk_list].  A batch size of 0 makes [range] raise. *)
Fixpoint chunk_from (fuel pos size : nat) (arr : list A) : list (list A) :=
  match fuel with
  | 0 => []
  | S f => if pos <? length arr then firstn size (skipn pos arr) :: chunk_from f (pos + size) size arr else []
  end.
Definition chunk_list (size : nat) (arr : list A) : res (list (list A)) :=
  if size =? 0 then Err ValueError else Ok (chunk_from (length arr) 0 size arr).
Fixpoint chunk_lists (size : nat) (arrs : list (list A)) : res (list (list (list A))) :=
  match arrs with
  | [] => Ok []
  | a :: arrs' => bind (chunk_list size a) (fun b => bind (chunk_lists size arrs') (fun bs => Ok (b :: bs)))
  end.

(** sampler.py 224-230: the first loop of [__iter_indices_per_workers__]; [lists] are the batches
    each worker still has to get.  [nw] is the number of lists. *)
Fixpoint weave (fuel nw counter : nat) (lists : list (list (list A))) : res (list (list A)) :=
  if sum (map (@length _) lists) =? 0 then Ok []
  else match fuel with
       | 0 => Err OutOfFuel
       | S f =>
           match nth_error lists (counter mod nw) with
           | None => Err IndexError
           | Some [] => bind (weave f nw (S counter) lists) (fun r => Ok ([] :: r))
           | Some (b :: bs) =>
               bind (weave f nw (S counter) (upd (counter mod nw) (fun _ => bs) lists)) (fun r => Ok (b :: r))
           end
       end.

(** sampler.py 232-236: the second loop removes empty batches from the end;
    [batches[-1]] raises IndexError when nothing is left.  The argument is reversed. *)
Fixpoint trim_rev (l : list (list A)) : res (list (list A)) :=
  match l with
  | [] => Err IndexError
  | [] :: l' => trim_rev l'
  | _ => Ok l
  end.

(** sampler.py 219-238: [__iter_indices_per_workers__]. *)
Definition iter_per_workers (nw : nat) (lists : list (list (list A))) : res (list (list A)) :=
  bind (weave (nw * sum (map (@length _) lists)) nw 0 lists) (fun r =>
  bind (trim_rev (rev r)) (fun t => Ok (rev t))).
End Batches.

(** sampler.py 124-132 and 155-160: worker [w] gets [size] items, the last one the rest. *)
Definition worker_slices {A} (nw size : nat) (l : list A) : list (list A) :=
  map (fun w => let start := w * size in
                let stop := if w =? nw - 1 then length l else (w + 1) * size in
                firstn (stop - start) (skipn start l)) (seq 0 nw).

(** sampler.py 123-138: [__iter_non_distributed__].  The arguments [nw] and [b] are what
    [num_workers or 1] and [batch_size or 1] give (sampler.py 86, dataloader.py 322). *)
Definition iter_non_distributed (n nw b : nat) : res (list (list nat)) :=
  let shares := worker_slices nw (n / nw) (seq 0 n) in
  if negb (sum (map (@length _) shares) =? n) then Err AssertionError
  else bind (chunk_lists b shares) (iter_per_workers nw).

(** sampler.py 140-168: [__iter_distributed__]. *)
Definition iter_distributed (n replicas rank nw b : nat) : res (list (list nat)) :=
  let replica_size := n / replicas in
  let worker_size := n / (replicas * nw) in
  let start := rank * replica_size in
  let stop := if rank =? replicas - 1 then n else (rank + 1) * replica_size in
  let mine := firstn (stop - start) (skipn start (seq 0 n)) in
  let shares := worker_slices nw worker_size mine in
  if replicas <=? rank then Err GenericException       (* [worker_indices] unbound *)
  else if negb (sum (map (@length _) shares) =? length mine) then Err AssertionError
  else bind (chunk_lists b shares) (iter_per_workers nw).

(** [ChunkedIndex] (sampler.py 23-48): index, chunk index, announced chunks. *)
Record cindex := { ci_index : nat; ci_chunk : nat; ci_chunks : option (list nat) }.

(** An interval as [get_chunk_intervals] gives it (config.py); only positions 1 and 2
    are used: first and past-the-end sample index of the chunk. *)
Notation interval4 := (nat * nat)%type.

(** sampler.py 192-194: chunk [i] of the list goes to worker [i mod nw]. *)
Definition deal {A} (nw w : nat) (l : list A) : list A :=
  map snd (filter (fun p => fst p mod nw =? w) (combine (seq 0 (length l)) l)).

(** sampler.py 197-211: the samples worker [w] gets, given the (position, (chunk, interval))
    triples dealt to it in order.  [sp i n] is the permutation numpy draws at position [i]. *)
Fixpoint worker_samples (sp : nat -> nat -> list nat) (chunks : list nat)
         (acc : list cindex) (l : list (nat * (nat * interval4))) : list cindex :=
  match l with
  | [] => acc
  | (i, (c, iv)) :: l' =>
      let idxs := permute (sp i (snd iv - fst iv)) (seq (fst iv) (snd iv - fst iv)) in
      let is_empty := length acc =? 0 in
      let new := map (fun jx => {| ci_index := snd jx; ci_chunk := c;
                                   ci_chunks := if (fst jx =? 0) && is_empty then Some chunks else None |})
                     (combine (seq 0 (length idxs)) idxs) in
      worker_samples sp chunks (acc ++ new) l'
  end.

(** sampler.py 189-214: [__iter_from_shuffled_chunks]. *)
Definition iter_from_shuffled (sp : nat -> nat -> list nat) (nw b : nat) (chunks : list nat)
           (ivs : list interval4) : res (list (list cindex)) :=
  let zipped := combine chunks ivs in
  let per_worker := map (fun w => worker_samples sp (deal nw w chunks) []
                                    (deal nw w (combine (seq 0 (length zipped)) zipped))) (seq 0 nw) in
  bind (chunk_lists b per_worker) (iter_per_workers nw).

(** sampler.py 170-174: [__iter_from_chunks_non_distributed__]; [cp] is the permutation of
    the chunks. *)
Definition iter_chunks_non_distributed (cp : list nat) sp (nw b : nat) (ivs : list interval4) :=
  iter_from_shuffled sp nw b cp (permute cp ivs).

(** sampler.py 176-187: [__iter_from_chunks_distributed__]. *)
Definition iter_chunks_distributed (cp : list nat) sp (replicas rank nw b : nat) (ivs : list interval4) :=
  iter_from_shuffled sp nw b (deal replicas rank cp) (deal replicas rank (permute cp ivs)).

(** sampler.py 107-121: [__iter__].  [cache] is [None] while the cache is not filled, otherwise
    the chunk intervals.  [shuffle] and [drop_last] are stored (77-90) and never read. *)
Inductive batch_item := Plain (i : nat) | Chunked (c : cindex).
Definition sampler_iter (cp : list nat) sp (drop_last shuffle : bool) (n replicas rank nw b : nat)
           (cache : option (list interval4)) : res (list (list batch_item)) :=
  match cache with
  | Some ivs =>
      bind (if replicas =? 1 then iter_chunks_non_distributed cp sp nw b ivs
            else iter_chunks_distributed cp sp replicas rank nw b ivs)
           (fun r => Ok (map (map Chunked) r))
  | None =>
      bind (if replicas =? 1 then iter_non_distributed n nw b else iter_distributed n replicas rank nw b)
           (fun r => Ok (map (map Plain) r))
  end.

(** sampler.py 103-105: [diff.sum()] of the indexes of a worker. *)
Fixpoint diff_sum (l : list nat) : Z :=
  match l with
  | x :: ((y :: _) as l') => (Z.of_nat y - (Z.of_nat x + 1) + diff_sum l')%Z
  | _ => 0%Z
  end.
(** sampler.py 93-102: the indexes of worker [w], collected batch by batch. *)
Definition collected (nw w : nat) (batches : list (list nat)) : list nat := concat (deal nw w batches).

(** sampler.py 92-105, 216-217: [_validate] and the [__len__] it determines. *)
Definition validated_length (n replicas rank nw b : nat) (filled : bool) : res nat :=
  if (1 <? nw) && negb filled then
    bind (if replicas =? 1 then iter_non_distributed n nw b else iter_distributed n replicas rank nw b) (fun r =>
    if forallb (fun w => (diff_sum (collected nw w r) =? 0)%Z) (seq 0 nw) then Ok (length r) else Err RuntimeError)
  else Ok 0.
