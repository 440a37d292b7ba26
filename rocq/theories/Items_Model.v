(** The item loaders as objects that live as long as the datasets that use them: streaming/item_loader.py, and
    what reader.py and train_test_split.py do with them.  What a loader reads from a complete file is in
    Format_Model.v, the row groups of one Parquet chunk are in Loader_Model.v.

    One call is one step: the prefetching thread (reader.py 185-245) and the thread that reads interleave between
    calls, not within one. *)
From Verif Require Import Base Format_Model Loader_Model Encrypt_Model.

(** The file of a chunk: the dataset and the index of the chunk in it (config.py 230-262).  The loaders keep what
    they have loaded under the index alone. *)
Definition path : Type := nat * nat.
Definition path_eqb (p q : path) : bool := (fst p =? fst q) && (snd p =? snd q).
Definition pupd {A} (f : path -> A) (p : path) (v : A) : path -> A := fun q => if path_eqb q p then v else f q.

(** * ParquetLoader (item_loader.py 586-805). *)
Section Parquet.
Context {row : Type}.
(** A file: its size and its row groups; [None]: it cannot be opened, since a part of it has not arrived. *)
Record pfile := PF { pf_size : nat; pf_rows : option (list (list row)) }.
(** [q_file]: the cache directory; [q_df]: [_df], an open file (low_memory) or a data frame; [q_grp]:
    [_chunk_row_groups] and [_chunk_row_group_item_read_count], which have the same keys; [q_known]:
    [_chunk_filepaths]. *)
Record qst := Qst { q_file : path -> option pfile; q_df : nat -> option (list (list row));
                    q_grp : nat -> @pstate row; q_known : path -> bool }.
Definition q_init (files : path -> option pfile) : qst := Qst files (fun _ => None) (fun _ => p_init) (fun _ => false).

Inductive qop :=
  | QSetup (d : nat)                     (** 607-622, when a reader of dataset [d] is made (config.py 81) *)
  | QPre (p : path)                      (** 639-647 *)
  | QLoad (p : path) (i : nat)           (** 649-683; [i]: index - begin *)
  | QDelete (p : path)                   (** 766-794 *)
  | QClose (c : nat)                     (** 796-805 *)
  | QArrive (p : path) (f : pfile)       (** the file, or a part of it, appears *)
  | QGone (p : path).                    (** another process removes it *)
Inductive qout := QDone | QRow (r : row) | QWaits | QRaised (e : exn).

(** [low]: low_memory; [pre]: pre_load_chunk; [chunk_bytes]: "chunk_bytes" of the index file. *)
Context (low pre : bool) (chunk_bytes : path -> nat).

(** 702-703, 758-759, 646-647: the file is opened or loaded if the loader has nothing under the index. *)
Definition q_open (st : qst) (p : path) : res (list (list row) * qst) :=
  match q_df st (snd p) with
  | Some g => Ok (g, st)
  | None => match q_file st p with
            | None => Err FileNotFoundError
            | Some f => match pf_rows f with
                        | None => Err GenericException
                        | Some g => Ok (g, Qst (q_file st) (upd (q_df st) (snd p) (Some g)) (q_grp st) (q_known st))
                        end
            end
  end.

Definition q_exists (st : qst) (p : path) : bool := match q_file st p with Some _ => true | None => false end.

(** 685-739 and 741-764; simplification: an exception while a row group is read leaves the row groups as they
    were. *)
Definition q_row (st : qst) (p : path) (i : nat) : qst * qout :=
  match q_open st p with
  | Err e => (st, QRaised e)
  | Ok (g, st) =>
      if low
      then match p_read g (q_grp st (snd p)) i with
           | Err e => (st, QRaised e)
           | Ok (s, r) => (Qst (q_file st) (q_df st) (upd (q_grp st) (snd p) s) (q_known st), QRow r)
           end
      else match nth_error (concat g) i with Some r => (st, QRow r) | None => (st, QRaised GenericException) end
  end.

Definition q_drop (st : qst) (c : nat) : qst :=
  Qst (q_file st) (upd (q_df st) c None) (upd (q_grp st) c p_init) (q_known st).

Definition q_step (o : qop) (st : qst) : qst * qout :=
  match o with
  | QSetup d => (Qst (q_file st) (fun _ => None) (fun _ => p_init) (q_known st), QDone)
  | QPre p =>
      if negb pre || low then (st, QDone)
      else match q_df st (snd p), q_file st p with
           | None, Some _ => match q_open st p with Ok (_, st) => (st, QDone) | Err e => (st, QRaised e) end
           | _, _ => (st, QDone)
           end
  | QLoad p i =>
      let known := q_known st p && q_exists st p in
      let there := match q_file st p with Some f => chunk_bytes p <=? pf_size f | None => false end in
      let st := Qst (q_file st) (q_df st) (q_grp st) (pupd (q_known st) p (known || there)) in
      if known || there then q_row st p i else (st, QWaits)
  | QDelete p => let st := q_drop st (snd p) in (Qst (pupd (q_file st) p None) (q_df st) (q_grp st) (q_known st), QDone)
  | QClose c => (q_drop st c, QDone)
  | QArrive p f => (Qst (pupd (q_file st) p (Some f)) (q_df st) (q_grp st) (q_known st), QDone)
  | QGone p => (Qst (pupd (q_file st) p None) (q_df st) (q_grp st) (q_known st), QDone)
  end.
Fixpoint q_run (os : list qop) (st : qst) : qst * list qout :=
  match os with
  | [] => (st, [])
  | o :: os => let (st, out) := q_step o st in let (st, outs) := q_run os st in (st, out :: outs)
  end.
End Parquet.
Arguments pfile : clear implicits.
Arguments qst : clear implicits.
Arguments qop : clear implicits.
Arguments qout : clear implicits.

(** * TokensLoader (item_loader.py 373-558) with the identities of the memory maps. *)
(** What [setup] takes from the index of a dataset (396-416): "chunk_size" of its chunks, the size of a token. *)
Record dset := Ds { ds_sizes : list nat; ds_item : nat }.
(** Every memory map that was made: its bytes, and whether it is still open.  Simplification: a file is replaced, not
    written to, while it is mapped. *)
Record tk := Tk { k_conf : dset; k_file : path -> option bytes; k_maps : list (bytes * bool);
                  k_map : nat -> option nat; k_count : nat -> Z; k_known : path -> bool }.
Definition tk_init (conf : dset) (files : path -> option bytes) : tk :=
  Tk conf files [] (fun _ => None) (fun _ => 0%Z) (fun _ => false).

(** A delivered block is a view of a memory map (torch.frombuffer, numpy.frombuffer: 509-515 share the memory).
    The map can be closed while there are views of it: numpy.memmap does not keep the buffer of the map
    exported, so that [_mmap.close()] succeeds; reading the view afterwards is an access to memory that is not mapped. *)
Record view := Vw { v_map : nat; v_off : nat; v_len : nat }.
Definition look (st : tk) (v : view) : option bytes :=
  match nth_error (k_maps st) (v_map v) with
  | Some (b, true) => Some (firstn (v_len v) (skipn (v_off v) b))
  | _ => None
  end.
Definition shut (maps : list (bytes * bool)) (id : nat) : list (bytes * bool) :=
  Base.upd id (fun m => (fst m, false)) maps.

Inductive kop :=
  | KSetup (conf : dset)                       (** 396-416 *)
  | KPre (p : path)                            (** 450-456 *)
  | KLoad (p : path) (index begin : nat)       (** 458-519 *)
  | KDelete (p : path)                         (** 521-545 *)
  | KClose (c : nat)                           (** 547-556 *)
  | KArrive (p : path) (data : bytes).
Inductive kout := KDone | KBlock (v : view) | KWaits | KRaised (e : exn).

Section Tokens.
Context (block : nat) (chunk_bytes : path -> nat).

(** 434-448: [_load_chunk]; mapping nothing raises ValueError. *)
Definition k_load_chunk (st : tk) (p : path) : tk * option exn :=
  let c := snd p in
  let st := Tk (k_conf st) (k_file st) (k_maps st) (k_map st) (Loader_Model.upd (k_count st) c (k_count st c + 1)%Z) (k_known st) in
  match k_map st c with
  | Some _ => (st, None)
  | None =>
      match nth_error (ds_sizes (k_conf st)) c with
      | None => (st, Some IndexError)
      | Some size =>
          match k_file st p with
          | None => (st, Some FileNotFoundError)
          | Some f =>
              match tokens_buffer f size with
              | [] => (st, Some ValueError)
              | b => (Tk (k_conf st) (k_file st) (k_maps st ++ [(b, true)])
                         (Loader_Model.upd (k_map st) c (Some (length (k_maps st)))) (k_count st) (k_known st), None)
              end
          end
      end
  end.

Definition k_step (o : kop) (st : tk) : tk * kout :=
  match o with
  | KSetup conf => (Tk conf (k_file st) (k_maps st) (k_map st) (k_count st) (k_known st), KDone)
  | KPre p =>
      let st := Tk (k_conf st) (k_file st) (k_maps st) (k_map st) (k_count st) (pupd (k_known st) p true) in
      match k_file st p with
      | Some (_ :: _) => match k_load_chunk st p with (st, None) => (st, KDone) | (st, Some e) => (st, KRaised e) end
      | _ => (st, KDone)
      end
  | KLoad p index begin =>
      let known := k_known st p && match k_file st p with Some _ => true | None => false end in
      let there := match k_file st p with Some f => chunk_bytes p <=? length f | None => false end in
      let st := Tk (k_conf st) (k_file st) (k_maps st) (k_map st) (k_count st) (pupd (k_known st) p (known || there)) in
      if known || there
      then match k_load_chunk st p with
           | (st, Some e) => (st, KRaised e)
           | (st, None) =>
               match k_map st (snd p) with
               | None => (st, KRaised KeyError)
               | Some id =>
                   let off := ds_item (k_conf st) * (index - begin) * block in
                   let len := ds_item (k_conf st) * block in
                   match nth_error (k_maps st) id with
                   | Some (b, _) => if length b <? off + len then (st, KRaised ValueError) else (st, KBlock (Vw id off len))
                   | None => (st, KRaised KeyError)
                   end
               end
           end
      else (st, KWaits)
  | KDelete p =>
      match k_file st p with
      | None => (st, KDone)
      | Some _ =>
          let file := pupd (k_file st) p None in
          match k_map st (snd p) with
          | Some id => (Tk (k_conf st) file (shut (k_maps st) id) (Loader_Model.upd (k_map st) (snd p) None)
                           (Loader_Model.upd (k_count st) (snd p) 0%Z) (k_known st), KDone)
          | None => (Tk (k_conf st) file (k_maps st) (k_map st) (k_count st) (k_known st), KDone)
          end
      end
  | KClose c =>
      let n := (k_count st c - 1)%Z in
      let count := Loader_Model.upd (k_count st) c n in
      match k_map st c with
      | Some id => if (n =? 0)%Z
                   then (Tk (k_conf st) (k_file st) (shut (k_maps st) id) (Loader_Model.upd (k_map st) c None) count (k_known st), KDone)
                   else (Tk (k_conf st) (k_file st) (k_maps st) (k_map st) count (k_known st), KDone)
      | None => (Tk (k_conf st) (k_file st) (k_maps st) (k_map st) count (k_known st), KDone)
      end
  | KArrive p data => (Tk (k_conf st) (pupd (k_file st) p (Some data)) (k_maps st) (k_map st) (k_count st) (k_known st), KDone)
  end.
Fixpoint k_run (os : list kop) (st : tk) : tk * list kout :=
  match os with
  | [] => (st, [])
  | o :: os => let (st, out) := k_step o st in let (st, outs) := k_run os st in (st, out :: outs)
  end.

(** reader.py 391-425: [read] of a dataset whose chunks lie in the directory itself (no prefetching thread): the sample is
    loaded; if its chunk is not the one of the sample before, that one is closed.  [last]: [_last_chunk_index]. *)
Fixpoint k_read (d : nat) (last : option nat) (samples : list (nat * nat)) (st : tk) : tk * list kout :=
  match samples with
  | [] => (st, [])
  | (c, j) :: samples =>
      let (st, out) := k_step (KLoad (d, c) j 0) st in
      let st := match last with
                | Some l => if l =? c then st else fst (k_step (KClose l) st)
                | None => st
                end in
      let (st, outs) := k_read d (Some c) samples st in (st, out :: outs)
  end.
End Tokens.

(** * PyTreeLoader with several datasets: the loader of Encrypt_Model.v and what [setup] (46-67) takes from the index of
    the last dataset: the encryption and the number of fields ("data_format"; what the serializers make of the fields is in
    Codec_Model.v). *)
Record yconf := Yc { yc_enc : option (nat * level); yc_fields : nat }.
Record yst := Yst { ys_conf : yconf; ys_loader : pyl }.
Inductive yop := YSetup (conf : yconf) | YLoad (p : path) (i : nat).
Inductive yout := YDone | YFields (l : list bytes) | YRaised (e : exn).
Section PyTrees.
(** [num]: a number for each path; [e]: the encryption object of the readers; [filesize]: "chunk_bytes". *)
Context (num : path -> nat) (e : option cipher) (d : disk) (filesize : path -> nat).
Definition y_step (o : yop) (st : yst) : yst * yout :=
  match o with
  | YSetup conf => (Yst conf (ys_loader st), YDone)
  | YLoad p i =>
      match load_bytes (yc_enc (ys_conf st)) e d i (snd p) (num p) 0 (filesize p) (ys_loader st) with
      | Err x => (st, YRaised x)
      | Ok (raw, l) =>
          (Yst (ys_conf st) l, match decode_fields (yc_fields (ys_conf st)) raw with Ok fs => YFields fs | Err x => YRaised x end)
      end
  end.
Fixpoint y_run (os : list yop) (st : yst) : yst * list yout :=
  match os with
  | [] => (st, [])
  | o :: os => let (st, out) := y_step o st in let (st, outs) := y_run os st in (st, out :: outs)
  end.
End PyTrees.

(** * Copying a dataset that was used (train_test_split.py 99-110). *)
Inductive kind := PyTrees | Tokens | Parquet (low : bool).
(** [h_kind], [h_remote]: the loader that was given to the dataset, and whether a prefetching thread reads ahead;
    [h_cache]: [dataset.cache] is set; [h_last]: [_last_chunk_index] of its reader; [h_held]: the chunks of which the loader holds a memory map, an
    open Parquet file or a data frame, with their counters; [h_queue]: the loader has the attribute
    [_force_download_queue].  Simplification: no chunk is deleted or loaded ahead meanwhile. *)
Record held := Held { h_kind : kind; h_remote : bool; h_cache : bool; h_last : option nat; h_held : list (nat * nat); h_queue : bool }.
Definition fresh_dataset (k : kind) (remote : bool) : held := Held k remote false None [] false.

(** dataset.py 271-279, 389-393: [__iter__], or the first [dataset[i]], makes a cache with a new reader; [setup] of
    BaseItemLoader sets the queue (62), that of ParquetLoader (607-622) does not, and forgets its files. *)
Definition h_open (h : held) : held :=
  Held (h_kind h) (h_remote h) true None
       (match h_kind h with Parquet _ => [] | _ => h_held h end)
       (match h_kind h with Parquet _ => h_queue h | _ => true end).
Definition add_one (c : nat) (l : list (nat * nat)) : list (nat * nat) :=
  match find (fun x => fst x =? c) l with
  | Some (_, n) => (c, S n) :: filter (fun x => negb (fst x =? c)) l
  | None => (c, 1) :: l
  end.
(** item_loader.py 547-556 and 796-805: [close]. *)
Definition close_one (k : kind) (c : nat) (l : list (nat * nat)) : list (nat * nat) :=
  match k with
  | PyTrees => l
  | Tokens => flat_map (fun x => if fst x =? c then match snd x with 0 => [x] | 1 => [] | S n => [(c, n)] end else [x]) l
  | Parquet _ => filter (fun x => negb (fst x =? c)) l
  end.
(** reader.py 347-447: [read] of a sample of chunk [c]; [is_last]: [is_last_index].  The thread is started with the first
    sample, and the loader is given its queue (364-377). *)
Definition h_read (h : held) (c : nat) (is_last : bool) : held :=
  let l := match h_kind h with PyTrees => [] | _ => add_one c (h_held h) end in
  let l := match h_last h with Some p => if p =? c then l else close_one (h_kind h) p l | None => l end in
  let h := Held (h_kind h) (h_remote h) (h_cache h) (Some c) l (h_remote h || h_queue h) in
  if is_last && h_remote h
  then Held (h_kind h) (h_remote h) (h_cache h) None (close_one (h_kind h) c l) (h_queue h)
  else h.
(** What is done with the dataset: [UGet c]: dataset[i] with sample [i] in chunk [c]; [ULoop cs whole]: a loop in which samples
    of the chunks [cs] are read, one after the other, and which is run to the end or left; [UReset]: [reset] (622-646). *)
Inductive use := UGet (c : nat) | ULoop (cs : list nat) (whole : bool) | UReset.
Fixpoint h_loop (h : held) (cs : list nat) (whole : bool) : held :=
  match cs with
  | [] => h
  | [c] => h_read h c whole
  | c :: cs => h_loop (h_read h c false) cs whole
  end.
Definition h_use (h : held) (u : use) : held :=
  match u with
  | UGet c => h_read (if h_cache h then h else h_open h) c false
  | ULoop cs whole => h_loop (h_open h) cs whole
  | UReset => Held (h_kind h) (h_remote h) false None (h_held h) (h_queue h)
  end.
(** train_test_split.py 99-110: an attribute that is missing raises AttributeError (GenericException); a memory view or an open
    Parquet file cannot be copied (TypeError); PyTreeLoader drops its file when it is copied (366-370). *)
Definition copy_dataset (h : held) : res held :=
  if h_cache h && negb (h_queue h) then Err GenericException
  else match h_kind h with
       | PyTrees | Parquet false => Ok h
       | Tokens | Parquet true => match h_held h with [] => Ok h | _ => Err TypeError end
       end.
