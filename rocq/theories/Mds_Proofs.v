(** Proofs about MDS datasets. *)
From Coq Require Import String NArith ZArith Lia.
From Verif Require Import Base Assign_Model Config_Model Config_Spec Config_Proofs Iter_Model Iter_Spec Format_Model Format_Proofs
  Codec_Model Codec_Spec Codec_Proofs Tree_Model Tree_Spec Tree_Proofs Names_Model Size_Model Paths_Model Paths_Proofs Unzip_Model Unzip_Spec
  Unzip_Proofs Dataset_Proofs Mds_Model Mds_Spec.
Local Open Scope list_scope.
Local Open Scope nat_scope.
Local Ltac Zify.zify_post_hook ::= idtac.

(** ** Shard files *)

Lemma positions_length at_ items : length (positions at_ items) = S (length items).
Proof. revert at_. induction items as [|x items IH]; intros at_; cbn [positions length]; [reflexivity|]. rewrite IH. reflexivity. Qed.

Lemma positions_nth items : forall at_ i, i <= length items ->
  nth_error (positions at_ items) i = Some (at_ + blen (concat (firstn i items)))%N.
Proof.
  induction items as [|x items IH]; intros at_ [|i] Hi; cbn [positions nth_error firstn concat]; cbn [length] in Hi; try lia.
  - rewrite N.add_0_r. reflexivity.
  - rewrite N.add_0_r. reflexivity.
  - rewrite IH by lia. rewrite blen_app. f_equal. lia.
Qed.

Lemma mds_file_length config items :
  blen (mds_file config items) = (4 + 4 * (N.of_nat (length items) + 1) + blen config + blen (concat items))%N.
Proof.
  unfold mds_file. rewrite !blen_app. unfold blen at 1 2. rewrite flat_map_le32_length, positions_length, le32_length. lia.
Qed.

Lemma load_mds config items i x begin :
  (blen (mds_file config items) < two32)%N -> nth_error items i = Some x ->
  load_item (mds_file config items) (begin + i) begin = Ok x.
Proof.
  intros H Hx. rewrite mds_file_length in H.
  assert (Hi : i < length items) by (apply nth_error_Some; congruence).
  unfold load_item, item_offset. replace (begin <=? begin + i) with true by (symmetry; apply Nat.leb_le; lia).
  replace (begin + i - begin) with i by lia. unfold load_data, mds_file.
  set (h := (4 + 4 * (N.of_nat (length items) + 1) + blen config)%N) in *.
  rewrite (read_pair (positions h items) _ (config ++ concat items) i _ _ (positions_nth items h i ltac:(lia)) (positions_nth items h (S i) ltac:(lia))).
  set (p := blen (concat (firstn i items))).
  assert (Hp : blen (concat (firstn (S i) items)) = (p + blen x)%N).
  { unfold p. rewrite <- blen_app. f_equal.
    assert (Ef : firstn (S i) items = firstn i items ++ [x]).
    { clear -Hx. revert i Hx; induction items as [|y items IH]; intros [|i] Hx; try discriminate.
      - injection Hx as ->. reflexivity.
      - change (firstn (S (S i)) (y :: items)) with (y :: firstn (S i) items). rewrite (IH i Hx). reflexivity. }
    rewrite Ef, concat_app. cbn. rewrite app_nil_r. reflexivity. }
  rewrite Hp.
  assert (Ht : (h + (p + blen x) < two32)%N).
  { rewrite (concat_split items i x Hx) in H. rewrite !blen_app in H. fold p in H. lia. }
  replace (le32 (h + p) ++ le32 (h + (p + blen x))) with (flat_map le32 [h + p; h + (p + blen x)]%N) by reflexivity.
  rewrite frombuffer_le32_nil by (repeat constructor; lia). cbn [bind]. f_equal.
  replace (h + (p + blen x) + two32 - (h + p))%N with (blen x + 1 * two32)%N by lia.
  rewrite N.mod_add by discriminate. rewrite N.mod_small by lia.
  unfold read_at, blen at 1. rewrite Nat2N.id.
  rewrite (concat_split items i x Hx).
  set (n := le32 (N.of_nat (length items))). set (ps := flat_map le32 (positions h items)).
  replace (n ++ ps ++ config ++ concat (firstn i items) ++ x ++ concat (skipn (S i) items))
    with ((n ++ ps ++ config ++ concat (firstn i items)) ++ x ++ concat (skipn (S i) items))
    by (rewrite <- !app_assoc; reflexivity).
  rewrite skipn_app_exact; [apply firstn_app_exact; reflexivity|].
  unfold n, ps. rewrite !app_length, flat_map_le32_length, positions_length, le32_length. unfold h, p, blen. lia.
Qed.

(** ** Samples *)

Lemma item_encode decode cols vs bs : values_ok decode cols vs bs ->
  mds_item cols bs = mds_encode (map size_or_zero (map col_size cols)) bs /\
  Forall2 (fun c d => c = 0%N \/ c = blen d) (map size_or_zero (map col_size cols)) bs /\ length vs = length cols /\ length bs = length cols.
Proof.
  intros H. unfold mds_item, mds_encode.
  assert (G : size_head cols bs = flat_map (fun cd => if (fst cd =? 0)%N then le32 (blen (snd cd)) else []) (combine (map size_or_zero (map col_size cols)) bs) /\
     Forall2 (fun c d => c = 0%N \/ c = blen d) (map size_or_zero (map col_size cols)) bs /\ length vs = length cols /\ length bs = length cols).
  { induction H as [|c v b cs vs bs Hv Hs H (IH1 & IH2 & IH3 & IH4)]; [repeat split; constructor|].
    cbn [size_head map combine flat_map fst snd length]. destruct (col_size c) as [n|]; cbn [size_or_zero].
    - destruct (Hs n eq_refl) as [Hn Hb]. destruct (N.eqb_spec n 0); [lia|]. cbn [app].
      repeat split; [exact IH1|constructor; [right; congruence|exact IH2]|congruence|congruence].
    - cbn [N.eqb]. rewrite IH1. repeat split; [constructor; [left; reflexivity|exact IH2]|congruence|congruence]. }
  destruct G as (-> & G). split; [reflexivity|exact G].
Qed.

Section Values.
Context (unpickle : bytes -> res leaf) (decode : str -> bytes -> res leaf).

Lemma value_entry e v b : mds_value decode e v b -> exists en, entry_of e = Ok en /\ decode_entry unpickle decode en b = Ok v.
Proof.
  destruct 1 as [z Hz|s b E|b|w h mode m raw Hw Hh E Hm|v b E].
  - exists (Entry (Fmt SInt None)). split; [reflexivity|]. cbn [decode_entry deserialize].
    assert (E : int64 z = Ok (le 8 (Z.to_N (z mod 2 ^ 64)))).
    { unfold int64. change two63 with (2 ^ 63)%Z. change two64 with (2 ^ 64)%Z. replace ((- 2 ^ 63 <=? z) && (z <? 2 ^ 63))%Z with true by lia. reflexivity. }
    destruct (int64_ok z _ E) as [L U]. rewrite (whole_ok 8 1) by (rewrite ?L; lia). cbn [bind Nat.eqb].
    rewrite firstn_all2 by lia. rewrite U. reflexivity.
  - exists (Entry (Fmt SStr None)). split; [reflexivity|]. cbn [decode_entry deserialize]. rewrite (un_utf8_utf8 s b E). reflexivity.
  - exists (Entry (Fmt SBytes None)). split; reflexivity.
  - exists (Entry (Fmt SPil None)). split; [reflexivity|]. cbn [decode_entry deserialize].
    replace (le32 w ++ le32 h ++ le32 (blen m) ++ m ++ raw) with ((le32 w ++ le32 h ++ le32 (blen m)) ++ m ++ raw) by (rewrite <- !app_assoc; reflexivity).
    rewrite firstn_app_exact by reflexivity. rewrite skipn_app_exact by reflexivity.
    rewrite (frombuffer_cons w) by exact Hw. rewrite (frombuffer_cons h) by exact Hh.
    rewrite <- (app_nil_r (le32 (blen m))). rewrite (frombuffer_cons (blen m)) by exact Hm. cbn [frombuffer32 bind].
    unfold blen. rewrite Nat2N.id, firstn_app_exact, skipn_app_exact by reflexivity.
    rewrite (un_utf8_utf8 mode m E). reflexivity.
  - exists (Decoder (codes "jpeg")). split; [reflexivity|]. exact E.
Qed.

Lemma values_decode cols vs bs es : values_ok decode cols vs bs -> mapM entry_of (map col_encoding cols) = Ok es ->
  mapM (fun p => decode_entry unpickle decode (snd p) (fst p)) (combine bs es) = Ok vs.
Proof.
  intros H. revert es. induction H as [|c v b cs vs bs Hv Hs H IH]; intros es E; [cbn in E; injection E as <-; reflexivity|].
  cbn [map mapM] in E. destruct (value_entry _ _ _ Hv) as (en & E1 & E2). rewrite E1 in E. cbn [bind] in E.
  destruct (mapM entry_of (map col_encoding cs)) as [es'|]; cbn [bind] in E; [|discriminate]. injection E as <-.
  cbn [combine mapM fst snd]. rewrite E2. cbn [bind]. rewrite (IH es' eq_refl). reflexivity.
Qed.

End Values.

Definition col_spec (cols : list column) : spec key := SNode (NDict (map (fun c => KStr (col_name c)) cols)) (map (fun _ => SLeaf) cols).

Lemma dict_unflatten cols (vs : list leaf) : length vs = length cols -> unflatten (col_spec cols) vs = Ok (as_dict cols vs).
Proof.
  intros L. pose proof (unflatten_ok (fun x => x) (as_dict cols vs)) as H.
  assert (E1 : spec_of (as_dict cols vs) = col_spec cols).
  { unfold as_dict, col_spec. cbn [spec_of]. f_equal. rewrite map_map. cbn [spec_of]. clear H. revert cols L. induction vs as [|v vs IH]; intros [|c cols] L; try discriminate; [reflexivity|].
    cbn [map]. f_equal. apply IH. cbn in L. lia. }
  assert (E2 : leaves (as_dict cols vs) = vs).
  { unfold as_dict. cbn [leaves]. clear. induction vs as [|v vs IH]; [reflexivity|]. cbn [map flat_map leaves app]. f_equal. exact IH. }
  assert (E3 : tmap (fun x : leaf => x) (as_dict cols vs) = as_dict cols vs).
  { unfold as_dict. cbn [tmap]. f_equal. rewrite map_map. reflexivity. }
  rewrite E1, E2, map_id, E3 in H. apply H. unfold as_dict. cbn [tree_valid]. split.
  - cbn [node_valid]. clear. induction cols as [|c cols IH]; [reflexivity|]. cbn [map forallb hashable]. exact IH.
  - clear. induction vs; cbn; auto.
Qed.

(** ** Opening *)

Definition chunk_of (compress : bytes -> bytes) (cols : list column) (w : wshard) : mchunk :=
  MChunk (zip_name w) (blen (zip_file compress cols w)) (length (w_values w)) (map col_size cols).

Lemma mapM_map {A B C} (f : B -> res C) (g : A -> B) (h : A -> C) l : (forall x, f (g x) = Ok (h x)) -> mapM f (map g l) = Ok (map h l).
Proof. intros H. induction l as [|x l IH]; [reflexivity|]. cbn [map mapM]. rewrite H. cbn [bind]. rewrite IH. reflexivity. Qed.

Lemma shared_known e : In e (map codes shared_encodings) -> exists en, entry_of e = Ok en.
Proof. cbn [map shared_encodings In]. intros H. repeat (destruct H as [<-|H]; [eexists; reflexivity|]). destruct H. Qed.

Lemma shared_entries cols : Forall (fun c => In (col_encoding c) (map codes shared_encodings)) cols ->
  exists es, mapM entry_of (map col_encoding cols) = Ok es /\ length es = length cols.
Proof.
  induction 1 as [|c cols Hc _ (es & E & L)]; [exists []; split; reflexivity|].
  destruct (shared_known _ Hc) as (en & E1). exists (en :: es). cbn [map mapM length]. rewrite E1. cbn [bind]. rewrite E. cbn [bind]. split; [reflexivity|congruence].
Qed.

Lemma shared_validate cols : Forall (fun c => In (col_encoding c) (map codes shared_encodings)) cols -> validate (map col_encoding cols) = Ok tt.
Proof.
  intros H. destruct cols as [|c [|c' cols]]; [reflexivity| |reflexivity]. inversion H as [|? ? Hc _]; subst. cbn [map validate].
  revert Hc. cbn [map shared_encodings In]. intros G. repeat (destruct G as [<-|G]; [reflexivity|]). destruct G.
Qed.

Lemma compressor_found comp : In comp compressors -> comp <> [] -> find_compressor (Some comp) = Ok (Some comp).
Proof.
  intros H Hn. destruct comp as [|x comp]; [congruence|]. unfold find_compressor.
  assert (E : existsb (fun y => if list_eq_dec N.eq_dec (x :: comp) y then true else false) compressors = true).
  { apply existsb_exists. exists (x :: comp). split; [exact H|]. destruct (list_eq_dec N.eq_dec (x :: comp) (x :: comp)); [reflexivity|contradiction]. }
  rewrite E. reflexivity.
Qed.

Lemma compressors_nonempty comp : In comp compressors -> comp <> [].
Proof. unfold compressors. intros [<-|H]; [discriminate|]. apply in_map_iff in H. destruct H as (k & <- & _). discriminate. Qed.

Definition opened_as (comp : str) (compress : bytes -> bytes) (cols : list column) (ws : list wshard) (cache : str)
           (remote : option (str -> option bytes)) (es : list entry) : mopen :=
  MOpen cache remote (map (chunk_of compress cols) ws) (codes "mds") es (col_spec cols) (Some comp)
        (full_ivs 0 (map (fun w => length (w_values w)) ws)).

Lemma open_ok comp compress cols ws cache remote :
  In comp compressors -> ws <> [] -> Forall (fun c => In (col_encoding c) (map codes shared_encodings)) cols ->
  exists es, mapM entry_of (map col_encoding cols) = Ok es /\ length es = length cols /\
    open_mds cache remote (map (zipped comp compress cols) ws) = Ok (opened_as comp compress cols ws cache remote es).
Proof.
  intros Hc Hne Hs. destruct (shared_entries cols Hs) as (es & E & L). exists es. split; [exact E|]. split; [exact L|].
  unfold open_mds, adapt. rewrite (mapM_map adapt_shard (zipped comp compress cols) (chunk_of compress cols)) by reflexivity. cbn [bind].
  destruct ws as [|w ws]; [congruence|]. cbn [map]. cbn [zipped s_compression s_encodings s_format s_names i_format bind].
  rewrite shared_validate by exact Hs. cbn [bind i_spec].
  assert (Esp : spec_of_json (fun _ => false) (SNode (NDict (map JStr (map col_name cols))) (map (fun _ => SLeaf) (map col_name cols))) = Ok (col_spec cols)).
  { cbn [spec_of_json kind_of_json bind]. rewrite (mapM_map (spec_of_json (fun _ => false)) (fun _ : str => SLeaf) (fun _ => SLeaf)) by reflexivity. cbn [bind].
    unfold col_spec. f_equal. f_equal; [f_equal|]; rewrite !map_map; reflexivity. }
  rewrite Esp. cbn [bind]. rewrite E. cbn [bind i_chunks i_compression i_kind].
  change (chunk_of compress cols w :: map (chunk_of compress cols) ws) with (map (chunk_of compress cols) (w :: ws)).
  rewrite map_map. cbn [chunk_of c_samples].
  unfold generate_intervals. pose proof (loop_full (map (fun w => length (w_values w)) (w :: ws)) [] 0) as Hl. cbn [length app] in Hl.
  rewrite Hl. cbn [bind]. rewrite compressor_found by (auto using compressors_nonempty). cbn [bind]. reflexivity.
Qed.

Lemma full_ivs_last sizes : forall b d, sizes <> [] -> last (map iv_end (full_ivs b sizes)) d = b + sum sizes.
Proof.
  induction sizes as [|n sizes IH]; intros b d H; [congruence|]. cbn [full_ivs map]. destruct sizes as [|m sizes].
  - cbn. lia.
  - change (last (iv_end (Iv b (b + 0) (b + n) (b + n)) :: map iv_end (full_ivs (b + n) (m :: sizes))) d) with (last (map iv_end (full_ivs (b + n) (m :: sizes))) d).
    rewrite IH by discriminate. cbn [sum]. lia.
Qed.

Lemma all_values_length ws : length (all_values ws) = sum (map (fun w => length (w_values w)) ws).
Proof. unfold all_values. induction ws as [|w ws IH]; [reflexivity|]. cbn [flat_map map sum]. rewrite app_length, IH. reflexivity. Qed.

Lemma opened_length comp compress cols ws cache remote es : ws <> [] ->
  mds_length (opened_as comp compress cols ws cache remote es) = length (all_values ws).
Proof.
  intros H. unfold mds_length, opened_as. cbn [o_ivs]. rewrite full_ivs_last; [|destruct ws; [congruence|discriminate]]. rewrite all_values_length. reflexivity.
Qed.

(** ** Which shard and which position inside it *)

Fixpoint locate (k b : nat) (ws : list wshard) (i : nat) : option (nat * nat * wshard) :=
  match ws with
  | [] => None
  | w :: ws' => if i <? length (w_values w) then Some (k, b, w) else locate (S k) (b + length (w_values w)) ws' (i - length (w_values w))
  end.

Lemma locate_address ws : forall k b i,
  nth_error (addresses k (full_ivs b (map (fun w => length (w_values w)) ws))) i =
  match locate k b ws i with Some (k', _, _) => Some (b + i, k') | None => None end.
Proof.
  induction ws as [|w ws IH]; intros k b i; [destruct i; reflexivity|].
  cbn [map full_ivs addresses iv_rs iv_re locate]. replace (b + length (w_values w) - (b + 0)) with (length (w_values w)) by lia. rewrite Nat.add_0_r.
  destruct (Nat.ltb_spec i (length (w_values w))) as [H|H].
  - rewrite nth_error_app1 by (rewrite map_length, seq_length; exact H). rewrite nth_error_map, nth_error_seq by exact H. reflexivity.
  - rewrite nth_error_app2 by (rewrite map_length, seq_length; exact H). rewrite map_length, seq_length, IH.
    destruct (locate (S k) (b + length (w_values w)) ws (i - length (w_values w))) as [[[k' b'] w']|]; [|reflexivity].
    f_equal. f_equal. lia.
Qed.

Lemma locate_spec ws : forall k b i k' b' w, locate k b ws i = Some (k', b', w) ->
  k <= k' /\ nth_error ws (k' - k) = Some w /\ b' <= b + i /\
  nth_error (full_ivs b (map (fun w => length (w_values w)) ws)) (k' - k) = Some (Iv b' (b' + 0) (b' + length (w_values w)) (b' + length (w_values w))) /\
  b + i - b' < length (w_values w) /\ nth_error (all_values ws) i = nth_error (w_values w) (b + i - b') /\ shard_at ws i = Some w.
Proof.
  induction ws as [|w0 ws IH]; intros k b i k' b' w H; [discriminate|]. cbn [locate] in H. cbn [shard_at].
  destruct (Nat.ltb_spec i (length (w_values w0))) as [Hi|Hi].
  - injection H as <- <- <-. rewrite Nat.sub_diag. replace (b + i - b) with i by lia. cbn [nth_error map full_ivs].
    repeat split; try lia. unfold all_values. cbn [flat_map]. apply nth_error_app1. exact Hi.
  - destruct (IH _ _ _ _ _ _ H) as (H1 & H2 & H3 & H4 & H5 & H6 & H7). replace (k' - k) with (S (k' - S k)) by lia. cbn [nth_error map full_ivs].
    replace (b + length (w_values w0) + (i - length (w_values w0))) with (b + i) in * by lia.
    repeat split; try lia; try assumption. unfold all_values. cbn [flat_map]. rewrite nth_error_app2 by exact Hi. exact H6.
Qed.

Lemma locate_none ws : forall k b i, locate k b ws i = None -> nth_error (all_values ws) i = None /\ shard_at ws i = None.
Proof.
  induction ws as [|w0 ws IH]; intros k b i H; [destruct i; split; reflexivity|]. cbn [locate] in H. cbn [shard_at].
  destruct (Nat.ltb_spec i (length (w_values w0))) as [Hi|Hi]; [discriminate|]. destruct (IH _ _ _ H) as [H1 H2].
  split; [|exact H2]. unfold all_values. cbn [flat_map]. rewrite nth_error_app2 by exact Hi. exact H1.
Qed.

(** ** Paths *)

Lemma replace_end x s raw : ~ In x s -> contains (x :: s) raw = false -> replace (x :: s) [] (raw ++ x :: s) = raw.
Proof.
  intros Hx. induction raw as [|c raw IH]; intros H.
  - cbn [app]. pose proof (replace_start (x :: s) [] [] ltac:(discriminate)) as E. rewrite app_nil_r in E. rewrite E. reflexivity.
  - cbn [contains] in H. apply orb_false_iff in H. destruct H as [H1 H2]. cbn [app]. rewrite replace_cons; [rewrite IH by exact H2; reflexivity|].
    cbn [starts] in *. rewrite starts_before by exact Hx. exact H1.
Qed.

Section Dataset.
Context (compress : bytes -> bytes) (decompress : bytes -> res bytes) (unpickle : bytes -> res leaf) (decode : str -> bytes -> res leaf).
Context (cols : list column) (ws : list wshard) (cache : str) (remote : option (str -> option bytes)) (es : list entry).
Context (Hcodec : lossless compress decompress) (Hdir : plain_dir cache) (Hok : mds_ok decode cols ws).
Context (Hes : mapM entry_of (map col_encoding cols) = Ok es) (Les : length es = length cols).

Lemma shard_in w : In w ws -> shard_ok decode cols w.
Proof. intros H. destruct Hok as (_ & _ & _ & F). rewrite Forall_forall in F. exact (F w H). Qed.

Lemma zip_start w : In w ws -> starts [slash] (zip_name w) = false.
Proof.
  intros H. destruct (shard_in w H) as (_ & _ & Hs & _). unfold zip_name. destruct (w_raw w) as [|c r]; [reflexivity|].
  cbn [app starts]. rewrite andb_true_r. destruct (N.eqb_spec slash c) as [<-|]; [|reflexivity]. destruct Hs. left. reflexivity.
Qed.

Lemma path_as comp w : In w ws ->
  path_of (opened_as comp compress cols ws cache remote es) (chunk_of compress cols w) = cache ++ slash :: zip_name w.
Proof.
  intros H. unfold path_of. cbn [opened_as o_cache chunk_of c_name]. destruct Hdir as [[H1 H2] _].
  apply join_plain; [exact H1|exact H2|apply zip_start; exact H].
Qed.

Lemma target_as w : In w ws ->
  target_of (opened_as (codes "zstd") compress cols ws cache remote es) (chunk_of compress cols w) = cache ++ slash :: w_raw w.
Proof.
  intros H. unfold target_of. cbn [opened_as o_comp]. rewrite (path_as (codes "zstd") w H). destruct Hdir as [_ Hn].
  rewrite replace_before; [|discriminate| |exact Hn].
  - f_equal. f_equal. destruct (shard_in w H) as (_ & _ & _ & Hc). unfold zip_name. apply replace_end; [|exact Hc].
    cbn. unfold dot. intros G. repeat (destruct G as [G|G]; [discriminate|]). exact G.
  - cbn. unfold dot, slash. intros G. repeat (destruct G as [G|G]; [discriminate|]). exact G.
Qed.

Lemma raw_inj w w' : In w ws -> In w' ws -> w_raw w = w_raw w' -> w = w'.
Proof.
  intros H H' E. destruct Hok as (_ & Hnd & _). clear -Hnd H H' E. induction ws as [|x l IH]; [destruct H|].
  cbn [map] in Hnd. inversion Hnd as [|? ? Hn Hnd']; subst. destruct H as [->|H], H' as [->|H']; auto.
  - destruct Hn. rewrite E. apply in_map. exact H'.
  - destruct Hn. rewrite <- E. apply in_map. exact H.
Qed.

Lemma target_inj w w' : In w ws -> In w' ws -> cache ++ slash :: w_raw w = cache ++ slash :: w_raw w' -> w = w'.
Proof. intros H H' E. apply app_inv_head in E. injection E as E. apply raw_inj; assumption. Qed.

Lemma path_inj w w' : In w ws -> In w' ws -> cache ++ slash :: zip_name w = cache ++ slash :: zip_name w' -> w = w'.
Proof. intros H H' E. apply app_inv_head in E. injection E as E. unfold zip_name in E. apply app_inv_tail in E. apply raw_inj; assumption. Qed.

Lemma path_target w w' : In w ws -> In w' ws -> cache ++ slash :: zip_name w <> cache ++ slash :: w_raw w'.
Proof.
  intros H H' E. apply app_inv_head in E. injection E as E. destruct (shard_in w' H') as (_ & _ & _ & Hc). rewrite <- E in Hc.
  unfold zip_name in Hc. pose proof (Names_Proofs.contains_app (w_raw w) (codes ".zstd") []) as G. rewrite app_nil_r in G. congruence.
Qed.

Notation o := (opened_as (codes "zstd") compress cols ws cache remote es).
Notation chunk w := (chunk_of compress cols w).
Notation raw w := (raw_file cols w).
Notation zip w := (zip_file compress cols w).

Definition remote_ok : Prop :=
  match remote with None => True | Some store => forall w, In w ws -> store (zip_name w) = Some (zip w) end.

Definition dinv (d : files) : Prop := forall w, In w ws ->
  (d (cache ++ slash :: w_raw w) = None \/ d (cache ++ slash :: w_raw w) = Some (raw w)) /\
  (d (cache ++ slash :: zip_name w) = Some (zip w) \/ (remote <> None /\ d (cache ++ slash :: zip_name w) = None)).
Definition hinv (h : option (str * bytes)) : Prop :=
  match h with
  | None => True
  | Some (p, f) => exists w, In w ws /\ p = cache ++ slash :: w_raw w /\ f = raw w /\ (blen (zip w) <= blen (raw w))%N
  end.

Lemma set_target_dinv d w v : In w ws -> dinv d -> v = None \/ v = Some (raw w) -> dinv (set_file d (cache ++ slash :: w_raw w) v).
Proof.
  intros H Hd Hv w' H'. destruct (Hd w' H') as [H1 H2]. split.
  - destruct (list_eq_dec N.eq_dec (cache ++ slash :: w_raw w') (cache ++ slash :: w_raw w)) as [E|E].
    + rewrite E, set_same. apply target_inj in E; [|assumption..]. subst w'. exact Hv.
    + rewrite set_other by exact E. exact H1.
  - rewrite set_other by (apply path_target; assumption). exact H2.
Qed.

Lemma set_path_dinv d w v : In w ws -> dinv d -> v = Some (zip w) \/ (remote <> None /\ v = None) -> dinv (set_file d (cache ++ slash :: zip_name w) v).
Proof.
  intros H Hd Hv w' H'. destruct (Hd w' H') as [H1 H2]. split.
  - rewrite set_other by (intros E; symmetry in E; revert E; apply path_target; assumption). exact H1.
  - destruct (list_eq_dec N.eq_dec (cache ++ slash :: zip_name w') (cache ++ slash :: zip_name w)) as [E|E].
    + rewrite E, set_same. apply path_inj in E; [|assumption..]. subst w'. exact Hv.
    + rewrite set_other by exact E. exact H2.
Qed.

Lemma try_ok d w : In w ws -> dinv d -> d (cache ++ slash :: zip_name w) = Some (zip w) ->
  dinv (try_decompress decompress o (chunk w) d) /\ try_decompress decompress o (chunk w) d (cache ++ slash :: w_raw w) = Some (raw w).
Proof.
  intros H Hd Hp. unfold try_decompress. rewrite (target_as w H), (path_as _ w H), Hp. cbn [opened_as o_comp o_remote].
  destruct (Hd w H) as [[H1|H1] _]; rewrite H1; [|split; assumption].
  unfold zip_file. rewrite Hcodec. fold (zip w). split.
  - apply set_target_dinv; [exact H| |right; reflexivity]. destruct remote eqn:E; [|exact Hd].
    apply set_path_dinv; [exact H|exact Hd|right; rewrite E; split; [discriminate|reflexivity]].
  - apply set_same.
Qed.

Lemma prepare_ok d w : remote_ok -> In w ws -> dinv d ->
  dinv (prepare decompress o (chunk w) d) /\ prepare decompress o (chunk w) d (cache ++ slash :: w_raw w) = Some (raw w).
Proof.
  intros Hr H Hd. unfold prepare. rewrite (path_as _ w H).
  destruct (Hd w H) as [_ [H2|[Hn H2]]]; rewrite H2; [apply try_ok; assumption|].
  cbn [opened_as o_remote]. unfold remote_ok in Hr. destruct remote as [store|] eqn:E; [|congruence].
  cbn [chunk_of c_name]. rewrite (Hr w H). rewrite <- E. apply try_ok; [exact H| |apply set_same].
  apply set_path_dinv; [exact H|exact Hd|left; reflexivity].
Qed.

Lemma threaded_true : threaded o = true.
Proof. unfold threaded. cbn [opened_as o_remote o_comp]. destruct remote; reflexivity. Qed.

Lemma decode_item_ok w vs bs : In w ws -> values_ok decode cols vs bs -> (blen (mds_item cols bs) < two32)%N ->
  decode_item unpickle decode o (chunk w) (mds_item cols bs) = Ok (as_dict cols vs).
Proof.
  intros H Hv Hl. destruct (item_encode decode cols vs bs Hv) as (E & F & L1 & L2). unfold decode_item. cbn [opened_as o_kind chunk_of c_sizes o_entries o_spec].
  destruct (list_eq_dec N.eq_dec (codes "mds") (codes "mds")) as [_|G]; [|congruence].
  rewrite E in *. rewrite Les, <- L2, mds_decode_encode by assumption. cbn [bind].
  rewrite (values_decode unpickle decode cols vs bs es Hv Hes). cbn [bind]. apply dict_unflatten. exact L1.
Qed.

Lemma read_ok w b p vs : In w ws -> nth_error (w_values w) p = Some vs ->
  bind (load_item (raw w) (b + p) b) (decode_item unpickle decode o (chunk w)) = Ok (as_dict cols vs).
Proof.
  intros H Ev. destruct (shard_in w H) as (F & Hl & _).
  assert (G : exists bs, nth_error (w_data w) p = Some bs /\ values_ok decode cols vs bs).
  { clear -F Ev. revert p Ev. induction F as [|x y l l' Hxy F IH]; intros [|p] Ev; try discriminate.
    - injection Ev as ->. exists y. split; [reflexivity|exact Hxy].
    - apply IH. exact Ev. }
  destruct G as (bs & Eb & Hv).
  assert (Ei : nth_error (map (mds_item cols) (w_data w)) p = Some (mds_item cols bs)) by (rewrite nth_error_map, Eb; reflexivity).
  unfold raw_file. rewrite (load_mds _ _ _ _ b Hl Ei). cbn [bind]. apply decode_item_ok; [exact H|exact Hv|].
  unfold raw_file in Hl. rewrite mds_file_length, (concat_split _ _ _ Ei), !blen_app in Hl. lia.
Qed.

Definition answer (i : Z) : res (tree leaf) :=
  match at_index (all_values ws) i, shard_at ws (Z.to_nat i) with
  | Some vs, Some w => if (blen (zip w) <=? blen (raw w))%N then Ok (as_dict cols vs) else Err FileNotFoundError
  | _, _ => Err ValueError
  end.

Lemma get_ok i s : remote_ok -> dinv (fst s) -> hinv (snd s) ->
  fst (mds_get decompress unpickle decode o i s) = answer i /\
  dinv (fst (snd (mds_get decompress unpickle decode o i s))) /\ hinv (snd (snd (mds_get decompress unpickle decode o i s))).
Proof.
  intros Hr Hd Hh. unfold mds_get. rewrite get_chunk_index_spec. unfold answer, at_index.
  change (o_ivs o) with (full_ivs 0 (map (fun w => length (w_values w)) ws)). change (o_chunks o) with (map (chunk_of compress cols) ws).
  destruct (Z.ltb_spec i 0) as [Hi|Hi]; [cbn [fst snd]; auto|].
  rewrite locate_address. destruct (locate 0 0 ws (Z.to_nat i)) as [[[k b] w]|] eqn:El.
  2:{ destruct (locate_none _ _ _ _ El) as [-> _]. cbn [fst snd]. auto. }
  destruct (locate_spec _ _ _ _ _ _ _ El) as (_ & Ek & Hb & Eiv & Hlt & Ev & Es). rewrite Nat.sub_0_r in *. cbn [Nat.add] in *.
  rewrite nth_error_map, Ek, Eiv, Ev, Es. cbn [option_map iv_start].
  assert (Hw : In w ws) by (eapply nth_error_In; exact Ek).
  destruct (nth_error (w_values w) (Z.to_nat i - b)) as [vs|] eqn:Evs; [|apply nth_error_None in Evs; lia].
  pose proof (read_ok w b (Z.to_nat i - b) vs Hw Evs) as Hread. replace (b + (Z.to_nat i - b)) with (Z.to_nat i) in Hread by lia.
  destruct s as [d h]. cbn [fst snd] in *.
  destruct (prepare_ok d w Hr Hw Hd) as [Hd' Ht'].
  assert (Hother : snd (d, h) = None \/ (exists q f, snd (d, h) = Some (q, f) /\ q <> cache ++ slash :: w_raw w) \/
                   (snd (d, h) = Some (cache ++ slash :: w_raw w, raw w) /\ (blen (zip w) <= blen (raw w))%N)).
  { cbn [snd]. destruct h as [[q f]|]; [right|left; reflexivity]. destruct Hh as (w' & Hw' & -> & -> & Hle).
    destruct (list_eq_dec N.eq_dec (cache ++ slash :: w_raw w') (cache ++ slash :: w_raw w)) as [E|E].
    - right. apply target_inj in E; [|assumption..]. subst w'. auto.
    - left. eauto. }
  cbn [snd] in Hother.
  assert (Hopen : h = Some (cache ++ slash :: w_raw w, raw w) /\ (blen (zip w) <= blen (raw w))%N \/
                  open_file o (chunk w) (ask decompress o (chunk w) (d, h)) =
                  (if (blen (zip w) <=? blen (raw w))%N then (Ok (raw w), (prepare decompress o (chunk w) d, Some (cache ++ slash :: w_raw w, raw w)))
                   else (Err FileNotFoundError, (prepare decompress o (chunk w) d, h)))).
  { destruct Hother as [->|[(q & f & -> & Hq)|G]]; [right|right|left; exact G];
      unfold ask, open_file; rewrite (target_as w Hw), threaded_true; cbn [fst snd].
    - rewrite Ht'. cbn [chunk_of c_bytes]. destruct (blen (zip w) <=? blen (raw w))%N; reflexivity.
    - destruct (list_eq_dec N.eq_dec q (cache ++ slash :: w_raw w)) as [G|_]; [contradiction|]. cbn [fst snd].
      destruct (list_eq_dec N.eq_dec q (cache ++ slash :: w_raw w)) as [G|_]; [contradiction|].
      rewrite Ht'. cbn [chunk_of c_bytes]. destruct (blen (zip w) <=? blen (raw w))%N; reflexivity. }
  destruct Hopen as [[-> Hle]|E].
  - assert (E : open_file o (chunk w) (ask decompress o (chunk w) (d, Some (cache ++ slash :: w_raw w, raw w))) = (Ok (raw w), (d, Some (cache ++ slash :: w_raw w, raw w)))).
    { unfold ask, open_file. rewrite (target_as w Hw). cbn [fst snd].
      destruct (list_eq_dec N.eq_dec (cache ++ slash :: w_raw w) (cache ++ slash :: w_raw w)) as [_|G]; [|congruence]. cbn [fst snd].
      destruct (list_eq_dec N.eq_dec (cache ++ slash :: w_raw w) (cache ++ slash :: w_raw w)) as [_|G]; [|congruence]. reflexivity. }
    match goal with |- context [open_file ?a ?b ?c] => replace (open_file a b c) with (Ok (A := bytes) (raw w), (d, Some (cache ++ slash :: w_raw w, raw w)) : mstate) by (symmetry; exact E) end.
    cbn [fst snd bind]. destruct (N.leb_spec (blen (zip w)) (blen (raw w))); [|lia]. auto.
  - match type of E with _ = ?r => match goal with |- context [open_file ?a ?b ?c] => replace (open_file a b c) with r by (symmetry; exact E) end end.
    destruct (N.leb_spec (blen (zip w)) (blen (raw w))) as [Hle|Hgt]; cbn [fst snd bind]; [|auto].
    split; [exact Hread|]. split; [exact Hd'|]. exists w. auto.
Qed.

Lemma run_ok evs : remote_ok -> forall s, dinv (fst s) -> hinv (snd s) ->
  mds_run decompress unpickle decode o evs s = map (fun i => (i, answer i)) (gets evs).
Proof.
  intros Hr. induction evs as [|e evs IH]; intros s Hd Hh; [reflexivity|]. cbn [mds_run].
  destruct e as [i|k|k]; cbn [mds_step gets flat_map app].
  - destruct (get_ok i s Hr Hd Hh) as (E & Hd' & Hh'). destruct (mds_get decompress unpickle decode o i s) as [r s']. cbn [fst snd] in *.
    subst r. cbn [map]. f_equal. apply IH; assumption.
  - fold (gets evs). change (o_chunks o) with (map (chunk_of compress cols) ws). rewrite nth_error_map. destruct (nth_error ws k) as [w|] eqn:Ek; cbn [option_map]; [|apply IH; assumption].
    rewrite threaded_true. apply IH; [|exact Hh]. cbn [fst]. apply prepare_ok; [exact Hr|eapply nth_error_In; exact Ek|exact Hd].
  - fold (gets evs). change (o_chunks o) with (map (chunk_of compress cols) ws). rewrite nth_error_map. destruct (nth_error ws k) as [w|] eqn:Ek; cbn [option_map]; [|apply IH; assumption].
    assert (Hw : In w ws) by (eapply nth_error_In; exact Ek).
    rewrite threaded_true. apply IH; [|exact Hh]. cbn [fst]. rewrite (target_as w Hw). apply set_target_dinv; [exact Hw|exact Hd|left; reflexivity].
Qed.

Lemma stored_inv d : stored compress cols ws cache remote d -> dinv d /\ remote_ok.
Proof.
  intros H. split.
  - intros w Hw. destruct (H w Hw) as [H1 H2]. split; [left; exact H1|]. destruct remote; [right; split; [discriminate|apply H2]|left; exact H2].
  - unfold remote_ok. destruct remote as [store|] eqn:E; [|exact I]. intros w Hw. apply (H w Hw).
Qed.

End Dataset.

(** ** The whole *)

Theorem mds_all compress decompress unpickle decode cols ws cache remote d :
  lossless compress decompress -> plain_dir cache -> mds_ok decode cols ws -> stored compress cols ws cache remote d ->
  exists o, open_mds cache remote (map (zipped (codes "zstd") compress cols) ws) = Ok o /\
    mds_length o = length (all_values ws) /\
    forall evs, mds_run decompress unpickle decode o evs (d, None) = map (fun i => (i, answer compress cols ws i)) (gets evs).
Proof.
  intros Hc Hd Hok Hs. assert (Hin : In (codes "zstd") compressors) by (left; reflexivity).
  destruct (open_ok (codes "zstd") compress cols ws cache remote Hin (proj1 Hok) (proj1 (proj2 (proj2 Hok)))) as (es & E1 & E2 & E3).
  eexists. split; [exact E3|]. split; [apply opened_length; apply Hok|]. intros evs.
  destruct (stored_inv compress cols ws cache remote d Hs) as [Hi Hr].
  apply run_ok with (1 := Hc) (2 := Hd) (3 := Hok); auto. exact I.
Qed.

(** ** Without compression *)

Lemma adapt_refused shards : Exists (fun s => s_zip s = None) shards -> mapM adapt_shard shards = Err TypeError.
Proof.
  intros H. induction shards as [|s shards IH]; [inversion H|]. cbn [mapM]. unfold adapt_shard at 1.
  destruct (s_zip s) as [[n b]|] eqn:E; [|reflexivity]. cbn [bind]. inversion H as [? ? G|? ? G]; subst; [congruence|].
  change ((fix go (l : list shard) : res (list mchunk) := match l with [] => Ok [] | x :: l' => bind (adapt_shard x) (fun y => bind (go l') (fun ys => Ok (y :: ys))) end) shards)
    with (mapM adapt_shard shards). rewrite (IH G). reflexivity.
Qed.

(** ** A level of compression *)

Lemma starts_longer p q s : starts (p ++ q) s = true -> starts p s = true.
Proof. rewrite !starts_iff. intros (r & ->). exists (q ++ r). rewrite <- app_assoc. reflexivity. Qed.

Lemma replace_level x s y t raw : ~ In x s -> ~ In x (y :: t) -> contains (x :: s) raw = false ->
  replace ((x :: s) ++ y :: t) [] (raw ++ x :: s) = raw ++ x :: s.
Proof.
  intros Hx Hy. induction raw as [|c raw IH]; intros H.
  - cbn [app]. apply replace_none. cbn [contains]. apply orb_false_iff. split.
    + destruct (starts (x :: s ++ y :: t) (x :: s)) eqn:E; [|reflexivity]. apply starts_iff in E. destruct E as [r E].
      apply (f_equal (@length N)) in E. cbn [length] in E. rewrite app_length in E. cbn [length] in E. rewrite !app_length in E. cbn [length] in E. lia.
    + clear -Hx. induction s as [|a s IH] in t, y, Hx |- *; [reflexivity|].
      assert (G : forall l old, ~ In x l -> contains (x :: old) l = false).
      { clear. induction l as [|c l IH]; intros old H; [reflexivity|]. cbn [contains starts]. destruct (N.eqb_spec x c) as [->|]; [destruct H; left; reflexivity|].
        cbn [andb orb]. apply IH. intros G. apply H. right. exact G. }
      apply G. exact Hx.
  - cbn [contains] in H. apply orb_false_iff in H. destruct H as [H1 H2]. cbn [app]. rewrite replace_cons; [f_equal; apply IH; exact H2|].
    destruct (starts (x :: s ++ y :: t) (c :: raw ++ x :: s)) eqn:E; [|reflexivity]. change (x :: s ++ y :: t) with ((x :: s) ++ y :: t) in E.
    apply starts_longer in E. cbn [starts] in E, H1. rewrite starts_before in E by exact Hx. congruence.
Qed.

Lemma contains_longer p q s : contains p s = false -> contains (p ++ q) s = false.
Proof.
  induction s as [|c s IH]; cbn [contains]; intros H; apply orb_false_iff in H; destruct H as [H1 H2]; apply orb_false_iff; split.
  - destruct (starts (p ++ q) []) eqn:E; [apply starts_longer in E; congruence|reflexivity].
  - reflexivity.
  - destruct (starts (p ++ q) (c :: s)) eqn:E; [apply starts_longer in E; congruence|reflexivity].
  - apply IH. exact H2.
Qed.

Definition level_name (k : nat) : str := codes "zstd:" ++ dec k.

Lemma level_target decode compress cols ws cache remote es k w : plain_dir cache -> mds_ok decode cols ws -> In w ws ->
  target_of (opened_as (level_name k) compress cols ws cache remote es) (chunk_of compress cols w) = cache ++ slash :: zip_name w.
Proof.
  intros Hd Hok Hw. unfold target_of. cbn [opened_as o_comp].
  pose proof (path_as compress decode cols ws cache remote es Hd Hok (level_name k) w Hw) as E. unfold opened_as in E. cbn in E |- *.
  assert (E' : path_of (MOpen cache remote (map (chunk_of compress cols) ws) (codes "mds") es (col_spec cols) (Some (level_name k))
     (full_ivs 0 (map (fun w0 : wshard => length (w_values w0)) ws))) (chunk_of compress cols w) = cache ++ slash :: zip_name w) by exact E.
  change (replace (dot :: level_name k) [] (path_of (MOpen cache remote (map (chunk_of compress cols) ws) (codes "mds") es (col_spec cols) (Some (level_name k))
     (full_ivs 0 (map (fun w0 : wshard => length (w_values w0)) ws))) (chunk_of compress cols w)) = cache ++ slash :: zip_name w). rewrite E'. clear E E'.
  assert (Hdig : forall x, ~ (48 <= x <= 57)%N -> ~ In x (dec k)).
  { intros x Hx. apply Names_Proofs.digits_not with (1 := Names_Proofs.dec_digits k). exact Hx. }
  rewrite replace_before.
  - f_equal. f_equal. destruct Hok as (_ & _ & _ & F). rewrite Forall_forall in F. destruct (F w Hw) as (_ & _ & _ & Hc).
    unfold zip_name. change (dot :: level_name k) with ((dot :: codes "zstd") ++ colon :: dec k). apply (replace_level dot (codes "zstd")).
    + cbn. unfold dot. intros G. repeat (destruct G as [G|G]; [discriminate|]). exact G.
    + intros [G|G]; [discriminate|]. revert G. apply Hdig. unfold dot. lia.
    + exact Hc.
  - discriminate.
  - unfold level_name. intros [G|G]; [discriminate|]. apply in_app_or in G. destruct G as [G|G].
    + cbn in G. unfold slash in G. repeat (destruct G as [G|G]; [discriminate|]). exact G.
    + revert G. apply Hdig. unfold slash. lia.
  - change (dot :: level_name k) with (codes ".zstd" ++ colon :: dec k). apply contains_longer. apply Hd.
Qed.

Theorem level_reads compress decompress unpickle decode cols ws cache d k :
  plain_dir cache -> mds_ok decode cols ws -> stored compress cols ws cache None d -> 1 <= k <= 22 ->
  exists o, open_mds cache None (map (zipped (level_name k) compress cols) ws) = Ok o /\
    forall i w, (0 <= i)%Z -> shard_at ws (Z.to_nat i) = Some w ->
      snd (snd (mds_get decompress unpickle decode o i (d, None))) = Some (cache ++ slash :: zip_name w, zip_file compress cols w).
Proof.
  intros Hd Hok Hs Hk.
  assert (Hin : In (level_name k) compressors).
  { right. apply in_map_iff. exists k. split; [reflexivity|]. apply in_seq. lia. }
  destruct (open_ok (level_name k) compress cols ws cache None Hin (proj1 Hok) (proj1 (proj2 (proj2 Hok)))) as (es & E1 & E2 & E3).
  eexists. split; [exact E3|]. intros i w Hi Hw. unfold mds_get. rewrite get_chunk_index_spec. unfold at_index.
  change (o_ivs (opened_as (level_name k) compress cols ws cache None es)) with (full_ivs 0 (map (fun w => length (w_values w)) ws)).
  change (o_chunks (opened_as (level_name k) compress cols ws cache None es)) with (map (chunk_of compress cols) ws).
  destruct (Z.ltb_spec i 0) as [G|_]; [lia|]. rewrite locate_address. destruct (locate 0 0 ws (Z.to_nat i)) as [[[j b] w']|] eqn:El.
  2:{ destruct (locate_none _ _ _ _ El) as [_ G]. congruence. }
  destruct (locate_spec _ _ _ _ _ _ _ El) as (_ & Ej & _ & Eiv & _ & _ & Es). rewrite Hw in Es. injection Es as <-. rewrite Nat.sub_0_r in *.
  rewrite nth_error_map, Ej, Eiv. cbn [option_map].
  assert (Iw : In w ws) by (eapply nth_error_In; exact Ej).
  set (o := opened_as (level_name k) compress cols ws cache None es). set (c := chunk_of compress cols w).
  pose proof (level_target decode compress cols ws cache None es k w Hd Hok Iw) as Et. fold o c in Et.
  pose proof (path_as compress decode cols ws cache None es Hd Hok (level_name k) w Iw) as Ep. fold o c in Ep.
  destruct (Hs w Iw) as [_ Hz].
  assert (Ea : ask decompress o c (d, None) = (d, None)).
  { unfold ask. cbn [fst snd]. change (threaded o) with true. cbv iota. f_equal. unfold prepare. rewrite Ep, Hz. unfold try_decompress. rewrite Et, Hz.
    change (o_comp o) with (Some (level_name k)). reflexivity. }
  rewrite Ea. unfold open_file. cbn [fst snd]. rewrite Et, Hz.
  change (c_bytes c) with (blen (zip_file compress cols w)). rewrite N.leb_refl. reflexivity.
Qed.

(** ** Names of columns *)

Lemma open_fields cache remote s shards o : open_mds cache remote (s :: shards) = Ok o ->
  o_spec o = SNode (NDict (map KStr (s_names s))) (map (fun _ => SLeaf) (s_names s)) /\ mapM entry_of (s_encodings s) = Ok (o_entries o).
Proof.
  unfold open_mds, adapt. destruct (mapM adapt_shard (s :: shards)) as [cs|]; cbn [bind]; [|discriminate]. cbn [i_format i_spec].
  destruct (validate (s_encodings s)) as [u|]; cbn [bind]; [|discriminate].
  assert (Esp : spec_of_json (fun _ => false) (SNode (NDict (map JStr (s_names s))) (map (fun _ => SLeaf) (s_names s))) =
                Ok (SNode (NDict (map KStr (s_names s))) (map (fun _ => SLeaf) (s_names s)))).
  { cbn [spec_of_json kind_of_json bind]. rewrite (mapM_map (spec_of_json (fun _ => false)) (fun _ : str => SLeaf) (fun _ => SLeaf)) by reflexivity. cbn [bind].
    rewrite map_map. reflexivity. }
  rewrite Esp. cbn [bind]. destruct (mapM entry_of (s_encodings s)) as [es|]; cbn [bind]; [|discriminate]. cbn [i_chunks i_kind i_compression].
  destruct (generate_intervals _ _) as [ivs|]; cbn [bind]; [|discriminate]. destruct (find_compressor _) as [comp|]; cbn [bind]; [|discriminate].
  intros E. injection E as <-. split; reflexivity.
Qed.

Lemma unflatten_dict keys ss (vs : list leaf) t : unflatten (SNode (NDict keys) ss) vs = Ok t -> exists ts, t = Node (NDict keys) ts.
Proof.
  cbn [unflatten]. match goal with |- context [if ?b then _ else _] => destruct b end; [discriminate|].
  match goal with |- bind ?x _ = _ -> _ => destruct x as [ts|] end; cbn [bind]; [|discriminate]. cbn [rebuild].
  match goal with |- context [if ?b then _ else _] => destruct b end; [|discriminate]. intros E. injection E as <-. eauto.
Qed.

Theorem first_columns decompress unpickle decode cache remote s shards o i st t :
  open_mds cache remote (s :: shards) = Ok o -> fst (mds_get decompress unpickle decode o i st) = Ok t ->
  exists ts, t = Node (NDict (map KStr (s_names s))) ts.
Proof.
  intros Ho. destruct (open_fields _ _ _ _ _ Ho) as [Es _]. unfold mds_get. destruct (get_chunk_index (o_ivs o) i) as [[index k]|]; [|discriminate].
  destruct (nth_error (o_chunks o) k) as [c|]; [|discriminate]. destruct (nth_error (o_ivs o) k) as [iv|]; [|discriminate].
  destruct (open_file o c (ask decompress o c st)) as [[f|] s']; cbn [fst bind]; [|discriminate].
  destruct (load_item f index (iv_start iv)) as [x|]; cbn [bind]; [|discriminate]. unfold decode_item.
  match goal with |- bind ?x _ = _ -> _ => destruct x as [fields|] end; cbn [bind]; [|discriminate].
  match goal with |- bind ?x _ = _ -> _ => destruct x as [vs|] end; cbn [bind]; [|discriminate]. rewrite Es. apply unflatten_dict.
Qed.

(** ** Unknown encodings *)

Lemma serializer_unknown name : ~ In name (map codes known_encodings) -> serializer_of name = Err KeyError.
Proof.
  intros H. unfold serializer_of. match goal with |- context [find ?f ?l] => destruct (find f l) as [p|] eqn:E end; [|reflexivity].
  apply find_some in E. destruct E as [Hin Hp]. destruct (list_eq_dec N.eq_dec name (codes (fst p))) as [->|]; [|discriminate]. destruct H.
  cbn [In] in Hin. cbn [known_encodings map In]. repeat (destruct Hin as [<-|Hin]; [cbn [fst]; tauto|]). destruct Hin.
Qed.

Lemma split_some c s : split c s <> [].
Proof. destruct s as [|x s]; cbn [split]; [discriminate|]. destruct (x =? c)%N; [discriminate|]. destruct (split c s); discriminate. Qed.

Lemma split_one c s p : split c s = [p] -> p = s.
Proof.
  revert p. induction s as [|x s IH]; intros p; cbn [split]; [intros E; congruence|].
  pose proof (split_some c s) as Hs. destruct (x =? c)%N; [intros E; congruence|].
  destruct (split c s) as [|q qs] eqn:E; [congruence|]. intros G. assert (qs = []) by congruence. assert (p = x :: q) by congruence. subst qs p.
  rewrite (IH q eq_refl). reflexivity.
Qed.

Lemma entry_unknown e : unknown_encoding e -> entry_of e = Err KeyError \/ entry_of e = Err ValueError.
Proof.
  unfold unknown_encoding, entry_of. destruct (split colon e) as [|a [|b [|c l]]] eqn:E; intros H; auto.
  - left. apply serializer_unknown. apply H. left. apply split_one in E. congruence.
  - left. rewrite (serializer_unknown b) by (apply H; right; left; reflexivity). apply serializer_unknown. apply H. left. reflexivity.
Qed.

Lemma mapM_refused {A B} (f : A -> res B) l x e : In x l -> f x = Err e -> exists e', mapM f l = Err e'.
Proof.
  intros H E. induction l as [|y l IH]; [destruct H|]. cbn [mapM]. destruct (f y) as [z|e'] eqn:Ey; cbn [bind]; [|eauto].
  destruct H as [->|H]; [congruence|]. destruct (IH H) as (e' & G). exists e'. 
  change ((fix go (l : list A) : res (list B) := match l with [] => Ok [] | x :: l' => bind (f x) (fun y => bind (go l') (fun ys => Ok (y :: ys))) end) l)
    with (mapM f l). rewrite G. reflexivity.
Qed.

Theorem unknown_refused cache remote s shards e : In e (s_encodings s) -> unknown_encoding e ->
  exists x, open_mds cache remote (s :: shards) = Err x.
Proof.
  intros H Hu. destruct (open_mds cache remote (s :: shards)) as [o|x] eqn:E; [|eauto]. destruct (open_fields _ _ _ _ _ E) as [_ G].
  destruct (entry_unknown e Hu) as [K|K]; destruct (mapM_refused entry_of _ _ _ H K) as (x & L); congruence.
Qed.

Theorem compression_refused cache remote s shards c :
  s_compression s = Some c -> c <> [] -> c <> codes "zstd" -> (forall k, 1 <= k <= 22 -> c <> codes "zstd:" ++ dec k) ->
  exists x, open_mds cache remote (s :: shards) = Err x.
Proof.
  intros Hc Hn Hz Hl. unfold open_mds, adapt. destruct (mapM adapt_shard (s :: shards)) as [cs|]; cbn [bind]; [|eauto].
  destruct (validate _) as [u|]; cbn [bind]; [|eauto]. destruct (spec_of_json _ _) as [sp|]; cbn [bind]; [|eauto].
  destruct (mapM entry_of _) as [es|]; cbn [bind]; [|eauto]. destruct (generate_intervals _ _) as [ivs|]; cbn [bind]; [|eauto].
  cbn [i_compression]. rewrite Hc. unfold find_compressor. destruct c as [|x c]; [congruence|].
  match goal with |- context [existsb ?f compressors] => destruct (existsb f compressors) eqn:E end; cbn [bind]; [|eauto]. apply existsb_exists in E. destruct E as (y & Hy & Ey).
  destruct (list_eq_dec N.eq_dec (x :: c) y) as [<-|]; [|discriminate]. destruct Hy as [Hy|Hy]; [congruence|].
  apply in_map_iff in Hy. destruct Hy as (k & Ek & Hk). apply in_seq in Hk. exfalso. apply (Hl k); [lia|]. congruence.
Qed.

(** ** The size of the cache *)

Lemma known_at {A} (f : A -> str) (g : A -> nat) l x : NoDup (map f l) -> In x l -> known_size (map (fun a => (f a, g a)) l) (f x) = Some (g x).
Proof.
  intros Hn Hx. induction l as [|y l IH]; [destruct Hx|]. cbn [map known_size]. cbn [map] in Hn. inversion Hn as [|? ? Hy Hn']; subst.
  destruct (list_eq_dec N.eq_dec (f x) (f y)) as [E|E].
  - destruct Hx as [->|Hx]; [reflexivity|]. destruct Hy. rewrite <- E. apply in_map. exact Hx.
  - destruct Hx as [->|Hx]; [congruence|]. apply IH; assumption.
Qed.

Theorem cache_counted compress decode cols ws :
  mds_ok decode cols ws ->
  folder_size (mds_size_map (codes "zstd") (map (chunk_of compress cols) ws)) (map (fun w => (w_raw w, length (raw_file cols w))) ws) =
  sum (map (fun w => length (zip_file compress cols w)) ws).
Proof.
  intros (_ & Hn & _ & F).
  assert (Em : mds_size_map (codes "zstd") (map (chunk_of compress cols) ws) = map (fun w => (w_raw w, length (zip_file compress cols w))) ws).
  { unfold mds_size_map. rewrite map_map. apply map_ext_in. intros w Hw. cbn [chunk_of c_name c_bytes]. rewrite Forall_forall in F.
    destruct (F w Hw) as (_ & _ & _ & Hc). f_equal; [|unfold blen; apply Nat2N.id]. unfold zip_name. apply (replace_end dot (codes "zstd")); [|exact Hc].
    cbn. unfold dot. intros G. repeat (destruct G as [G|G]; [discriminate|]). exact G. }
  rewrite Em. unfold folder_size. rewrite map_map. f_equal. apply map_ext_in. intros w Hw. unfold file_size. cbn [fst snd].
  rewrite (known_at w_raw (fun w => length (zip_file compress cols w)) ws w Hn Hw). reflexivity.
Qed.
