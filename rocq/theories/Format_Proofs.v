(** Lemmas about the binary format. *)
From Verif Require Import Base Format_Model.
Local Ltac Zify.zify_post_hook ::= idtac.

Lemma le32_length x : length (le32 x) = 4.
Proof. reflexivity. Qed.

Lemma flat_map_le32_length l : length (flat_map le32 l) = 4 * length l.
Proof. induction l as [|x l IH]; [reflexivity|]. cbn [flat_map]. rewrite app_length, le32_length, IH. cbn [length]. lia. Qed.

Lemma un32_le32 x :
  (x < two32)%N ->
  un32 (x mod 256) ((x / 256) mod 256) ((x / 65536) mod 256) ((x / 16777216) mod 256) = x.
Proof.
  intros H. unfold un32, two32 in *.
  replace (x / 65536)%N with (x / 256 / 256)%N by (rewrite N.div_div by discriminate; reflexivity).
  replace (x / 16777216)%N with (x / 256 / 256 / 256)%N by (rewrite !N.div_div by discriminate; reflexivity).
  pose proof (N.div_mod x 256 ltac:(discriminate)) as E1.
  pose proof (N.div_mod (x / 256) 256 ltac:(discriminate)) as E2.
  pose proof (N.div_mod (x / 256 / 256) 256 ltac:(discriminate)) as E3.
  assert (Hs : (x / 256 / 256 / 256 < 256)%N).
  { rewrite !N.div_div by discriminate. apply N.div_lt_upper_bound; [discriminate|]. exact H. }
  rewrite (N.mod_small (x / 256 / 256 / 256)) by exact Hs. lia.
Qed.

Lemma frombuffer_cons x rest :
  (x < two32)%N -> frombuffer32 (le32 x ++ rest) = bind (frombuffer32 rest) (fun l => Ok (x :: l)).
Proof.
  intros Hx. unfold le32. rewrite (N.mod_small x) by exact Hx.
  change (bind (frombuffer32 rest) (fun l => Ok (un32 (x mod 256) ((x / 256) mod 256) ((x / 65536) mod 256) ((x / 16777216) mod 256) :: l)) =
          bind (frombuffer32 rest) (fun l => Ok (x :: l))).
  rewrite un32_le32 by exact Hx. reflexivity.
Qed.

Lemma frombuffer_le32 l rest r :
  Forall (fun x => (x < two32)%N) l -> frombuffer32 rest = Ok r ->
  frombuffer32 (flat_map le32 l ++ rest) = Ok (l ++ r).
Proof.
  intros H Hr. induction H as [|x l Hx H IH]; [exact Hr|].
  change (flat_map le32 (x :: l) ++ rest) with (le32 x ++ (flat_map le32 l ++ rest)).
  rewrite frombuffer_cons by exact Hx. rewrite IH. reflexivity.
Qed.

Lemma frombuffer_le32_nil l :
  Forall (fun x => (x < two32)%N) l -> frombuffer32 (flat_map le32 l) = Ok l.
Proof. intros H. pose proof (frombuffer_le32 l [] [] H eq_refl) as E. rewrite !app_nil_r in E. exact E. Qed.

Definition total_bytes (items : list bytes) : N := blen (concat items).

Lemma blen_app a b : blen (a ++ b) = (blen a + blen b)%N.
Proof. unfold blen. rewrite app_length. lia. Qed.

Lemma cumsum_length acc l : length (cumsum acc l) = S (length l).
Proof. revert acc; induction l as [|x l IH]; intros acc; cbn; [reflexivity|]. rewrite IH; reflexivity. Qed.

Lemma cumsum_nth acc items i :
  i <= length items ->
  nth_error (cumsum acc (map blen items)) i = Some (acc + blen (concat (firstn i items)))%N.
Proof.
  revert acc i; induction items as [|x items IH]; intros acc i Hi.
  - assert (i = 0) by (cbn in Hi; lia). subst. cbn. f_equal. unfold blen; cbn. lia.
  - destruct i as [|i]; [cbn; f_equal; unfold blen; cbn; lia|].
    cbn [cumsum map nth_error firstn concat]. rewrite IH by (cbn in Hi; lia). rewrite blen_app. f_equal. lia.
Qed.

Lemma cumsum_bound acc items : Forall (fun x => (x <= acc + blen (concat items))%N) (cumsum acc (map blen items)).
Proof.
  revert acc; induction items as [|x items IH]; intros acc; cbn [cumsum map concat].
  - constructor; [lia|constructor].
  - rewrite blen_app. constructor; [lia|]. eapply Forall_impl; [|apply (IH (acc + blen x)%N)]. cbn. intros; lia.
Qed.

(** Size of the header of a chunk of [n] items. *)
Definition header_size (n : nat) : N := N.of_nat (4 * (n + 2)).

(** The header of a chunk below 4 GiB. *)
Lemma chunk_data_small items :
  (header_size (length items) + blen (concat items) < two32)%N ->
  exists offs, chunk_data items = le32 (N.of_nat (length items)) ++ flat_map le32 offs ++ concat items /\
    length offs = length items + 1 /\ Forall (fun x => (x < two32)%N) offs /\
    forall i, i <= length items ->
      nth_error offs i = Some (header_size (length items) + blen (concat (firstn i items)))%N.
Proof.
  intros H. unfold chunk_data.
  set (cs := cumsum 0 (map blen items)).
  assert (Hb : Forall (fun x => (x <= blen (concat items))%N) cs).
  { unfold cs. eapply Forall_impl; [|apply cumsum_bound]. cbn; intros; lia. }
  assert (Hl : length cs = length items + 1) by (unfold cs; rewrite cumsum_length, map_length; lia).
  assert (Hnth : forall i, i <= length items -> nth_error cs i = Some (0 + blen (concat (firstn i items)))%N)
    by (intros i Hi; unfold cs; apply cumsum_nth, Hi).
  clearbody cs.
  assert (E1 : map (fun o => (o mod two32)%N) cs = cs).
  { clear -Hb H. induction Hb as [|x l Hx Hb IH]; [reflexivity|]. cbn beta in Hx. cbn [map]. rewrite IH.
    rewrite N.mod_small by lia. reflexivity. }
  rewrite E1. rewrite Hl.
  assert (Eh : (4 + 4 * N.of_nat (length items + 1))%N = header_size (length items)) by (unfold header_size; lia).
  rewrite Eh.
  assert (E2 : map (fun o => ((o + header_size (length items)) mod two32)%N) cs =
               map (fun o => (header_size (length items) + o)%N) cs).
  { clear -Hb H. induction Hb as [|x l Hx Hb IH]; [reflexivity|]. cbn beta in Hx. cbn [map]. rewrite IH.
    rewrite N.mod_small by lia. f_equal. lia. }
  rewrite E2. clear E1 E2. eexists; split; [reflexivity|]. split; [rewrite map_length; exact Hl|]. split.
  - rewrite Forall_map. eapply Forall_impl; [|exact Hb]. cbn beta. intros o Ho. lia.
  - intros i Hi. rewrite nth_error_map. rewrite Hnth by exact Hi. reflexivity.
Qed.

Lemma chunk_data_length items :
  blen (chunk_data items) = (header_size (length items) + blen (concat items))%N.
Proof.
  unfold chunk_data. rewrite !blen_app. unfold blen. rewrite flat_map_le32_length, !map_length, cumsum_length, map_length.
  rewrite le32_length. unfold header_size. lia.
Qed.

Lemma skipn_app_exact {A} (a b : list A) n : n = length a -> skipn n (a ++ b) = b.
Proof. intros ->. rewrite skipn_app, skipn_all, Nat.sub_diag, skipn_O. reflexivity. Qed.

Lemma firstn_app_exact {A} (a b : list A) n : n = length a -> firstn n (a ++ b) = a.
Proof. intros ->. rewrite firstn_app, firstn_all, Nat.sub_diag, firstn_O, app_nil_r. reflexivity. Qed.

Lemma skipn_skipn' {A} a b (l : list A) : skipn a (skipn b l) = skipn (b + a) l.
Proof. revert l; induction b as [|b IH]; intros l; [reflexivity|]. destruct l; cbn; [apply skipn_nil|apply IH]. Qed.

Lemma concat_split {A} (l : list (list A)) i x :
  nth_error l i = Some x -> concat l = concat (firstn i l) ++ x ++ concat (skipn (S i) l).
Proof.
  revert i; induction l as [|y l IH]; intros [|i] H; try discriminate.
  - injection H as ->. reflexivity.
  - cbn [firstn concat skipn]. rewrite (IH i H), app_assoc. reflexivity.
Qed.

(** Reading the pair of offsets of item [i]. *)
Lemma read_pair offs (n : N) (body : bytes) i a b :
  nth_error offs i = Some a -> nth_error offs (S i) = Some b ->
  read_at (le32 n ++ flat_map le32 offs ++ body) (N.of_nat ((1 + i) * 4)) 8 = le32 a ++ le32 b.
Proof.
  intros Ha Hb. unfold read_at. rewrite Nat2N.id.
  assert (Eo : offs = firstn i offs ++ a :: b :: skipn (S (S i)) offs).
  { rewrite <- (firstn_skipn i offs) at 1. f_equal.
    rewrite (skipn_nth_cons offs i a Ha). f_equal. apply skipn_nth_cons, Hb. }
  assert (Hi : length (firstn i offs) = i).
  { rewrite firstn_length. assert (i < length offs) by (apply nth_error_Some; congruence). lia. }
  rewrite Eo at 1. rewrite flat_map_app.
  replace (le32 n ++ (flat_map le32 (firstn i offs) ++ flat_map le32 (a :: b :: skipn (S (S i)) offs)) ++ body)
    with ((le32 n ++ flat_map le32 (firstn i offs)) ++ (le32 a ++ le32 b) ++ (flat_map le32 (skipn (S (S i)) offs) ++ body))
    by (cbn [flat_map]; rewrite <- !app_assoc; reflexivity).
  rewrite skipn_app_exact by (rewrite app_length, flat_map_le32_length, Hi, le32_length; lia).
  change (N.to_nat 8) with 8. apply firstn_app_exact. reflexivity.
Qed.

Theorem load_item_ok items i x begin :
  (blen (chunk_data items) < two32)%N -> nth_error items i = Some x ->
  load_item (chunk_data items) (begin + i) begin = Ok x.
Proof.
  intros H Hx. rewrite chunk_data_length in H.
  destruct (chunk_data_small items H) as (offs & E & Hl & Hb & Hn).
  assert (Hi : i < length items) by (apply nth_error_Some; congruence).
  unfold load_item, item_offset. replace (begin <=? begin + i) with true by (symmetry; apply Nat.leb_le; lia).
  replace (begin + i - begin) with i by lia. unfold load_data. rewrite E.
  pose proof (Hn i ltac:(lia)) as H1. pose proof (Hn (S i) ltac:(lia)) as H2.
  rewrite (read_pair offs _ (concat items) i _ _ H1 H2).
  set (h := header_size (length items)) in *. set (p := blen (concat (firstn i items))) in *.
  assert (Hp : blen (concat (firstn (S i) items)) = (p + blen x)%N).
  { unfold p. rewrite <- blen_app. f_equal.
    replace (S i) with (i + 1) by lia.
    assert (Ef : firstn (i + 1) items = firstn i items ++ [x]).
    { clear -Hx. revert i Hx; induction items as [|y items IH]; intros [|i] Hx; try discriminate.
      - injection Hx as ->. reflexivity.
      - cbn [firstn Nat.add app]. f_equal. apply IH, Hx. }
    rewrite Ef, concat_app. cbn. rewrite app_nil_r. reflexivity. }
  rewrite Hp.
  assert (Ht : (h + (p + blen x) < two32)%N).
  { rewrite (concat_split items i x Hx) in H. rewrite !blen_app in H. fold p in H. lia. }
  replace (le32 (h + p) ++ le32 (h + (p + blen x))) with (flat_map le32 [h + p; h + (p + blen x)]%N) by reflexivity.
  rewrite frombuffer_le32_nil by (repeat constructor; lia). cbn [bind]. f_equal.
  replace (h + (p + blen x) + two32 - (h + p))%N with (blen x + 1 * two32)%N by lia.
  rewrite N.mod_add by discriminate. rewrite N.mod_small by lia.
  unfold read_at, blen. rewrite Nat2N.id.
  rewrite (concat_split items i x Hx).
  replace (le32 (N.of_nat (length items)) ++ flat_map le32 offs ++ concat (firstn i items) ++ x ++ concat (skipn (S i) items))
    with ((le32 (N.of_nat (length items)) ++ flat_map le32 offs ++ concat (firstn i items)) ++ x ++ concat (skipn (S i) items))
    by (rewrite <- !app_assoc; reflexivity).
  rewrite skipn_app_exact; [apply firstn_app_exact; reflexivity|].
  rewrite !app_length, flat_map_le32_length, Hl, le32_length. unfold h, p, header_size, blen. lia.
Qed.

(** A single item of exactly 4 GiB is read back as nothing. *)
Theorem load_item_4gib x :
  blen x = two32 -> load_item (chunk_data [x]) 0 0 = Ok [].
Proof.
  intros Hx.
  assert (E : chunk_data [x] = le32 1 ++ flat_map le32 [12; 12]%N ++ concat [x]).
  { unfold chunk_data. cbn [map cumsum length]. rewrite Hx. reflexivity. }
  unfold load_item, load_data. rewrite E. change (item_offset 0 0) with ((1 + 0) * 4).
  rewrite (read_pair [12; 12]%N 1%N (concat [x]) 0 12%N 12%N eq_refl eq_refl).
  reflexivity.
Qed.

(** ** Fields *)

Lemma cut_fields_ok pre (data : list bytes) idx :
  idx = blen pre -> (idx + blen (concat data) < two32)%N ->
  cut_fields (pre ++ concat data) idx (map blen data) = data.
Proof.
  revert pre idx; induction data as [|d data IH]; intros pre idx Hi Hb; [reflexivity|].
  cbn [map cut_fields concat] in *. rewrite blen_app in Hb. rewrite N.mod_small by lia.
  replace (idx + blen d - idx)%N with (blen d) by lia. f_equal.
  - unfold read_at, blen in *. subst idx. rewrite !Nat2N.id.
    rewrite skipn_app_exact by reflexivity. apply firstn_app_exact. reflexivity.
  - rewrite app_assoc. apply IH; rewrite ?blen_app; lia.
Qed.

Theorem decode_encode data :
  (blen (encode_fields data (map blen data)) < two32)%N ->
  decode_fields (length data) (encode_fields data (map blen data)) = Ok data.
Proof.
  intros Hs. unfold encode_fields in Hs. rewrite blen_app in Hs.
  assert (H : Forall (fun d => (blen d < two32)%N) data).
  { apply Forall_forall. intros d Hd. apply In_nth_error in Hd. destruct Hd as [i Hi].
    rewrite (concat_split data i d Hi), !blen_app in Hs. lia. }
  unfold decode_fields, encode_fields.
  rewrite firstn_app_exact by (rewrite flat_map_le32_length, map_length; lia).
  rewrite frombuffer_le32_nil by (rewrite Forall_map; exact H). cbn [bind]. f_equal.
  rewrite firstn_all2 by (rewrite map_length; lia).
  assert (El : N.of_nat (length data * 4) = blen (flat_map le32 (map blen data)))
    by (unfold blen at 1; rewrite flat_map_le32_length, map_length; f_equal; lia).
  apply cut_fields_ok; [exact El|]. rewrite El. exact Hs.
Qed.

(** ** Tokens *)

Lemma tokens_buffer_ok items : tokens_buffer (chunk_data items) (length items) = concat items.
Proof.
  unfold tokens_buffer, chunk_data. rewrite app_assoc. apply skipn_app_exact.
  rewrite app_length, flat_map_le32_length, !map_length, cumsum_length, map_length, le32_length. lia.
Qed.

(** ** MDS items *)

(** The header of an MDS item lists the sizes of the columns without a fixed size. *)
Definition mds_encode (column_sizes : list N) (data : list bytes) : bytes :=
  flat_map (fun cd => if (fst cd =? 0)%N then le32 (blen (snd cd)) else []) (combine column_sizes data) ++ concat data.

Lemma mds_sizes_ok body : forall column_sizes data pre,
  Forall2 (fun c d => c = 0%N \/ c = blen d) column_sizes data ->
  Forall (fun d => (blen d < two32)%N) data ->
  let head := flat_map (fun cd => if (fst cd =? 0)%N then le32 (blen (snd cd)) else []) (combine column_sizes data) in
  mds_sizes (pre ++ head ++ body) (blen pre) column_sizes = Ok (map blen data, blen (pre ++ head)).
Proof.
  cbv zeta. intros column_sizes data pre H. revert pre.
  induction H as [|c d cs ds Hc H IH]; intros pre Hb.
  - cbn [combine flat_map mds_sizes map]. rewrite app_nil_r. reflexivity.
  - inversion Hb as [|? ? Hd Hb']; subst. cbn [combine flat_map mds_sizes map fst snd].
    destruct (N.eqb_spec c 0) as [->|Hn].
    + rewrite <- app_assoc.
      assert (E : read_at (pre ++ le32 (blen d) ++ flat_map (fun cd => if (fst cd =? 0)%N then le32 (blen (snd cd)) else []) (combine cs ds) ++ body)
                    (blen pre) 4 = le32 (blen d)).
      { unfold read_at, blen at 1. rewrite Nat2N.id, skipn_app_exact by reflexivity.
        change (N.to_nat 4) with 4. apply firstn_app_exact. reflexivity. }
      rewrite E. rewrite <- (app_nil_r (le32 (blen d))) at 1. rewrite frombuffer_cons by exact Hd. cbn [frombuffer32 bind].
      specialize (IH (pre ++ le32 (blen d)) Hb'). rewrite <- !app_assoc in IH. rewrite blen_app in IH.
      change (blen (le32 (blen d))) with 4%N in IH. rewrite IH. reflexivity.
    + cbn [app]. specialize (IH pre Hb'). rewrite IH. cbn [bind fst snd]. f_equal.
      destruct Hc as [Hc|Hc]; [congruence|]. rewrite Hc. reflexivity.
Qed.

Theorem mds_decode_encode column_sizes data :
  Forall2 (fun c d => c = 0%N \/ c = blen d) column_sizes data ->
  (blen (mds_encode column_sizes data) < two32)%N ->
  mds_decode column_sizes (length data) (mds_encode column_sizes data) = Ok data.
Proof.
  intros H Hs. unfold mds_encode in *. rewrite blen_app in Hs.
  assert (Hd : Forall (fun d => (blen d < two32)%N) data).
  { apply Forall_forall. intros d Hd. apply In_nth_error in Hd. destruct Hd as [i Hi].
    rewrite (concat_split data i d Hi), !blen_app in Hs. lia. }
  unfold mds_decode. pose proof (mds_sizes_ok (concat data) column_sizes data [] H Hd) as E. cbv zeta in E. cbn [app] in E.
  change (blen []) with 0%N in E. rewrite E. cbn [bind fst snd]. f_equal.
  rewrite firstn_all2 by (rewrite map_length; lia). apply cut_fields_ok; [reflexivity|exact Hs].
Qed.

(** The fields of an item whose serializers declare a fixed size or none. *)
Definition sizes_of (fields : list (option N * bytes)) : list N :=
  map (fun f => match fst f with Some n => n | None => blen (snd f) end) fields.
