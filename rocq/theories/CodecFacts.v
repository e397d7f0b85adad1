(** * Round trips and injectivity of the wire formats. *)
From Coq Require Import List NArith Lia Bool Arith.
From Verif Require Import Base BaseFacts OMap Keccak Crypto Message Metadata.
Import ListNotations.

Ltac lens := repeat rewrite ?app_length, ?be_length, ?be4_length, ?be32_length.

(** split a byte string at a position *)
Lemma split_at (n : nat) (l : bytes) :
  (n <= length l)%nat -> exists a b, l = a ++ b /\ length a = n.
Proof.
  intros H. exists (firstn n l), (skipn n l). split.
  - symmetry. apply firstn_skipn.
  - rewrite firstn_length. lia.
Qed.

(** ** Messages *)
Lemma msg_decode_parts a n o sn d r b :
  length a = 1%nat -> length n = 4%nat -> length o = 4%nat -> length sn = 32%nat ->
  length d = 4%nat -> length r = 32%nat ->
  msg_decode (a ++ n ++ o ++ sn ++ d ++ r ++ b) =
  Ok (mkMessage (of_be a) (of_be n) (of_be o) sn (of_be d) r b).
Proof.
  intros Ha Hn Ho Hs Hd Hr. unfold msg_decode.
  rewrite (slice_head a) by (lens; lia). cbn [bind].
  rewrite (slice_mid a n _ 1 5) by lia. cbn [bind].
  rewrite (app_assoc a n).
  rewrite (slice_mid (a ++ n) o _ 5 9) by (lens; lia). cbn [bind].
  rewrite (app_assoc (a ++ n) o).
  rewrite (slice_mid ((a ++ n) ++ o) sn _ 9 41) by (lens; lia). cbn [bind].
  rewrite (app_assoc _ sn).
  rewrite (slice_mid (((a ++ n) ++ o) ++ sn) d _ 41 45) by (lens; lia). cbn [bind].
  rewrite (app_assoc _ d).
  rewrite (slice_mid ((((a ++ n) ++ o) ++ sn) ++ d) r _ 45 77) by (lens; lia). cbn [bind].
  rewrite (app_assoc _ r).
  rewrite slice_from_app by (lens; lia). reflexivity.
Qed.

Lemma msg_decode_encode m : msg_wf m -> msg_decode (msg_encode m) = Ok m.
Proof.
  intros (Hv & Hn & Ho & Hd & Hs & Hr). unfold msg_encode.
  rewrite msg_decode_parts; auto using be_length, be4_length.
  rewrite !of_be_be4 by assumption.
  rewrite (of_be_be_small 1) by (rewrite pow256_1; assumption).
  destruct m; reflexivity.
Qed.

Lemma msg_decode_short v : (length v < 77)%nat -> msg_decode v = Panic.
Proof.
  intros H. unfold msg_decode.
  assert (E : slice 45 77 v = Panic) by now apply slice_panic.
  rewrite E.
  destruct (slice 0 1 v) eqn:E1; cbn [bind].
  2:{ unfold slice in E1. destruct (_ && _)%bool; discriminate. }
  2:reflexivity.
  destruct (slice 1 5 v) eqn:E2; cbn [bind].
  2:{ unfold slice in E2. destruct (_ && _)%bool; discriminate. }
  2:reflexivity.
  destruct (slice 5 9 v) eqn:E3; cbn [bind].
  2:{ unfold slice in E3. destruct (_ && _)%bool; discriminate. }
  2:reflexivity.
  destruct (slice 9 41 v) eqn:E4; cbn [bind].
  2:{ unfold slice in E4. destruct (_ && _)%bool; discriminate. }
  2:reflexivity.
  destruct (slice 41 45 v) eqn:E5; cbn [bind].
  2:{ unfold slice in E5. destruct (_ && _)%bool; discriminate. }
  2:reflexivity.
  reflexivity.
Qed.

Lemma bytes_77_parts (v : bytes) : (77 <= length v)%nat ->
  exists a n o sn d r b,
    v = a ++ n ++ o ++ sn ++ d ++ r ++ b /\
    length a = 1%nat /\ length n = 4%nat /\ length o = 4%nat /\ length sn = 32%nat /\
    length d = 4%nat /\ length r = 32%nat.
Proof.
  intros H.
  destruct (split_at 1 v) as (a & v1 & E1 & L1); [lia|].
  assert (H1 : (76 <= length v1)%nat) by (subst; rewrite app_length in H; lia).
  destruct (split_at 4 v1) as (n & v2 & E2 & L2); [lia|].
  assert (H2 : (72 <= length v2)%nat) by (subst; rewrite app_length in H1; lia).
  destruct (split_at 4 v2) as (o & v3 & E3 & L3); [lia|].
  assert (H3 : (68 <= length v3)%nat) by (subst; rewrite app_length in H2; lia).
  destruct (split_at 32 v3) as (sn & v4 & E4 & L4); [lia|].
  assert (H4 : (36 <= length v4)%nat) by (subst; rewrite app_length in H3; lia).
  destruct (split_at 4 v4) as (d & v5 & E5 & L5); [lia|].
  assert (H5 : (32 <= length v5)%nat) by (subst; rewrite app_length in H4; lia).
  destruct (split_at 32 v5) as (r & b & E6 & L6); [lia|].
  exists a, n, o, sn, d, r, b. subst. auto 10.
Qed.

Lemma of_be_lt_len (l : bytes) k : length l = k -> of_be l < 256 ^ N.of_nat k.
Proof. intros <-. apply of_be_lt. Qed.

(** Decoding succeeds exactly on strings of at least 77 bytes, yields a
    well-formed message, and re-encoding gives the same bytes. *)
Lemma msg_decode_total v : (77 <= length v)%nat ->
  exists m, msg_decode v = Ok m /\ msg_wf m /\ msg_encode m = v.
Proof.
  intros H. destruct (bytes_77_parts v H) as (a & n & o & sn & d & r & b & E & L1 & L2 & L3 & L4 & L5 & L6).
  subst v. rewrite msg_decode_parts by assumption.
  eexists. split; [reflexivity|]. split.
  - unfold msg_wf. cbn [m_version m_nonce m_origin m_sender m_dest m_recipient].
    pose proof (of_be_lt_len a 1 L1) as B1. rewrite pow256_1 in B1.
    pose proof (of_be_lt_len n 4 L2) as B2. rewrite pow256_4 in B2.
    pose proof (of_be_lt_len o 4 L3) as B3. rewrite pow256_4 in B3.
    pose proof (of_be_lt_len d 4 L5) as B4. rewrite pow256_4 in B4.
    auto 10.
  - unfold msg_encode, be4. cbn [m_version m_nonce m_origin m_sender m_dest m_recipient m_body].
    rewrite !be_of_be_len by assumption. reflexivity.
Qed.

Lemma msg_decode_Ok_inv v m : msg_decode v = Ok m ->
  (77 <= length v)%nat /\ msg_wf m /\ msg_encode m = v.
Proof.
  intros H. destruct (Nat.le_gt_cases 77 (length v)) as [L|L].
  - destruct (msg_decode_total v L) as (m' & E & W & R).
    rewrite E in H. apply Ok_inj in H as <-. auto.
  - rewrite msg_decode_short in H by assumption. discriminate.
Qed.

Lemma msg_encode_inj m1 m2 :
  msg_wf m1 -> msg_wf m2 -> msg_encode m1 = msg_encode m2 -> m1 = m2.
Proof.
  intros W1 W2 E. apply (f_equal msg_decode) in E.
  rewrite !msg_decode_encode in E by assumption. now apply Ok_inj in E.
Qed.

Lemma msg_id_binds m1 m2 :
  msg_wf m1 -> msg_wf m2 -> msg_id m1 = msg_id m2 ->
  m1 = m2 \/
  (msg_encode m1 <> msg_encode m2 /\ keccak256 (msg_encode m1) = keccak256 (msg_encode m2)).
Proof.
  intros W1 W2 E. destruct (bytes_eq_dec (msg_encode m1) (msg_encode m2)) as [H|H].
  - left. now apply msg_encode_inj.
  - right. auto.
Qed.

(** ** Warp payloads *)
Lemma warp_decode_parts r a md :
  length r = 32%nat -> length a = 32%nat ->
  warp_decode (r ++ a ++ md) = Ok (mkWarp r (of_be a) md).
Proof.
  intros Hr Ha. unfold warp_decode.
  rewrite (slice_head r) by (lens; lia). cbn [bind].
  rewrite (slice_mid r a _ 32 64) by lia. cbn [bind].
  rewrite app_assoc, slice_from_app by (lens; lia). reflexivity.
Qed.

Lemma warp_decode_encode w : warp_wf w -> warp_decode (warp_encode w) = Ok w.
Proof.
  intros [Hr Ha]. unfold warp_encode. rewrite warp_decode_parts; auto using be32_length.
  rewrite of_be_be32 by assumption. now destruct w.
Qed.

Lemma warp_decode_short v : (length v < 64)%nat -> warp_decode v = Panic.
Proof.
  intros H. unfold warp_decode.
  assert (E : slice 32 64 v = Panic) by now apply slice_panic. rewrite E.
  destruct (slice 0 32 v) eqn:E1; cbn [bind]; try reflexivity.
  unfold slice in E1. destruct (_ && _)%bool; discriminate.
Qed.

Lemma warp_decode_total v : (64 <= length v)%nat ->
  exists w, warp_decode v = Ok w /\ warp_wf w /\ warp_encode w = v.
Proof.
  intros H.
  destruct (split_at 32 v) as (r & v1 & E1 & L1); [lia|].
  assert (H1 : (32 <= length v1)%nat) by (subst; rewrite app_length in H; lia).
  destruct (split_at 32 v1) as (a & md & E2 & L2); [lia|]. subst.
  rewrite warp_decode_parts by assumption. eexists. split; [reflexivity|].
  split.
  - split; [exact L1|]. cbn [w_amount].
    pose proof (of_be_lt_len a 32 L2) as B. now rewrite pow256_32 in B.
  - unfold warp_encode, be32. cbn [w_recipient w_amount w_metadata].
    now rewrite be_of_be_len.
Qed.

Lemma warp_decode_Ok_inv v w : warp_decode v = Ok w ->
  (64 <= length v)%nat /\ warp_wf w /\ warp_encode w = v.
Proof.
  intros H. destruct (Nat.le_gt_cases 64 (length v)) as [L|L].
  - destruct (warp_decode_total v L) as (w' & E & W & R).
    rewrite E in H. apply Ok_inj in H as <-. auto.
  - rewrite warp_decode_short in H by assumption. discriminate.
Qed.

(** ** Multisig metadata *)
Definition mid_wf (v : mid_meta) : Prop :=
  length (mid_tree v) = 32%nat /\ length (mid_root v) = 32%nat /\
  length (mid_index v) = 4%nat /\
  Forall (fun x => length x = SIGNATURE_LENGTH) (mid_signatures v).

Lemma mid_decode_parts t r i ls tail :
  length t = 32%nat -> length r = 32%nat -> length i = 4%nat ->
  Forall (fun x => length x = SIGNATURE_LENGTH) ls ->
  (length tail < SIGNATURE_LENGTH)%nat ->
  mid_decode (t ++ r ++ i ++ concat ls ++ tail) = Ok (mkMidMeta t r i ls).
Proof.
  intros Ht Hr Hi Hls Htail. unfold mid_decode.
  replace (slice_from 68 (t ++ r ++ i ++ concat ls ++ tail)) with (Ok (concat ls ++ tail)).
  2:{ symmetry. rewrite (app_assoc t), (app_assoc (t ++ r)). apply slice_from_app. lens. lia. }
  cbn [bind].
  rewrite (slice_head t) by (lens; lia). cbn [bind].
  rewrite (slice_mid t r _ 32 64) by lia. cbn [bind].
  rewrite (app_assoc t r), (slice_mid (t ++ r) i _ 64 68) by (lens; lia). cbn [bind].
  rewrite chunks_exact_app; auto. unfold SIGNATURE_LENGTH. lia.
Qed.

Lemma mid_decode_encode v e :
  mid_wf v -> mid_encode v = Ok e -> mid_decode e = Ok v.
Proof.
  intros (Ht & Hr & Hi & Hs) He. unfold mid_encode in He.
  rewrite pad32_32 in He by assumption. cbn [bind] in He. apply Ok_inj in He as <-.
  rewrite <- (app_nil_r (concat _)).
  rewrite mid_decode_parts; auto.
  - now destruct v.
  - unfold SIGNATURE_LENGTH. simpl. lia.
Qed.

(** What a verifier reads from any long enough metadata: fixed fields, then
    the complete 65-byte chunks; at most 64 bytes are left over. *)
Lemma mid_decode_total e : (68 <= length e)%nat ->
  exists v tail, mid_decode e = Ok v /\ mid_wf v /\ (length tail < SIGNATURE_LENGTH)%nat /\
    e = mid_tree v ++ mid_root v ++ mid_index v ++ concat (mid_signatures v) ++ tail.
Proof.
  intros H.
  destruct (split_at 32 e) as (t & v1 & E1 & L1); [lia|].
  assert (H1 : (36 <= length v1)%nat) by (subst; rewrite app_length in H; lia).
  destruct (split_at 32 v1) as (r & v2 & E2 & L2); [lia|].
  assert (H2 : (4 <= length v2)%nat) by (subst; rewrite app_length in H1; lia).
  destruct (split_at 4 v2) as (i & tl & E3 & L3); [lia|].
  destruct (chunks_exact_spec SIGNATURE_LENGTH tl) as (tail & E4 & L4 & F4).
  { unfold SIGNATURE_LENGTH. lia. }
  exists (mkMidMeta t r i (chunks_exact SIGNATURE_LENGTH tl)), tail.
  subst. split; [|split; [|split]].
  - rewrite E4 at 1. apply mid_decode_parts; auto.
  - repeat split; auto.
  - assumption.
  - cbn [mid_tree mid_root mid_index mid_signatures]. now rewrite <- E4.
Qed.

Lemma mid_decode_short e : (length e < 68)%nat -> mid_decode e = Panic.
Proof.
  intros H. unfold mid_decode, slice_from.
  assert (E : Nat.leb 68 (length e) = false) by (apply Nat.leb_gt; lia).
  now rewrite E.
Qed.

Definition mr_wf (v : mr_meta) : Prop :=
  length (mr_origin_mailbox v) = 32%nat /\ mr_checkpoint_index v < u32_max /\
  length (mr_message_id v) = 32%nat /\ N.of_nat (length (mr_proof v)) = 1024.

Lemma mr_decode_encode v : mr_wf v -> mr_decode (mr_encode v) = Ok v.
Proof.
  intros (H1 & H2 & H3 & H4). unfold mr_encode, mr_decode.
  assert (H4' : length (mr_proof v) = 1024%nat) by lia.
  rewrite (slice_head (mr_origin_mailbox v)) by (lens; lia). cbn [bind].
  rewrite (slice_mid (mr_origin_mailbox v) (be4 _) _ 32 36) by (lens; lia). cbn [bind].
  rewrite (app_assoc (mr_origin_mailbox v)).
  rewrite (slice_mid _ (mr_message_id v) _ 36 68) by (lens; lia). cbn [bind].
  rewrite (app_assoc _ (mr_message_id v)).
  rewrite (slice_mid _ (mr_proof v) _ 68 1092) by (lens; lia). cbn [bind].
  rewrite (app_assoc _ (mr_proof v)).
  rewrite slice_from_app by (lens; lia). cbn [bind].
  rewrite of_be_be4 by assumption. now destruct v.
Qed.

(** ** Gas metadata *)
Lemma igp_decode_encode v : ig_gas_limit v < u256_max -> igp_decode (igp_encode v) = Ok v.
Proof.
  intros H. unfold igp_decode, igp_encode.
  rewrite (slice_head (be32 _)) by (lens; lia). cbn [bind].
  rewrite slice_from_app by apply be32_length. cbn [bind].
  rewrite of_be_be32 by assumption. now destruct v.
Qed.

Lemma igp_decode_short v : (length v < 32)%nat -> igp_decode v = Panic.
Proof. intros H. unfold igp_decode. now rewrite slice_panic. Qed.

Lemma igp_decode_total v : (32 <= length v)%nat ->
  exists m, igp_decode v = Ok m /\ ig_gas_limit m < u256_max /\ igp_encode m = v.
Proof.
  intros H. destruct (split_at 32 v) as (g & r & -> & L); [lia|].
  unfold igp_decode. rewrite (slice_head g) by (lens; lia). cbn [bind].
  rewrite slice_from_app by assumption. cbn [bind].
  eexists. split; [reflexivity|]. split.
  - cbn [ig_gas_limit]. pose proof (of_be_lt_len g 32 L) as B. now rewrite pow256_32 in B.
  - unfold igp_encode, be32. cbn [ig_gas_limit ig_refund]. now rewrite be_of_be_len.
Qed.

(** ** Aggregate metadata *)
Fixpoint offs_ok (hdr : nat) (start : N) (vals : list bytes) : Prop :=
  match vals with
  | [] => True
  | m :: l => start + N.of_nat (length m) < u32_max /\ offs_ok hdr (start + N.of_nat (length m)) l
  end.

Lemma agg_offsets_length start vals : length (agg_offsets start vals) = length vals.
Proof. revert start. induction vals as [|m l IH]; intros st; simpl; auto. Qed.

Lemma concat_pos_length (pos : list (N * N)) :
  length (concat (map (fun p => be4 (fst p) ++ be4 (snd p)) pos)) = (length pos * 8)%nat.
Proof.
  induction pos as [|p pos IH]; [reflexivity|].
  cbn [map concat length]. rewrite app_length, IH. lens. lia.
Qed.

Lemma sliceN_mid a b c i j :
  i = N.of_nat (length a) -> j = i + N.of_nat (length b) ->
  sliceN i j (a ++ b ++ c) = Ok b.
Proof.
  intros -> ->. unfold sliceN.
  assert (E1 : N.of_nat (length a) <=? N.of_nat (length a) + N.of_nat (length b) = true)
    by (apply N.leb_le; lia).
  assert (E2 : N.of_nat (length a) + N.of_nat (length b) <=? N.of_nat (length (a ++ b ++ c)) = true)
    by (apply N.leb_le; rewrite !app_length; lia).
  rewrite E1, E2. cbn [andb].
  replace (N.to_nat (N.of_nat (length a) + N.of_nat (length b) - N.of_nat (length a)))
    with (length b) by lia.
  rewrite Nat2N.id.
  rewrite skipn_app_exact by reflexivity. now rewrite firstn_app_exact.
Qed.

(** Entries of the encoding, read back from position [k] on. *)
Lemma agg_entries_encode (done todo : list (str * bytes)) :
  let vals := map snd (done ++ todo) in
  let pos := agg_offsets (N.of_nat (length (done ++ todo) * 8)) vals in
  let v := concat (map (fun p => be4 (fst p) ++ be4 (snd p)) pos) ++ concat vals in
  N.of_nat (length v) < u32_max ->
  agg_entries v (length done) (map fst todo) = Ok todo.
Proof.
  revert done. induction todo as [|[a m] todo IH]; intros done vals pos v Hv.
  - reflexivity.
  - cbn [map agg_entries fst].
    assert (Hentry : agg_entry v (length done) = Ok m).
    { assert (Hpos : exists p1 p2,
        pos = p1 ++ (N.of_nat (length (done ++ (a, m) :: todo) * 8
                               + length (concat (map snd done))),
                     N.of_nat (length (done ++ (a, m) :: todo) * 8
                               + length (concat (map snd done)) + length m)) :: p2
        /\ length p1 = length done).
      { subst pos vals. generalize (length (done ++ (a, m) :: todo) * 8)%nat as st.
        clear. rewrite map_app. cbn [map snd]. induction (map snd done) as [|x l IHl] eqn:E in done |- *; intros st.
        - destruct done; [|discriminate]. exists [], (agg_offsets (N.of_nat st + N.of_nat (length m)) (map snd todo)).
          cbn [app agg_offsets concat length]. split; [|reflexivity]. f_equal. apply pair_equal_spec; split; lia.
        - destruct done as [|d done]; [discriminate|]. cbn [map] in E. injection E as E0 E.
          destruct (IHl done E (st + length x)%nat) as (p1 & p2 & Hp & Hl).
          exists ((N.of_nat st, N.of_nat st + N.of_nat (length x)) :: p1), p2.
          cbn [app agg_offsets concat length]. rewrite app_length. split; [|now rewrite Hl].
          replace (N.of_nat st + N.of_nat (length x)) with (N.of_nat (st + length x)) by lia.
          rewrite Hp. cbn [app]. do 3 f_equal. apply pair_equal_spec; split; lia. }
      destruct Hpos as (p1 & p2 & Hpos & Hp1).
      set (st := N.of_nat (length (done ++ (a, m) :: todo) * 8 + length (concat (map snd done)))) in *.
      set (en := N.of_nat (length (done ++ (a, m) :: todo) * 8 + length (concat (map snd done)) + length m)) in *.
      assert (Hpl : length pos = length (done ++ (a, m) :: todo)).
      { subst pos vals. rewrite agg_offsets_length, map_length. reflexivity. }
      assert (Hvals : vals = map snd done ++ m :: map snd todo).
      { subst vals. rewrite map_app. reflexivity. }
      assert (Hlen : N.of_nat (length v) = N.of_nat (length pos * 8) + N.of_nat (length (concat vals))).
      { subst v. rewrite app_length, concat_pos_length. lia. }
      assert (Hcv : concat vals = concat (map snd done) ++ m ++ concat (map snd todo)).
      { rewrite Hvals, concat_app. reflexivity. }
      assert (Hb : en < u32_max).
      { subst en. rewrite Hcv, !app_length, Hpl in Hlen. lia. }
      assert (Hst : st <= en) by (subst st en; lia).
      assert (Hv1 : v = concat (map (fun p => be4 (fst p) ++ be4 (snd p)) p1) ++ be4 st ++ be4 en ++
                  (concat (map (fun p => be4 (fst p) ++ be4 (snd p)) p2) ++ concat vals)).
      { subst v. rewrite Hpos, map_app, concat_app. cbn [map concat fst snd].
        now rewrite <- !app_assoc. }
      unfold agg_entry.
      rewrite Hv1 at 1.
      rewrite (slice_mid _ (be4 st)) by (rewrite ?concat_pos_length, ?be4_length; lia). cbn [bind].
      rewrite Hv1 at 1.
      rewrite (app_assoc (concat (map _ p1)) (be4 st)).
      rewrite (slice_mid _ (be4 en)) by (rewrite ?app_length, ?concat_pos_length, ?be4_length; lia). cbn [bind].
      rewrite !of_be_be4 by lia.
      subst v. rewrite Hcv. rewrite (app_assoc (concat (map _ pos))).
      apply sliceN_mid.
      - rewrite app_length, concat_pos_length, Hpl. subst st. lia.
      - subst st en. lia. }
    rewrite Hentry. cbn [bind].
    specialize (IH (done ++ [(a, m)])). cbv zeta in IH.
    replace (length (done ++ [(a, m)])) with (S (length done)) in IH
      by (rewrite app_length; simpl; lia).
    rewrite <- app_assoc in IH. cbn [app] in IH.
    fold vals pos v in IH. rewrite IH by assumption. reflexivity.
Qed.

Lemma agg_roundtrip (m : agg_meta) :
  om_sorted m -> N.of_nat (length (agg_encode m)) < u32_max ->
  agg_from_hex (agg_encode m) (om_keys m) = Ok m.
Proof.
  intros Hs Hl. unfold agg_from_hex.
  pose proof (agg_entries_encode [] m) as H. cbv zeta in H. cbn [app length] in H.
  unfold agg_encode in *. unfold om_keys.
  rewrite H by assumption. cbn [bind]. now rewrite om_of_list_id.
Qed.

(** ** Signatures of the merkle-root metadata *)
Lemma mr_signature_list v sigs i :
  mr_signatures v = concat sigs ->
  Forall (fun x => length x = SIGNATURE_LENGTH) sigs ->
  (i < length sigs)%nat ->
  mr_signatures_len v = Ok (length sigs) /\ mr_signature_at v i = Ok (nth i sigs []).
Proof.
  intros Hs HF Hi. split.
  - unfold mr_signatures_len. rewrite Hs.
    rewrite (concat_length_const SIGNATURE_LENGTH sigs HF), Nat.mul_comm.
    rewrite Nat.mod_mul by discriminate. rewrite Nat.eqb_refl.
    rewrite Nat.div_mul by discriminate. reflexivity.
  - unfold mr_signature_at. rewrite Hs.
    destruct (nth_split sigs [] Hi) as (l1 & l2 & E & L).
    rewrite E at 1. rewrite concat_app. cbn [concat].
    rewrite E in HF. apply Forall_app in HF as [F1 F2]. apply Forall_cons_iff in F2 as [F2 F3].
    pose proof (concat_length_const SIGNATURE_LENGTH l1 F1) as C1.
    apply slice_mid; rewrite ?C1, ?L, ?F2; unfold SIGNATURE_LENGTH; lia.
Qed.
