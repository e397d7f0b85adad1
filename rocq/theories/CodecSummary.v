(** * The codec lemmas in the shape of the property statements. *)
From Coq Require Import List NArith ZArith Lia Bool Arith Permutation.
From Verif Require Import Base BaseFacts Keccak Crypto Message Bech32 OMap Metadata
  CodecFacts Bech32Facts Merkle MerkleFacts.
Import ListNotations.

Lemma msg_codec :
  (forall m, m_version m < 2 ^ 8 -> m_nonce m < 2 ^ 32 -> m_origin m < 2 ^ 32 ->
     m_dest m < 2 ^ 32 -> length (m_sender m) = 32%nat -> length (m_recipient m) = 32%nat ->
     msg_decode (msg_encode m) = Ok m) /\
  (forall v, (77 <= length v)%nat -> exists m, msg_decode v = Ok m /\ msg_encode m = v) /\
  (forall v, (length v < 77)%nat -> msg_decode v = Panic).
Proof.
  split; [|split].
  - intros m H1 H2 H3 H4 H5 H6. apply msg_decode_encode. unfold msg_wf. auto 10.
  - intros v H. destruct (msg_decode_total v H) as (m & E & _ & R). eauto.
  - exact msg_decode_short.
Qed.

Lemma warp_codec :
  (forall w, length (w_recipient w) = 32%nat -> w_amount w < 2 ^ 256 ->
     warp_decode (warp_encode w) = Ok w) /\
  (forall v, (64 <= length v)%nat -> exists w, warp_decode v = Ok w /\ warp_encode w = v) /\
  (forall v, (length v < 64)%nat -> warp_decode v = Panic).
Proof.
  split; [|split].
  - intros w H1 H2. apply warp_decode_encode. split; assumption.
  - intros v H. destruct (warp_decode_total v H) as (w & E & _ & R). eauto.
  - exact warp_decode_short.
Qed.

Lemma mid_codec v e :
  length (mid_tree v) = 32%nat -> length (mid_root v) = 32%nat ->
  length (mid_index v) = 4%nat -> Forall (fun x => length x = 65%nat) (mid_signatures v) ->
  mid_encode v = Ok e -> mid_decode e = Ok v.
Proof. intros H1 H2 H3 H4. apply mid_decode_encode. unfold mid_wf. auto. Qed.

Lemma mid_chunks e : (68 <= length e)%nat ->
  exists v tail, mid_decode e = Ok v /\
    e = mid_tree v ++ mid_root v ++ mid_index v ++ concat (mid_signatures v) ++ tail /\
    length (mid_tree v) = 32%nat /\ length (mid_root v) = 32%nat /\
    length (mid_index v) = 4%nat /\ Forall (fun x => length x = 65%nat) (mid_signatures v) /\
    (length tail < 65)%nat.
Proof.
  intros H. destruct (mid_decode_total e H) as (v & tail & E & (W1 & W2 & W3 & W4) & T & R).
  exists v, tail. auto 10.
Qed.

Lemma mr_codec v :
  length (mr_origin_mailbox v) = 32%nat -> mr_checkpoint_index v < 2 ^ 32 ->
  length (mr_message_id v) = 32%nat -> N.of_nat (length (mr_proof v)) = 1024 ->
  mr_decode (mr_encode v) = Ok v.
Proof. intros. apply mr_decode_encode. unfold mr_wf. auto. Qed.

Lemma ex_agg_sorted : om_sorted [(s "ism1", s "AAAA"); (s "ism2", s ""); (s "ism3", s "C")].
Proof. repeat (split || constructor). Qed.

Lemma agg_unsorted :
  exists (m : agg_meta) addrs m',
    om_sorted m /\ Permutation addrs (map fst m) /\
    agg_from_hex (agg_encode m) addrs = Ok m' /\
    om_get (s "ism1") m = Some (s "AAAA") /\ om_get (s "ism1") m' = Some (s "C").
Proof.
  exists [(s "ism1", s "AAAA"); (s "ism2", s "C")], [s "ism2"; s "ism1"],
         [(s "ism1", s "C"); (s "ism2", s "AAAA")].
  split; [repeat (split || constructor)|].
  split; [apply perm_swap|].
  repeat split; vm_compute; reflexivity.
Qed.

Lemma igp_codec :
  (forall v, ig_gas_limit v < 2 ^ 256 -> igp_decode (igp_encode v) = Ok v) /\
  (forall e, (32 <= length e)%nat -> exists v, igp_decode e = Ok v /\ igp_encode v = e) /\
  (forall e, (length e < 32)%nat -> igp_decode e = Panic).
Proof.
  split; [exact igp_decode_encode|]. split; [|exact igp_decode_short].
  intros e H. destruct (igp_decode_total e H) as (v & E & _ & R). eauto.
Qed.

Lemma igp_refund_partial v hrp dflt :
  hrp_ok hrp ->
  (length (ig_refund v) = 20%nat \/ length (ig_refund v) = 32%nat) ->
  firstn 16 (ig_refund v) <> zeros 16 ->
  exists e, igp_refund_address v hrp dflt = Ok e /\
            bech32_encode hrp (ig_refund v) = Ok e /\
            bech32_decode e = Ok (account (ig_refund v)).
Proof. intros H1 H2 H3. now apply igp_refund_spec. Qed.

Lemma igp_refund_refuted :
  exists v, (length (ig_refund v) = 20%nat \/ length (ig_refund v) = 32%nat) /\
    forall hrp dflt, igp_refund_address v hrp dflt = Panic.
Proof.
  exists (mkIgpMeta 1 (zeros 16 ++ s "addr")). split; [left; reflexivity|].
  intros hrp dflt. apply igp_refund_panic; [reflexivity|left; reflexivity].
Qed.

Lemma bech32_roundtrip hrp raw :
  (1 <= length hrp <= 83)%nat -> forallb is_lower hrp = true ->
  (length raw = 32%nat \/ length raw = 20%nat) ->
  exists e, bech32_encode hrp raw = Ok e /\ bech32_decode e = Ok (account raw) /\
            bech32_to_h256 e = Ok (zeros (32 - length raw) ++ raw).
Proof.
  intros H1 H2 H3. pose proof (hrp_ok_lower hrp H1 H2) as Hh.
  destruct (bech32_encode_total hrp raw Hh H3) as [e He]. exists e.
  split; [exact He|]. split; [now apply (bech32_decode_encode hrp)|].
  rewrite (bech32_h256_encode hrp raw e Hh He). apply pad32_ok. lia.
Qed.

Lemma bech32_injective hrp a b e :
  (1 <= length hrp <= 83)%nat -> forallb is_lower hrp = true ->
  length a = 32%nat -> length b = 32%nat ->
  bech32_encode hrp a = Ok e -> bech32_encode hrp b = Ok e -> a = b.
Proof. intros H1 H2. apply bech32_encode_inj. now apply hrp_ok_lower. Qed.

Lemma merkle_spec ls :
  (N.of_nat (length ls) <= 2 ^ 32 - 1 ->
   exists t, foldM mt_insert ls mt_default = Ok t /\
             mt_count t = N.of_nat (length ls) /\ mt_root t = padded_root ls) /\
  (2 ^ 32 - 1 < N.of_nat (length ls) -> foldM mt_insert ls mt_default = Err ETreeFull).
Proof. split; [exact (merkle_correct ls)|exact (merkle_full ls)]. Qed.

Lemma three_leaf_root :
  let k2 a b := keccak256 (a ++ b) in
  let l i := repeat i 32 in
  (t <- foldM mt_insert [l x01; l x02; l x03] mt_default ;; Ok (mt_root t))
  = Ok (fold_left k2 (map zero_hash (seq 2 30))
          (k2 (k2 (l x01) (l x02)) (k2 (l x03) (zeros 32)))).
Proof.
  change (seq 2 30) with (skipn 2 (seq 0 32)). rewrite <- skipn_map, <- zero_table.
  vm_compute. reflexivity.
Qed.

Lemma two_leaf_proof :
  let ls := [repeat x01 32; repeat x02 32] in
  leaf ls 1 = repeat x02 32 /\
  branch_root (repeat x02 32) (repeat x01 32 :: map zero_hash (seq 1 31)) 1 = padded_root ls.
Proof.
  intros ls. split; [reflexivity|].
  destruct (merkle_correct ls) as (t & E & _ & R); [discriminate|].
  rewrite <- R. clear R.
  change (seq 1 31) with (skipn 1 (seq 0 32)). rewrite <- skipn_map, <- zero_table.
  assert (E2 : (t <- foldM mt_insert ls mt_default ;; Ok (mt_root t)) = Ok (mt_root t))
    by now rewrite E.
  apply Ok_inj. rewrite <- E2. vm_compute. reflexivity.
Qed.

Lemma zero_hashes_right :
  length ZERO_HASHES = 32%nat /\ nth 0 ZERO_HASHES [] = zeros 32 /\
  forall k, (k < 31)%nat ->
    nth (S k) ZERO_HASHES [] = keccak256 (nth k ZERO_HASHES [] ++ nth k ZERO_HASHES []).
Proof.
  split; [reflexivity|]. split; [reflexivity|]. intros k Hk.
  rewrite zero_table.
  assert (N : forall j, (j < 32)%nat -> nth j (map zero_hash (seq 0 32)) [] = zero_hash j).
  { intros j Hj. rewrite (nth_indep _ _ (zero_hash 0)) by (rewrite map_length, seq_length; exact Hj).
    rewrite map_nth, seq_nth by exact Hj. reflexivity. }
  rewrite !N by lia. reflexivity.
Qed.
