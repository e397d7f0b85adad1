(** * Properties C01-C03, C05-C11: wire formats, addresses, Merkle tree. *)
From Coq Require Import List NArith Bool Permutation.
From Verif Require Import Base BaseFacts Keccak Crypto Message Bech32 OMap Metadata
  CodecFacts Bech32Facts Merkle MerkleFacts CodecSummary
  SpecCodec LayoutFacts CaseFacts.
Import ListNotations.

(** ** C01 *)
Theorem C01_message_roundtrip :
  (forall m, m_version m < 2 ^ 8 -> m_nonce m < 2 ^ 32 -> m_origin m < 2 ^ 32 ->
     m_dest m < 2 ^ 32 -> length (m_sender m) = 32%nat -> length (m_recipient m) = 32%nat ->
     msg_decode (msg_encode m) = Ok m) /\
  (forall v, (77 <= length v)%nat -> exists m, msg_decode v = Ok m /\ msg_encode m = v) /\
  (forall v, (length v < 77)%nat -> msg_decode v = Panic).
Proof. exact msg_codec. Qed.
Print Assumptions C01_message_roundtrip.

(** where each field is *)
Theorem C01_layout :
  (forall m, msg_wf m -> message_layout (msg_encode m) m) /\
  (forall v m, msg_decode v = Ok m -> message_layout v m).
Proof. exact (conj message_laid_out message_read). Qed.
Print Assumptions C01_layout.

Definition ex_message : message :=
  mkMessage 3 7 5 (repeat x11 32) 6 (repeat x22 32) (s "hello").
Example C01_ex :
  msg_wf ex_message /\ length (msg_encode ex_message) = 82%nat /\
  msg_decode (msg_encode ex_message) = Ok ex_message /\
  msg_decode (firstn 76 (msg_encode ex_message)) = Panic.
Proof. vm_compute. repeat split; reflexivity. Qed.

(** ** C02 *)
Theorem C02_message_id_binds m1 m2 :
  msg_wf m1 -> msg_wf m2 -> msg_id m1 = msg_id m2 ->
  m1 = m2 \/
  (msg_encode m1 <> msg_encode m2 /\ keccak256 (msg_encode m1) = keccak256 (msg_encode m2)).
Proof. exact (msg_id_binds m1 m2). Qed.
Print Assumptions C02_message_id_binds.

Example C02_ex :
  let m2 := mkMessage 3 8 5 (repeat x11 32) 6 (repeat x22 32) (s "hello") in
  msg_wf ex_message /\ msg_wf m2 /\ msg_id ex_message <> msg_id m2.
Proof. vm_compute. repeat split; (reflexivity || discriminate). Qed.

(** ** C03 *)
Theorem C03_warp_payload_roundtrip :
  (forall w, length (w_recipient w) = 32%nat -> w_amount w < 2 ^ 256 ->
     warp_decode (warp_encode w) = Ok w) /\
  (forall v, (64 <= length v)%nat -> exists w, warp_decode v = Ok w /\ warp_encode w = v) /\
  (forall v, (length v < 64)%nat -> warp_decode v = Panic).
Proof. exact warp_codec. Qed.
Print Assumptions C03_warp_payload_roundtrip.

Theorem C03_layout :
  (forall w, length (w_recipient w) = 32%nat -> w_amount w < 2 ^ 256 -> transfer_layout (warp_encode w) w) /\
  (forall v w, warp_decode v = Ok w -> transfer_layout v w).
Proof. exact (conj transfer_laid_out transfer_read). Qed.
Print Assumptions C03_layout.

Example C03_ex :
  let w := mkWarp (repeat xab 32) (2 ^ 128 + 5) (s "md") in
  length (warp_encode w) = 66%nat /\ warp_decode (warp_encode w) = Ok w.
Proof. vm_compute. split; reflexivity. Qed.

(** ** C05 *)
Theorem C05_message_id_metadata v e :
  length (mid_tree v) = 32%nat -> length (mid_root v) = 32%nat ->
  length (mid_index v) = 4%nat -> Forall (fun x => length x = 65%nat) (mid_signatures v) ->
  mid_encode v = Ok e -> mid_decode e = Ok v.
Proof. exact (mid_codec v e). Qed.
Print Assumptions C05_message_id_metadata.

(** every metadata string splits into the fields, whole signatures and a
    remainder shorter than a signature which is not read *)
Theorem C05_message_id_chunks e : (68 <= length e)%nat ->
  exists v tail, mid_decode e = Ok v /\
    e = mid_tree v ++ mid_root v ++ mid_index v ++ concat (mid_signatures v) ++ tail /\
    length (mid_tree v) = 32%nat /\ length (mid_root v) = 32%nat /\
    length (mid_index v) = 4%nat /\ Forall (fun x => length x = 65%nat) (mid_signatures v) /\
    (length tail < 65)%nat.
Proof. exact (mid_chunks e). Qed.
Print Assumptions C05_message_id_chunks.

Theorem C05_merkle_root_metadata v :
  length (mr_origin_mailbox v) = 32%nat -> mr_checkpoint_index v < 2 ^ 32 ->
  length (mr_message_id v) = 32%nat -> N.of_nat (length (mr_proof v)) = 1024 ->
  mr_decode (mr_encode v) = Ok v.
Proof. exact (mr_codec v). Qed.
Print Assumptions C05_merkle_root_metadata.

Theorem C05_merkle_root_layout v :
  length (mr_origin_mailbox v) = 32%nat -> mr_checkpoint_index v < 2 ^ 32 ->
  length (mr_message_id v) = 32%nat -> N.of_nat (length (mr_proof v)) = 1024 ->
  root_metadata_layout (mr_encode v) v.
Proof. exact (root_metadata_laid_out v). Qed.
Print Assumptions C05_merkle_root_layout.

Theorem C05_merkle_root_signatures v sigs i :
  mr_signatures v = concat sigs -> Forall (fun x => length x = 65%nat) sigs ->
  (i < length sigs)%nat ->
  mr_signatures_len v = Ok (length sigs) /\ mr_signature_at v i = Ok (nth i sigs []).
Proof. exact (mr_signature_list v sigs i). Qed.
Print Assumptions C05_merkle_root_signatures.

Example C05_ex :
  let v := mkMidMeta (repeat x01 32) (repeat x02 32) (be4 9) [repeat x03 65; repeat x04 65] in
  (e <- mid_encode v ;; mid_decode (e ++ s "trailing")) = Ok v.
Proof. vm_compute. reflexivity. Qed.
Example C05_ex_root :
  let v := mkMrMeta (repeat x01 32) 77 (repeat x02 32) (repeat x05 (32 * 32))
                    (repeat x03 65 ++ repeat x04 65) in
  mr_decode (mr_encode v) = Ok v /\ mr_signature_at v 1 = Ok (repeat x04 65).
Proof. vm_compute. split; reflexivity. Qed.

(** ** C06 *)
Theorem C06_aggregate_metadata (m : agg_meta) :
  om_sorted m -> N.of_nat (length (agg_encode m)) < 2 ^ 32 ->
  agg_from_hex (agg_encode m) (map fst m) = Ok m.
Proof. exact (agg_roundtrip m). Qed.
Print Assumptions C06_aggregate_metadata.

Theorem C06_layout (m : agg_meta) :
  N.of_nat (length (agg_encode m)) < 2 ^ 32 -> aggregate_layout (agg_encode m) (map snd m).
Proof. exact (aggregate_laid_out m). Qed.
Print Assumptions C06_layout.

Definition ex_agg : agg_meta := [(s "ism1", s "AAAA"); (s "ism2", s ""); (s "ism3", s "C")].
Example C06_ex :
  om_sorted ex_agg /\ agg_from_hex (agg_encode ex_agg) [s "ism1"; s "ism2"; s "ism3"] = Ok ex_agg.
Proof. split; [apply ex_agg_sorted|vm_compute; reflexivity]. Qed.

(** a module list in another order hands a module somebody else's metadata *)
Theorem C06_unsorted_refuted :
  exists (m : agg_meta) addrs m',
    om_sorted m /\ Permutation addrs (map fst m) /\
    agg_from_hex (agg_encode m) addrs = Ok m' /\
    om_get (s "ism1") m = Some (s "AAAA") /\ om_get (s "ism1") m' = Some (s "C").
Proof. exact agg_unsorted. Qed.
Print Assumptions C06_unsorted_refuted.

(** ** C07 *)
Theorem C07_gas_metadata_roundtrip :
  (forall v, ig_gas_limit v < 2 ^ 256 -> igp_decode (igp_encode v) = Ok v) /\
  (forall e, (32 <= length e)%nat -> exists v, igp_decode e = Ok v /\ igp_encode v = e) /\
  (forall e, (length e < 32)%nat -> igp_decode e = Panic).
Proof. exact igp_codec. Qed.
Print Assumptions C07_gas_metadata_roundtrip.

Theorem C07_layout v : ig_gas_limit v < 2 ^ 256 -> gas_metadata_layout (igp_encode v) v.
Proof. exact (gas_metadata_laid_out v). Qed.
Print Assumptions C07_layout.

(** full statement: for every refund field of 20 or 32 bytes.  Missing: fields
    starting with sixteen zero bytes, see [C07_refund_refuted]. *)
Theorem C07_refund_address_partial v hrp dflt :
  hrp_ok hrp ->
  (length (ig_refund v) = 20%nat \/ length (ig_refund v) = 32%nat) ->
  firstn 16 (ig_refund v) <> zeros 16 ->
  exists e, igp_refund_address v hrp dflt = Ok e /\
            bech32_encode hrp (ig_refund v) = Ok e /\
            bech32_decode e = Ok (account (ig_refund v)).
Proof. exact (igp_refund_partial v hrp dflt). Qed.
Print Assumptions C07_refund_address_partial.

Theorem C07_refund_default v hrp dflt :
  length (ig_refund v) <> 20%nat -> length (ig_refund v) <> 32%nat ->
  igp_refund_address v hrp dflt = Ok dflt.
Proof. exact (igp_refund_default v hrp dflt). Qed.
Print Assumptions C07_refund_default.

Theorem C07_refund_refuted :
  exists v, (length (ig_refund v) = 20%nat \/ length (ig_refund v) = 32%nat) /\
    forall hrp dflt, igp_refund_address v hrp dflt = Panic.
Proof. exact igp_refund_refuted. Qed.
Print Assumptions C07_refund_refuted.

Example C07_ex :
  let v := mkIgpMeta 250000 (zeros 12 ++ hx "6ebb193ed60e0f9ee1f23df440932c488f76c413") in
  igp_decode (igp_encode v) = Ok v /\
  igp_refund_address v (s "axelar") (s "x") = Ok (s "axelar1d6a3j0kkpc8eac0j8h6ypyevfz8hd3qns4hm98").
Proof. vm_compute. split; reflexivity. Qed.

(** ** C08 *)
Theorem C08_address_roundtrip hrp raw :
  (1 <= length hrp <= 83)%nat -> forallb is_lower hrp = true ->
  (length raw = 32%nat \/ length raw = 20%nat) ->
  exists e, bech32_encode hrp raw = Ok e /\ bech32_decode e = Ok (account raw) /\
            bech32_to_h256 e = Ok (zeros (32 - length raw) ++ raw).
Proof. exact (bech32_roundtrip hrp raw). Qed.
Print Assumptions C08_address_roundtrip.

Theorem C08_address_injective hrp a b e :
  (1 <= length hrp <= 83)%nat -> forallb is_lower hrp = true ->
  length a = 32%nat -> length b = 32%nat ->
  bech32_encode hrp a = Ok e -> bech32_encode hrp b = Ok e -> a = b.
Proof. exact (bech32_injective hrp a b e). Qed.
Print Assumptions C08_address_injective.

(** the text of an address is a BIP-173 text of the account ... *)
Theorem C08_is_bech32 hrp raw e :
  (1 <= length hrp <= 83)%nat -> forallb is_lower hrp = true ->
  bech32_encode hrp raw = Ok e -> bech32_text 1 hrp (account raw) e.
Proof. exact (fun H1 H2 => address_is_bech32 hrp raw e (hrp_ok_lower hrp H1 H2)). Qed.
Print Assumptions C08_is_bech32.

(** ... and exactly the BIP-173 and BIP-350 texts are read (those without
    capitals; a text in capitals is read as its lower-case form) *)
Theorem C08_read_exactly text data :
  Forall (fun b => ~ capital b) text ->
  (bech32_decode text = Ok data <->
   exists hrp constant, (constant = 1 \/ constant = 0x2bc830a3) /\ prefix_ok hrp /\
     bech32_text constant hrp data text).
Proof. exact (address_read text data). Qed.
Print Assumptions C08_read_exactly.

Theorem C08_capitals text low :
  Forall (fun b => ~ small b) text -> Forall2 lowers text low -> bech32_decode text = bech32_decode low.
Proof. exact (capitals_read text low). Qed.
Print Assumptions C08_capitals.

(** a text that mixes capitals and small letters is refused *)
Theorem C08_mixed text data : Exists capital text -> Exists small text -> bech32_decode text <> Ok data.
Proof. exact (mixed_refused text data). Qed.
Print Assumptions C08_mixed.

Example C08_ex_capitals :
  let raw := hx "6ebb193ed60e0f9ee1f23df440932c488f76c413" in
  bech32_decode (s "OSMO1D6A3J0KKPC8EAC0J8H6YPYEVFZ8HD3QNUQJRC5") = Ok raw /\
  bech32_decode (s "OSMO1d6a3j0kkpc8eac0j8h6ypyevfz8hd3qnuqjrc5") = Err EStd /\
  bech32_decode (s "Osmo1d6a3j0kkpc8eac0j8h6ypyevfz8hd3qnuqjrc5") = Err EStd /\
  bech32_decode (s "osmo1d6a3j0kkpc8eac0j8h6ypyevfz8hd3qnuqjrC5") = Err EStd.
Proof. vm_compute. repeat split. Qed.

Example C08_ex :
  forallb is_lower (s "osmo") = true /\
  (e <- bech32_encode (s "osmo") (repeat x5a 20) ;; bech32_to_h256 e)
  = Ok (zeros 12 ++ repeat x5a 20).
Proof. vm_compute. split; reflexivity. Qed.

(** BIP-173's reading of an address, and a text with a wrong last character *)
Example C08_ex_text :
  let e := s "osmo1d6a3j0kkpc8eac0j8h6ypyevfz8hd3qnuqjrc5" in
  bech32_text 1 (s "osmo") (hx "6ebb193ed60e0f9ee1f23df440932c488f76c413") e /\
  bech32_decode (firstn 42 e ++ s "q") = Err EStd.
Proof.
  split; [|vm_compute; reflexivity]. eapply C08_is_bech32 with (raw := hx "6ebb193ed60e0f9ee1f23df440932c488f76c413").
  - vm_compute. split; repeat constructor.
  - reflexivity.
  - vm_compute. reflexivity.
Qed.

(** ** C09 *)
Theorem C09_incremental_root ls :
  (N.of_nat (length ls) <= 2 ^ 32 - 1 ->
   exists t, foldM mt_insert ls mt_default = Ok t /\
             mt_count t = N.of_nat (length ls) /\ mt_root t = padded_root ls) /\
  (2 ^ 32 - 1 < N.of_nat (length ls) -> foldM mt_insert ls mt_default = Err ETreeFull).
Proof. exact (merkle_spec ls). Qed.
Print Assumptions C09_incremental_root.

(** the three-leaf root, computed by the incremental tree *)
Example C09_ex :
  (t <- foldM mt_insert [repeat x01 32; repeat x02 32; repeat x03 32] mt_default ;; Ok (mt_count t))
  = Ok 3.
Proof. vm_compute. reflexivity. Qed.
Example C09_ex_root :
  let k2 a b := keccak256 (a ++ b) in
  let l i := repeat i 32 in
  (t <- foldM mt_insert [l x01; l x02; l x03] mt_default ;; Ok (mt_root t))
  = Ok (fold_left k2 (map zero_hash (seq 2 30))
          (k2 (k2 (l x01) (l x02)) (k2 (l x03) (zeros 32)))).
Proof. exact three_leaf_root. Qed.

(** ** C10 *)
Theorem C10_proof_complete ls i :
  i < 2 ^ 32 -> branch_root (leaf ls i) (proof_of ls i) i = padded_root ls.
Proof. exact (proof_complete ls i). Qed.
Print Assumptions C10_proof_complete.

Theorem C10_proof_binding ls i item path :
  Forall (fun h => length h = 32%nat) ls -> i < 2 ^ 32 ->
  length item = 32%nat -> length path = 32%nat -> Forall (fun h => length h = 32%nat) path ->
  branch_root item path i = padded_root ls ->
  item = leaf ls i \/
  exists k, (k < 32)%nat /\
    let p := nth k (path_pre item path i) [] in
    let q := nth k (path_pre (leaf ls i) (proof_of ls i) i) [] in
    p <> q /\ keccak256 p = keccak256 q.
Proof. exact (proof_binding ls i item path). Qed.
Print Assumptions C10_proof_binding.

(** leaf 1 of two leaves: its path is leaf 0 and then zero hashes *)
Example C10_ex :
  let ls := [repeat x01 32; repeat x02 32] in
  leaf ls 1 = repeat x02 32 /\
  branch_root (repeat x02 32) (repeat x01 32 :: map zero_hash (seq 1 31)) 1 = padded_root ls.
Proof. exact two_leaf_proof. Qed.

(** ** C11 *)
Theorem C11_zero_hashes :
  length ZERO_HASHES = 32%nat /\ nth 0 ZERO_HASHES [] = zeros 32 /\
  forall k, (k < 31)%nat ->
    nth (S k) ZERO_HASHES [] = keccak256 (nth k ZERO_HASHES [] ++ nth k ZERO_HASHES []).
Proof. exact zero_hashes_right. Qed.
Print Assumptions C11_zero_hashes.
Example C11_ex :
  nth 1 ZERO_HASHES [] = hx "ad3228b676f7d3cd4284a5443f17f1962b36e491b30a40b2405849e597ba5fb5".
Proof. reflexivity. Qed.
