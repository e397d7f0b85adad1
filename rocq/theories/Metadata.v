(** * ISM and gas metadata codecs.
    /repo/packages/interface/src/types/metadata.rs *)
From Coq Require Import List NArith Bool.
From Verif Require Import Base BaseFacts OMap Bech32.
Import ListNotations.

(** metadata.rs:8 *)
Definition SIGNATURE_LENGTH : nat := 65.

(** metadata.rs:11-20 *)
Record mr_meta : Type := mkMrMeta {
  mr_origin_mailbox : bytes;
  mr_checkpoint_index : N;
  mr_message_id : bytes;
  mr_proof : bytes;
  mr_signatures : bytes
}.

(** metadata.rs:22-35 *)
Definition mr_encode (v : mr_meta) : bytes :=
  mr_origin_mailbox v ++ be4 (mr_checkpoint_index v) ++ mr_message_id v ++
  mr_proof v ++ mr_signatures v.

(** metadata.rs:37-47 *)
Definition mr_decode (v : bytes) : res mr_meta :=
  a <- slice 0 32 v ;;
  b <- slice 32 36 v ;;
  c <- slice 36 68 v ;;
  d <- slice 68 1092 v ;;
  e <- slice_from 1092 v ;;
  Ok (mkMrMeta a (of_be b) c d e).

(** metadata.rs:50-56 *)
Definition mr_signatures_len (v : mr_meta) : res nat :=
  if Nat.eqb (Nat.modulo (length (mr_signatures v)) SIGNATURE_LENGTH) 0
  then Ok (Nat.div (length (mr_signatures v)) SIGNATURE_LENGTH)
  else Err EStd.

(** metadata.rs:58-63 *)
Definition mr_signature_at (v : mr_meta) (i : nat) : res bytes :=
  slice (i * SIGNATURE_LENGTH) ((i + 1) * SIGNATURE_LENGTH) (mr_signatures v).

(** metadata.rs:66-75 *)
Record mid_meta : Type := mkMidMeta {
  mid_tree : bytes;        (* origin_merkle_tree *)
  mid_root : bytes;        (* merkle_root *)
  mid_index : bytes;       (* merkle_index, 4 bytes *)
  mid_signatures : list bytes
}.

(** metadata.rs:77-99; aborts when the tree address is longer than 32 *)
Definition mid_encode (v : mid_meta) : res bytes :=
  t <- pad32 (mid_tree v) ;;
  Ok (t ++ mid_root v ++ mid_index v ++ concat (mid_signatures v)).

(** metadata.rs:101-116 *)
Definition mid_decode (v : bytes) : res mid_meta :=
  tail <- slice_from 68 v ;;
  t <- slice 0 32 v ;;
  r <- slice 32 64 v ;;
  i <- slice 64 68 v ;;
  Ok (mkMidMeta t r i (chunks_exact SIGNATURE_LENGTH tail)).

(** metadata.rs:119-121; the conversion to [u8;4] is unwrapped *)
Definition mid_merkle_index (v : mid_meta) : res N :=
  if Nat.eqb (length (mid_index v)) 4 then Ok (of_be (mid_index v)) else Panic.

(** ** Aggregate metadata, metadata.rs:136-218 *)
Definition agg_meta : Type := omap str bytes.

(** metadata.rs:142-144 *)
Definition agg_new (set : list (str * bytes)) : agg_meta := om_of_list set.

(** metadata.rs:161-175, one entry *)
Definition agg_entry (v : bytes) (i : nat) : res bytes :=
  a <- slice (i * 8) (i * 8 + 4) v ;;
  b <- slice (i * 8 + 4) (i * 8 + 8) v ;;
  sliceN (of_be a) (of_be b) v.

(** metadata.rs:156-178 *)
Fixpoint agg_entries (v : bytes) (i : nat) (addrs : list str) : res (list (str * bytes)) :=
  match addrs with
  | [] => Ok []
  | a :: rest =>
      m <- agg_entry v i ;;
      r <- agg_entries v (S i) rest ;;
      Ok ((a, m) :: r)
  end.

(** /repo/packages/interface/src/types/metadata.rs:156-176 *)
Definition agg_from_hex (v : bytes) (addrs : list str) : res agg_meta :=
  l <- agg_entries v 0 addrs ;;
  Ok (om_of_list l).

(** metadata.rs:190-206: offsets of the values, in key order.  The Rust text
    keeps the low four of the eight [usize] bytes (64-bit hosts; on wasm32 the
    slice is empty and the copy aborts - the encoder is only used off chain). *)
Fixpoint agg_offsets (start : N) (l : list bytes) : list (N * N) :=
  match l with
  | [] => []
  | m :: l' =>
      let e := start + N.of_nat (length m) in
      (start, e) :: agg_offsets e l'
  end.

(** metadata.rs:181-218 *)
Definition agg_encode (m : agg_meta) : bytes :=
  let vals := map snd m in
  let pos := agg_offsets (N.of_nat (length m * 8)) vals in
  concat (map (fun p => be4 (fst p) ++ be4 (snd p)) pos) ++ concat vals.

(** ** Gas metadata, metadata.rs:220-266 *)
Record igp_meta : Type := mkIgpMeta {
  ig_gas_limit : N;       (* Uint256 *)
  ig_refund : bytes
}.

(** metadata.rs:226-236 *)
Definition igp_encode (v : igp_meta) : bytes := be32 (ig_gas_limit v) ++ ig_refund v.

(** metadata.rs:238-245 *)
Definition igp_decode (v : bytes) : res igp_meta :=
  g <- slice 0 32 v ;;
  r <- slice_from 32 v ;;
  Ok (mkIgpMeta (of_be g) r).

(** metadata.rs:248-265 *)
Definition igp_refund_address (v : igp_meta) (hrp : str) (default : str) : res str :=
  let r := ig_refund v in
  if (negb (Nat.eqb (length r) 20) && negb (Nat.eqb (length r) 32))%bool then Ok default
  else
    let raw := if forallb (fun b => byte_eqb b x00) (firstn 16 r) then skipn 16 r else r in
    unwrap (bech32_encode hrp raw).
