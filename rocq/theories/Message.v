(** * Wire formats of messages.
    /repo/packages/interface/src/types/message.rs and
    /repo/packages/interface/src/warp/mod.rs *)
From Coq Require Import List NArith Bool.
From Verif Require Import Base Keccak Crypto.
Import ListNotations.

(** message.rs:6-15 *)
Record message : Type := mkMessage {
  m_version : N;        (* u8 *)
  m_nonce : N;          (* u32 *)
  m_origin : N;         (* u32 origin_domain *)
  m_sender : bytes;
  m_dest : N;           (* u32 dest_domain *)
  m_recipient : bytes;
  m_body : bytes
}.

(** message.rs:30-45 [From<Message> for HexBinary] *)
Definition msg_encode (m : message) : bytes :=
  be 1 (m_version m) ++ be4 (m_nonce m) ++ be4 (m_origin m) ++ m_sender m ++
  be4 (m_dest m) ++ m_recipient m ++ m_body m.

(** message.rs:47-59 [From<HexBinary> for Message]; every index aborts when
    out of range *)
Definition msg_decode (v : bytes) : res message :=
  b0 <- slice 0 1 v ;;
  n <- slice 1 5 v ;;
  o <- slice 5 9 v ;;
  snd <- slice 9 41 v ;;
  d <- slice 41 45 v ;;
  r <- slice 45 77 v ;;
  b <- slice_from 77 v ;;
  Ok (mkMessage (of_be b0) (of_be n) (of_be o) snd (of_be d) r b).

(** message.rs:18-20 *)
Definition msg_id (m : message) : bytes := keccak256_hash (msg_encode m).

(** Widths of a message's fields (what the Rust types guarantee, plus the 32-byte
    addresses every decoded or dispatched message has):
    /repo/packages/interface/src/types/message.rs:7-15 *)
Definition msg_wf (m : message) : Prop :=
  m_version m < u8_max /\ m_nonce m < u32_max /\ m_origin m < u32_max /\
  m_dest m < u32_max /\ length (m_sender m) = 32%nat /\ length (m_recipient m) = 32%nat.

(** warp/mod.rs:56-61 (lines of the file): token payload *)
Record warp_message : Type := mkWarp {
  w_recipient : bytes;
  w_amount : N;         (* Uint256 *)
  w_metadata : bytes
}.

(** warp/mod.rs:63-73 *)
Definition warp_encode (w : warp_message) : bytes :=
  w_recipient w ++ be32 (w_amount w) ++ w_metadata w.

(** warp/mod.rs:75-83 *)
Definition warp_decode (v : bytes) : res warp_message :=
  r <- slice 0 32 v ;;
  a <- slice 32 64 v ;;
  md <- slice_from 64 v ;;
  Ok (mkWarp r (of_be a) md).

(** widths of a warp payload: /repo/packages/interface/src/warp/mod.rs:57-61 *)
Definition warp_wf (w : warp_message) : Prop :=
  length (w_recipient w) = 32%nat /\ w_amount w < u256_max.
