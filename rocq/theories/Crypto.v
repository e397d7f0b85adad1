(** * /repo/packages/interface/src/types/crypto.rs *)
From Coq Require Import List NArith Bool.
From Verif Require Import Base Keccak.
Import ListNotations.

(** crypto.rs:5-13 *)
Definition keccak256_hash (bz : bytes) : bytes := keccak256 bz.

(** crypto.rs:3, the prefix of an Ethereum signed message *)
Definition eth_prefix : bytes := x19 :: s "Ethereum Signed Message:" ++ [x0a].

(** crypto.rs:15-21 *)
Definition eth_hash (message : bytes) : bytes :=
  keccak256_hash (eth_prefix ++ dec (N.of_nat (List.length message)) ++ message).

(** crypto.rs:23-31: hash of the key without its first byte (slice aborts on
    an empty key), last 20 bytes. *)
Definition eth_addr (pubkey : bytes) : res bytes :=
  k <- slice_from 1 pubkey ;;
  Ok (skipn 12 (keccak256_hash k)).
