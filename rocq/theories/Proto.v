(** * Token-factory messages on the wire: /repo/contracts/warp/native/src/proto.rs

    The warp route hands the chain protobuf bytes ([CosmosMsg::Stargate]) and
    reads the reply to its MsgCreateDenom from protobuf bytes.  The encoder and
    decoder are prost 0.12's, which /repo uses through [derive(prost::Message)]. *)
From Coq Require Import List NArith Bool.
From Verif Require Import Base Chain Warp.
Import ListNotations.

(** ** Encoding *)
(** prost::encoding::encode_varint: seven bits per byte, least significant first, the
    high bit set on every byte but the last. The fuel is enough for every number;
    Rust's are below 2^64: crate prost 0.12 (/repo/Cargo.toml:70) behind
    /repo/contracts/warp/native/src/proto.rs:17 *)
Fixpoint varint_fuel (fuel : nat) (n : N) : bytes :=
  match fuel with
  | O => []
  | S f => if n <? 128 then [nB n] else nB (n mod 128 + 128) :: varint_fuel f (n / 128)
  end.
(** crate prost 0.12 (/repo/Cargo.toml:70) behind
    /repo/contracts/warp/native/src/proto.rs:17 *)
Definition varint (n : N) : bytes := varint_fuel (S (N.to_nat (N.size n))) n.

(** prost::encoding::encode_key: crate prost 0.12 (/repo/Cargo.toml:70) behind
    /repo/contracts/warp/native/src/proto.rs:17 *)
Definition field_key (tag wire_type : N) : bytes := varint (tag * 8 + wire_type).

(** a length-delimited field (wire type 2): crate prost 0.12 (/repo/Cargo.toml:70)
    behind /repo/contracts/warp/native/src/proto.rs:17 *)
Definition delimited (tag : N) (v : bytes) : bytes :=
  field_key tag 2 ++ varint (N.of_nat (length v)) ++ v.

(** [#[prost(string, tag)]]: an empty string is left out: crate prost 0.12
    (/repo/Cargo.toml:70) behind /repo/contracts/warp/native/src/proto.rs:17 *)
Definition string_field (tag : N) (v : bytes) : bytes :=
  match v with [] => [] | _ => delimited tag v end.
(** [#[prost(uint32, tag)]]: zero is left out:
    /repo/contracts/warp/native/src/proto.rs:96-101 *)
Definition uint32_field (tag n : N) : bytes :=
  if n =? 0 then [] else field_key tag 0 ++ varint n.
(** [#[prost(string, repeated, tag)]] and [#[prost(message, repeated, tag)]]: every
    element is written, empty or not; [#[prost(message, optional, tag)]] writes the
    message when present, empty or not:
    /repo/contracts/warp/native/src/proto.rs:103-104, 112-113 *)
Definition repeated_field (tag : N) (l : list bytes) : bytes := flat_map (delimited tag) l.

(** proto.rs:5-11 *)
Definition create_denom_bytes (sender subdenom : str) : bytes :=
  string_field 1 sender ++ string_field 2 subdenom.
(** proto.rs:22-26 *)
Definition create_denom_response_bytes (new_token_denom : str) : bytes :=
  string_field 1 new_token_denom.
(** proto.rs:44-50; the amount is [amount.to_string()], conv.rs:13,23 *)
Definition coin_bytes (denom : str) (amount : N) : bytes :=
  string_field 1 denom ++ string_field 2 (dec amount).
(** proto.rs:52-58 and 69-75; conv.rs:8-26 *)
Definition mint_bytes (sender denom : str) (amount : N) : bytes :=
  string_field 1 sender ++ delimited 2 (coin_bytes denom amount).
(** proto.rs:86-105 *)
Definition denom_unit_bytes (u : denom_unit) : bytes :=
  string_field 1 (du_denom u) ++ uint32_field 2 (du_exponent u) ++
  repeated_field 3 (du_aliases u).
(** proto.rs:107-131 *)
Definition metadata_bytes (m : denom_metadata) : bytes :=
  string_field 1 (md_description m) ++
  repeated_field 2 (map denom_unit_bytes (md_units m)) ++
  string_field 3 (md_base m) ++ string_field 4 (md_display m) ++
  string_field 5 (md_name m) ++ string_field 6 (md_symbol m).
(** proto.rs:133-139; conv.rs:47-67 *)
Definition set_metadata_bytes (sender : str) (m : denom_metadata) : bytes :=
  string_field 1 sender ++ delimited 2 (metadata_bytes m).

(** proto.rs:13-20, 60-67, 77-84, 141-148: the type URL and bytes handed to the
    chain for each token-factory message *)
Definition stargate (m : cmsg) : option (str * bytes) :=
  match m with
  | CCreateDenom sender sub =>
      Some (s "/osmosis.tokenfactory.v1beta1.MsgCreateDenom", create_denom_bytes sender sub)
  | CMint sender n d =>
      Some (s "/osmosis.tokenfactory.v1beta1.MsgMint", mint_bytes sender d n)
  | CBurn sender n d =>
      Some (s "/osmosis.tokenfactory.v1beta1.MsgBurn", mint_bytes sender d n)
  | CSetDenomMetadata sender md =>
      Some (s "/osmosis.tokenfactory.v1beta1.MsgSetDenomMetadata", set_metadata_bytes sender md)
  | _ => None
  end.

(** ** Decoding the reply *)
(** prost::encoding::decode_varint: at most ten bytes, below 2^64: crate prost 0.12
    (/repo/Cargo.toml:70) behind /repo/contracts/warp/native/src/proto.rs:32 *)
Fixpoint read_varint (fuel : nat) (l : bytes) : res (N * bytes) :=
  match fuel, l with
  | S f, b :: l' =>
      if bN b <? 128 then Ok (bN b, l')
      else ' (n, r) <- read_varint f l' ;; Ok (bN b - 128 + 128 * n, r)
  | _, _ => Err EStd
  end.
(** crate prost 0.12 (/repo/Cargo.toml:70) behind
    /repo/contracts/warp/native/src/proto.rs:32 *)
Definition decode_varint (l : bytes) : res (N * bytes) :=
  ' (n, r) <- read_varint 10 l ;;
  if n <? u64_max then Ok (n, r) else Err EStd.

(** prost::encoding::decode_key: the key fits 32 bits, the field number is not 0:
    crate prost 0.12 (/repo/Cargo.toml:70) behind
    /repo/contracts/warp/native/src/proto.rs:32 *)
Definition decode_key (l : bytes) : res (N * N * bytes) :=
  ' (k, r) <- decode_varint l ;;
  if ((k <? u32_max) && negb (k / 8 =? 0))%bool then Ok (k / 8, k mod 8, r) else Err EStd.

(** the first [n] bytes and the rest: crate prost 0.12 (/repo/Cargo.toml:70) behind
    /repo/contracts/warp/native/src/proto.rs:32 *)
Definition take_bytes (n : N) (l : bytes) : res (bytes * bytes) :=
  if n <=? N.of_nat (length l) then Ok (firstn (N.to_nat n) l, skipn (N.to_nat n) l)
  else Err EStd.

(** [core::str::from_utf8]: the well-formed byte sequences (Unicode, table 3-7): crate
    prost 0.12 (/repo/Cargo.toml:70) behind
    /repo/contracts/warp/native/src/proto.rs:32 *)
Definition between (lo hi : N) (b : byte) : bool := ((lo <=? bN b) && (bN b <=? hi))%bool.
(** crate prost 0.12 (/repo/Cargo.toml:70) behind
    /repo/contracts/warp/native/src/proto.rs:32 *)
Fixpoint valid_utf8 (l : bytes) : bool :=
  match l with
  | [] => true
  | a :: l1 =>
      if between 0 127 a then valid_utf8 l1
      else match l1 with
      | [] => false
      | b :: l2 =>
          if between 194 223 a then (between 128 191 b && valid_utf8 l2)%bool
          else match l2 with
          | [] => false
          | c :: l3 =>
              if between 224 239 a then
                ((if bN a =? 224 then between 160 191 b
                  else if bN a =? 237 then between 128 159 b
                  else between 128 191 b) && between 128 191 c && valid_utf8 l3)%bool
              else match l3 with
              | [] => false
              | d :: l4 =>
                  if between 240 244 a then
                    ((if bN a =? 240 then between 144 191 b
                      else if bN a =? 244 then between 128 143 b
                      else between 128 191 b) && between 128 191 c && between 128 191 d
                     && valid_utf8 l4)%bool
                  else false
              end
          end
      end
  end.

(** proto.rs:22-42, MsgCreateDenomResponse::decode: fields in any order, the
    last occurrence of field 1 wins, other fields are skipped.  Simplified:
    groups (wire types 3 and 4, deprecated) are refused instead of skipped. *)
Fixpoint read_response (fuel : nat) (l : bytes) (denom : str) : res str :=
  match fuel with
  | O => Err EStd
  | S f =>
      match l with
      | [] => Ok denom
      | _ =>
          ' (tag, wt, r) <- decode_key l ;;
          if tag =? 1 then
            _ <- ensure (wt =? 2) EStd ;;
            ' (n, r1) <- decode_varint r ;;
            ' (v, r2) <- take_bytes n r1 ;;
            _ <- ensure (valid_utf8 v) EStd ;;
            read_response f r2 v
          else if wt =? 0 then
            ' (_, r1) <- decode_varint r ;; read_response f r1 denom
          else if wt =? 1 then
            ' (_, r1) <- take_bytes 8 r ;; read_response f r1 denom
          else if wt =? 2 then
            ' (n, r1) <- decode_varint r ;;
            ' (_, r2) <- take_bytes n r1 ;; read_response f r2 denom
          else if wt =? 5 then
            ' (_, r1) <- take_bytes 4 r ;; read_response f r1 denom
          else Err EStd
      end
  end.
(** what the chain answers to MsgCreateDenom:
    /repo/contracts/warp/native/src/proto.rs:22-26 *)
Definition create_denom_response (data : bytes) : res str :=
  read_response (S (length data)) data [].

(** warp/native/src/contract.rs:122-144 with the reply's bytes ([None]: no data);
    [wn_reply] is the same after decoding *)
Definition wn_reply_bytes (id : N) (r : res (option bytes)) (x : wp) : res (wp * response) :=
  match r with
  | Ok (Some data) =>
      if id =? REPLY_ID_CREATE_DENOM then
        d <- create_denom_response data ;; Ok (wp_set_token x d, resp0)
      else Err EInvalidReplyId
  | _ => Err EStd
  end.
