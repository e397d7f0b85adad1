(** * Protocol buffers on the wire (protobuf.dev, "Encoding") and UTF-8.

    Specification side: what a sequence of bytes says to anyone who reads it as
    a protobuf message.  Nothing here uses the encoder or decoder of Proto.v. *)
From Coq Require Import List NArith.
From Verif Require Import Base Chain SpecVersion.
Import ListNotations.

(** ** Wire format *)
(** base-128 numbers: groups of seven bits, least significant first; a byte
    above 127 announces another one *)
Inductive base128 : N -> bytes -> Prop :=
| b128_last b : bN b < 128 -> base128 (bN b) [b]
| b128_more b n l : 128 <= bN b -> base128 n l -> base128 (bN b - 128 + 128 * n) (b :: l).

Inductive payload :=
| PNumber (n : N)        (* wire type 0 *)
| PFixed (l : bytes)     (* wire types 1 (eight bytes) and 5 (four bytes) *)
| PBytes (l : bytes).    (* wire type 2: strings, nested messages *)

(** [says b fs]: the bytes [b] carry the fields [fs], in that order *)
Inductive says : bytes -> list (N * payload) -> Prop :=
| says_nothing : says [] []
| says_number k v tag n b fs :
    base128 (8 * tag) k -> base128 n v -> says b fs ->
    says (k ++ v ++ b) ((tag, PNumber n) :: fs)
| says_fixed64 k v tag b fs :
    base128 (8 * tag + 1) k -> length v = 8%nat -> says b fs ->
    says (k ++ v ++ b) ((tag, PFixed v) :: fs)
| says_bytes k n v tag b fs :
    base128 (8 * tag + 2) k -> base128 (N.of_nat (length v)) n -> says b fs ->
    says (k ++ n ++ v ++ b) ((tag, PBytes v) :: fs)
| says_fixed32 k v tag b fs :
    base128 (8 * tag + 5) k -> length v = 4%nat -> says b fs ->
    says (k ++ v ++ b) ((tag, PFixed v) :: fs).

(** every value of a repeated field, in order *)
Fixpoint all_bytes (tag : N) (fs : list (N * payload)) : list bytes :=
  match fs with
  | [] => []
  | (t, PBytes v) :: fs' => if t =? tag then v :: all_bytes tag fs' else all_bytes tag fs'
  | _ :: fs' => all_bytes tag fs'
  end.
Fixpoint all_numbers (tag : N) (fs : list (N * payload)) : list N :=
  match fs with
  | [] => []
  | (t, PNumber n) :: fs' => if t =? tag then n :: all_numbers tag fs' else all_numbers tag fs'
  | _ :: fs' => all_numbers tag fs'
  end.
(** a single field: its last value, or the empty default *)
Definition the_text (tag : N) (fs : list (N * payload)) : bytes := last (all_bytes tag fs) [].
Definition the_number (tag : N) (fs : list (N * payload)) : N := last (all_numbers tag fs) 0.

(** a field's text, and the field of a nested message that is present once *)
Definition text_in (b : bytes) (tag : N) (v : bytes) : Prop :=
  exists fs, says b fs /\ the_text tag fs = v.
Definition number_in (b : bytes) (tag n : N) : Prop :=
  exists fs, says b fs /\ the_number tag fs = n.
Definition list_in (b : bytes) (tag : N) (l : list bytes) : Prop :=
  exists fs, says b fs /\ all_bytes tag fs = l.

(** ** UTF-8 *)
(** the scalar values and their byte sequences (RFC 3629) *)
Definition scalar (c : N) : Prop := c < 55296 \/ 57343 < c < 1114112.
Inductive utf8_char : N -> bytes -> Prop :=
| u8_1 a : bN a < 128 -> utf8_char (bN a) [a]
| u8_2 a b c : bN a = 192 + c / 64 -> bN b = 128 + c mod 64 ->
    128 <= c < 2048 -> utf8_char c [a; b]
| u8_3 a b d c : bN a = 224 + c / 4096 -> bN b = 128 + (c / 64) mod 64 ->
    bN d = 128 + c mod 64 -> 2048 <= c < 65536 -> utf8_char c [a; b; d]
| u8_4 a b d e c : bN a = 240 + c / 262144 -> bN b = 128 + (c / 4096) mod 64 ->
    bN d = 128 + (c / 64) mod 64 -> bN e = 128 + c mod 64 ->
    65536 <= c < 1114112 -> utf8_char c [a; b; d; e].
Inductive utf8 : bytes -> Prop :=
| utf8_nil : utf8 []
| utf8_cons c ch l : scalar c -> utf8_char c ch -> utf8 l -> utf8 (ch ++ l).

(** ** Token-factory requests (osmosis.tokenfactory.v1beta1) *)
(** MsgMint and MsgBurn: 1 sender, 2 Coin (1 denom, 2 amount in decimal) *)
Definition coin_request (b : bytes) (sender denom : str) (n : N) : Prop :=
  text_in b 1 sender /\
  exists coin amount, list_in b 2 [coin] /\ text_in coin 1 denom /\ text_in coin 2 amount /\
    numeric amount /\ no_leading_zero amount /\ decimal amount = n.
(** MsgCreateDenom: 1 sender, 2 subdenom *)
Definition create_request (b : bytes) (sender subdenom : str) : Prop :=
  text_in b 1 sender /\ text_in b 2 subdenom.
(** MsgSetDenomMetadata: 1 sender, 2 cosmos.bank.v1beta1.Metadata *)
Definition unit_is (b : bytes) (u : denom_unit) : Prop :=
  text_in b 1 (du_denom u) /\ number_in b 2 (du_exponent u) /\ list_in b 3 (du_aliases u).
Definition metadata_request (b : bytes) (sender : str) (m : denom_metadata) : Prop :=
  text_in b 1 sender /\
  exists md units, list_in b 2 [md] /\
    text_in md 1 (md_description m) /\ list_in md 2 units /\ Forall2 unit_is units (md_units m) /\
    text_in md 3 (md_base m) /\ text_in md 4 (md_display m) /\
    text_in md 5 (md_name m) /\ text_in md 6 (md_symbol m).

(** the type URL and the content of each request *)
Definition requests (m : cmsg) (url : str) (b : bytes) : Prop :=
  match m with
  | CMint sender n d =>
      url = s "/osmosis.tokenfactory.v1beta1.MsgMint" /\ coin_request b sender d n
  | CBurn sender n d =>
      url = s "/osmosis.tokenfactory.v1beta1.MsgBurn" /\ coin_request b sender d n
  | CCreateDenom sender d =>
      url = s "/osmosis.tokenfactory.v1beta1.MsgCreateDenom" /\ create_request b sender d
  | CSetDenomMetadata sender md =>
      url = s "/osmosis.tokenfactory.v1beta1.MsgSetDenomMetadata" /\ metadata_request b sender md
  | _ => False
  end.
(** token-factory messages; amounts are [Uint256] at most *)
Definition factory_message (m : cmsg) : Prop :=
  match m with
  | CMint _ n _ | CBurn _ n _ => n < 2 ^ 256
  | CCreateDenom _ _ | CSetDenomMetadata _ _ => True
  | _ => False
  end.
