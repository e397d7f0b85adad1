(** * [HexBinary::from_hex] and [HexBinary::to_hex] (cosmwasm-std 1.5.0 over the
      [hex] crate): two digits per byte, either case accepted, lower case
      produced. *)
From Coq Require Import List NArith Bool.
From Verif Require Import Base.
Import ListNotations.

(** digits of [to_hex], used e.g. at /repo/contracts/warp/native/src/contract.rs:262 *)
Definition hex_digit (n : N) : byte := if n <? 10 then nB (48 + n) else nB (87 + n).

(** digits of [from_hex], used at /repo/contracts/hooks/routing-custom/src/lib.rs:131 *)
Definition hex_value (b : byte) : option N :=
  let c := bN b in
  if ((48 <=? c) && (c <=? 57))%bool then Some (c - 48)
  else if ((97 <=? c) && (c <=? 102))%bool then Some (c - 87)
  else if ((65 <=? c) && (c <=? 70))%bool then Some (c - 55)
  else None.

(** [HexBinary::to_hex]: e.g. /repo/contracts/warp/native/src/contract.rs:262 *)
Fixpoint hex_encode (l : bytes) : str :=
  match l with
  | [] => []
  | b :: l' => hex_digit (bN b / 16) :: hex_digit (bN b mod 16) :: hex_encode l'
  end.

(** [HexBinary::from_hex]: odd length or a non-digit is an error:
    /repo/contracts/hooks/routing-custom/src/lib.rs:131 *)
Fixpoint hex_decode (l : str) : res bytes :=
  match l with
  | [] => Ok []
  | a :: b :: l' =>
      match hex_value a, hex_value b with
      | Some x, Some y => r <- hex_decode l' ;; Ok (nB (x * 16 + y) :: r)
      | _, _ => Err EStd
      end
  | _ => Err EStd
  end.
