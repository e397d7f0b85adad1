(** * Bytes, results and slices shared by the whole model.

    Rust values of type [Vec<u8>], [HexBinary], [String] and [Addr] are lists
    of [byte] (the 256-constructor type of the standard library); fixed width
    integers are [N] together with explicit range checks. *)

From Coq Require Import List NArith ZArith Lia Bool.
From Coq Require Export Strings.Byte Strings.String.
From Coq Require Export ZifyBool ZifyNat ZifyN.
Import ListNotations.
#[global] Open Scope list_scope.
#[global] Open Scope N_scope.

(** (notation) [len()], e.g. /repo/packages/interface/src/types/metadata.rs:105 *)
Notation length := List.length.
(** (notation) byte concatenation, e.g.
    /repo/packages/interface/src/types/message.rs:31-44 *)
Notation concat := List.concat.

(** [Vec<u8>] / [HexBinary]: /repo/packages/interface/src/types/message.rs:7-15 *)
Notation bytes := (list byte).
(** Rust [String]/[Addr]: UTF-8 bytes: e.g.
    /repo/packages/interface/src/core/mailbox.rs:12-16 *)
Notation str := (list byte).

(** Readable literals: [s "osmo"] is the byte list of the text. For literals such as
    /repo/packages/interface/src/types/crypto.rs:3 *)
Definition s (x : string) : bytes := list_byte_of_string x.

(** ** Byte <-> N *)
(** [u8] values: /repo/packages/interface/src/types/message.rs:48-58 *)
Definition bN (b : byte) : N := Byte.to_N b.
(** [u8] values: /repo/packages/interface/src/types/message.rs:31-44 *)
Definition nB (n : N) : byte :=
  match Byte.of_N n with Some b => b | None => x00 end.

(** equality of [u8], used by [bytes_eqb]:
    /repo/contracts/isms/multisig/src/query.rs:47-55 *)
Definition byte_eqb (a b : byte) : bool := Byte.eqb a b.

(** [==] on strings and bytes, e.g. /repo/packages/ownable/src/lib.rs:62-83 *)
Fixpoint bytes_eqb (a b : bytes) : bool :=
  match a, b with
  | [], [] => true
  | x :: a', y :: b' => byte_eqb x y && bytes_eqb a' b'
  | _, _ => false
  end.

(** Lexicographic order of byte strings: the [Ord] of Rust's [String] (hence of [Addr]
    keys in a [BTreeMap]) and of storage keys. Used through
    /repo/packages/interface/src/types/metadata.rs:137 *)
Fixpoint bytes_ltb (a b : bytes) : bool :=
  match a, b with
  | _, [] => false
  | [], _ :: _ => true
  | x :: a', y :: b' =>
      if bN x <? bN y then true
      else if bN y <? bN x then false else bytes_ltb a' b'
  end.

(** ** Results.  [Err] is a returned Rust error, [Panic] an abort (slice out
    of range, [unwrap]/[expect], overflow with [overflow-checks = true]:
    /repo/Cargo.toml profile.release). *)
(** The errors are those of /repo/contracts/*/*/src/error.rs (or lib.rs) and
    [StdError]. *)
Inductive err : Set :=
| EStd            (* StdError::* : generic, not found, parse, ... *)
| EParse          (* message not in the contract's ExecuteMsg/QueryMsg *)
| EUnauthorized
| EOwnershipTransferring
| EOwnershipNotTransferring
| EPaused
| EAlreadyPaused
| ENotPaused
| ERouteNotFound
| EInvalidAddressLength (got : N)
| EHookPayment
| EInvalidMessageVersion
| EInvalidDestinationDomain
| EAlreadyDeliveredMessage
| EVerifyFailed
| EInvalidConfig
| EWrongLength
| EVerifyReplay
| EVerifyWrongSigner
| ERecover
| EPaymentNoFunds
| EPaymentMultiple
| EPaymentMissingDenom
| EInsufficientFunds
| EGasOracleNotFound
| EInvalidDomain
| EInvalidReplyId
| EMigration
| ETreeFull
| EOverflow
| ENoContract
| EOutOfFuel
| EOther (n : N).

(** [Result<T, ContractError>], e.g.
    /repo/contracts/core/mailbox/src/contract.rs:51-70; aborts: /repo/Cargo.toml:25-26
    with e.g. /repo/contracts/warp/native/src/contract.rs:163 *)
Inductive res (A : Type) : Type :=
| Ok (a : A)
| Err (e : err)
| Panic.
Arguments Ok {A} a.
Arguments Err {A} e.
Arguments Panic {A}.

(** the [?] operator, e.g. /repo/contracts/core/mailbox/src/contract.rs:18-48 *)
Definition bind {A B} (x : res A) (f : A -> res B) : res B :=
  match x with Ok a => f a | Err e => Err e | Panic => Panic end.

(** (notation) the [?] operator, e.g.
    /repo/contracts/core/mailbox/src/contract.rs:18-48 *)
Notation "x <- e ;; k" := (bind e (fun x => k))
  (at level 61, e at next level, right associativity).
(** (notation) the same with a pattern, e.g.
    /repo/contracts/core/mailbox/src/contract.rs:18-48 *)
Notation "' p <- e ;; k" := (bind e (fun p => k))
  (at level 61, p pattern, e at next level, right associativity).

(** [ensure!(b, e)]: e.g. /repo/contracts/warp/native/src/contract.rs:219-222 *)
Definition ensure (b : bool) (e : err) : res unit := if b then Ok tt else Err e.
(** [assert]-like abort; overflow checks: /repo/Cargo.toml:25, e.g.
    /repo/contracts/core/mailbox/src/execute.rs:49-106 *)
Definition need (b : bool) : res unit := if b then Ok tt else Panic.
(** [Option::ok_or]: e.g. /repo/contracts/warp/native/src/contract.rs:128 *)
Definition ok_or {A} (o : option A) (e : err) : res A :=
  match o with Some a => Ok a | None => Err e end.
(** [Option::expect] / [unwrap]: e.g. /repo/contracts/warp/native/src/contract.rs:163 *)
Definition expect {A} (o : option A) : res A :=
  match o with Some a => Ok a | None => Panic end.
(** [Result::unwrap]: e.g. /repo/packages/interface/src/types/message.rs:48-58 *)
Definition unwrap {A} (r : res A) : res A :=
  match r with Ok a => Ok a | _ => Panic end.
(** [map_err(|_| e)]: e.g. /repo/packages/interface/src/types/bech32.rs:14-18 *)
Definition map_err {A} (r : res A) (e : err) : res A :=
  match r with Ok a => Ok a | Err _ => Err e | Panic => Panic end.

(** for statements only: did a call such as
    /repo/contracts/core/mailbox/src/contract.rs:51-70 return [Ok]? *)
Definition is_ok {A} (r : res A) : bool :=
  match r with Ok _ => true | _ => false end.

(** [map(..).collect::<StdResult<Vec<_>>>()], e.g.
    /repo/contracts/isms/aggregate/src/lib.rs:46-50 *)
Fixpoint mapM {A B} (f : A -> res B) (l : list A) : res (list B) :=
  match l with
  | [] => Ok []
  | a :: l' => b <- f a ;; bs <- mapM f l' ;; Ok (b :: bs)
  end.

(** [try_fold] and loops with [?], e.g. /repo/contracts/hooks/aggregate/src/lib.rs:167 *)
Fixpoint foldM {A B} (f : B -> A -> res B) (l : list A) (b : B) : res B :=
  match l with
  | [] => Ok b
  | a :: l' => b' <- f b a ;; foldM f l' b'
  end.

(** ** Big-endian words: [uN::to_be_bytes], [uN::from_be_bytes]. *)
(** e.g. /repo/packages/interface/src/types/message.rs:31-44 *)
Fixpoint be (k : nat) (n : N) : bytes :=
  match k with
  | O => []
  | S k' => be k' (n / 256) ++ [nB (n mod 256)]
  end.

(** [uN::from_be_bytes], e.g. /repo/packages/interface/src/types/message.rs:48-58 *)
Definition of_be (l : bytes) : N := fold_left (fun acc b => acc * 256 + bN b) l 0.

(** [u32::to_be_bytes]: /repo/packages/interface/src/types/message.rs:35-38 *)
Definition be4 (n : N) : bytes := be 4 n.
(** [Uint256::to_be_bytes]: /repo/packages/interface/src/warp/mod.rs:64-73 *)
Definition be32 (n : N) : bytes := be 32 n.

(** bound of [u8], e.g. the threshold of
    /repo/packages/interface/src/ism/multisig.rs:21-33 (exclusive) *)
Definition u8_max : N := 2 ^ 8.
(** bound of [u32] domains and nonces:
    /repo/packages/interface/src/types/message.rs:7-15 *)
Definition u32_max : N := 2 ^ 32.   (* exclusive *)
(** bound of [u64], e.g. the numbers of a version:
    /repo/packages/utils/src/lib.rs:33-34 *)
Definition u64_max : N := 2 ^ 64.
(** bound of [Uint128], e.g. /repo/contracts/warp/native/src/conv.rs:43-45 *)
Definition u128_max : N := 2 ^ 128.
(** bound of [Uint256], e.g. /repo/contracts/igps/core/src/query.rs:77-79 *)
Definition u256_max : N := 2 ^ 256.

(** ** Slices [v[i..j]], aborting out of range. *)
(** e.g. /repo/packages/interface/src/types/message.rs:48-58 *)
Definition slice (i j : nat) (l : bytes) : res bytes :=
  if (Nat.leb i j && Nat.leb j (List.length l))%bool
  then Ok (firstn (j - i) (skipn i l))
  else Panic.

(** [v[i..]]: e.g. /repo/packages/interface/src/types/bech32.rs:37 *)
Definition slice_from (i : nat) (l : bytes) : res bytes :=
  if Nat.leb i (List.length l) then Ok (skipn i l) else Panic.

(** [v[i..j]] with data-dependent [u32]/[usize] bounds; compared in [N] first so that
    no large [nat] is ever built: e.g.
    /repo/packages/interface/src/types/metadata.rs:156-176 *)
Definition sliceN (i j : N) (l : bytes) : res bytes :=
  if ((i <=? j) && (j <=? N.of_nat (List.length l)))%bool
  then Ok (firstn (N.to_nat (j - i)) (skipn (N.to_nat i) l))
  else Panic.

(** [[0u8; k]]: /repo/packages/interface/src/types/bech32.rs:7 *)
Definition zeros (k : nat) : bytes := repeat x00 k.

(** Left padding into a zeroed 32-byte array: [addr[32 -
    raw.len()..].copy_from_slice(raw)], aborting when longer:
    /repo/packages/interface/src/types/bech32.rs:7-8 *)
Definition pad32 (raw : bytes) : res bytes :=
  if Nat.leb (List.length raw) 32
  then Ok (zeros (32 - List.length raw) ++ raw)
  else Panic.

(** [slice.chunks_exact(k)]: complete chunks only, remainder dropped:
    /repo/packages/interface/src/types/metadata.rs:105 *)
Fixpoint chunks_exact_fuel (fuel k : nat) (l : bytes) : list bytes :=
  match fuel with
  | O => []
  | S f =>
      if Nat.leb k (List.length l)
      then firstn k l :: chunks_exact_fuel f k (skipn k l)
      else []
  end.
(** /repo/packages/interface/src/types/metadata.rs:105 *)
Definition chunks_exact (k : nat) (l : bytes) : list bytes :=
  chunks_exact_fuel (List.length l) k l.

(** Decimal rendering of a [usize]/[u128] ([to_string]); fuel = digit bound: e.g.
    /repo/packages/interface/src/types/crypto.rs:16 *)
Fixpoint dec_fuel (fuel : nat) (n : N) (acc : bytes) : bytes :=
  match fuel with
  | O => acc
  | S f =>
      let acc' := nB (48 + n mod 10) :: acc in
      if n <? 10 then acc' else dec_fuel f (n / 10) acc'
  end.
(** [to_string], e.g. /repo/packages/interface/src/types/crypto.rs:16 *)
Definition dec (n : N) : bytes := dec_fuel 80 n [].

(** [contains] on lists, e.g. /repo/contracts/isms/multisig/src/query.rs:55 *)
Fixpoint mem_bytes (x : bytes) (l : list bytes) : bool :=
  match l with
  | [] => false
  | y :: l' => bytes_eqb x y || mem_bytes x l'
  end.

(** Hex literals, for examples and tables: [hx "00ff"]. Such literals occur in the
    tests only, e.g. /repo/packages/interface/src/types/bech32.rs:47-60. *)
Definition hexval (c : Ascii.ascii) : N :=
  let n := Ascii.N_of_ascii c in
  if n <? 58 then n - 48 else if n <? 71 then n - 55 else n - 87.
(** the literals of tests, e.g. /repo/packages/interface/src/types/bech32.rs:47-60 *)
Fixpoint hx (x : string) : bytes :=
  match x with
  | String a (String b x') => nB (16 * hexval a + hexval b) :: hx x'
  | _ => []
  end.
