(** * /repo/contracts/core/va: validator announce *)
From Coq Require Import List NArith Bool.
From Verif Require Import Base OMap Crypto Bech32 Hex Coins Chain.
Import ListNotations.

(** va/src/state.rs:4-17 *)
Record va : Type := mkVa {
  va_mailbox : bytes;
  va_domain : N;
  va_validators : omap bytes unit;
  va_locations : omap bytes (list str);
  va_replay : omap bytes unit
}.

(** va/src/contract.rs:27-55 *)
Definition va_instantiate (A : api) (q : querier) (mailbox : str) : res (va * response) :=
  m <- addr_validate A mailbox ;;
  a <- bech32_decode m ;;
  r <- smart q m QLocalDomain ;;
  match r with
  | RLocalDomain d => Ok (mkVa a d [] [] [], resp0)
  | _ => Err EStd
  end.

(** va/src/contract.rs:123-129 *)
Definition va_replay_hash (validator : bytes) (location : str) : bytes :=
  keccak256_hash (validator ++ location).

(** va/src/contract.rs:131-143; aborts when the mailbox is longer than 32 bytes *)
Definition va_domain_hash (domain : N) (mailbox : bytes) : res bytes :=
  a <- pad32 mailbox ;;
  Ok (keccak256_hash (be4 domain ++ a ++ s "HYPERLANE_ANNOUNCEMENT")).

(** va/src/contract.rs:145-151 *)
Definition va_announcement_hash (domain_hash : bytes) (location : str) : bytes :=
  keccak256_hash (domain_hash ++ location).

(** va/src/contract.rs:184-190 [secp256k1_recover_pubkey(hash, &sig[..64], sig[64] - 27)] *)
Definition va_recover (A : api) (hash signature : bytes) : res bytes :=
  rs <- slice 0 64 signature ;;
  v <- slice 64 65 signature ;;
  _ <- need (27 <=? of_be v) ;;
  ok_or (api_recover A hash rs (of_be v - 27)) ERecover.

(** va/src/contract.rs:153-216 *)
Definition va_announce (A : api) (validator signature : bytes) (location : str) (x : va)
  : res (va * response) :=
  _ <- ensure (Nat.eqb (length validator) 20) (EInvalidAddressLength (N.of_nat (length validator))) ;;
  let rid := va_replay_hash validator location in
  _ <- ensure (match om_get rid (va_replay x) with Some _ => false | None => true end)
         EVerifyReplay ;;
  dh <- va_domain_hash (va_domain x) (va_mailbox x) ;;
  let hash := eth_hash (va_announcement_hash dh location) in
  pk <- va_recover A hash signature ;;
  a <- eth_addr pk ;;
  _ <- ensure (bytes_eqb a validator) EVerifyFailed ;;
  let locs := match om_get validator (va_locations x) with Some l => l | None => [] end in
  Ok (mkVa (va_mailbox x) (va_domain x)
        (om_set validator tt (va_validators x))
        (om_set validator (locs ++ [location]) (va_locations x))
        (om_set rid tt (va_replay x)), resp0).

(** va/src/contract.rs:58-71 *)
Definition va_execute (A : api) (m : emsg) (x : va) : res (va * response) :=
  match m with
  | MAnnounce v sg l => va_announce A v sg l x
  | _ => Err EParse
  end.

(** va/src/contract.rs:74-121; the mailbox is answered as hex text *)
Definition va_query (m : qmsg) (x : va) : res qres :=
  match m with
  | QLocations vs =>
      Ok (RLocations (map (fun v =>
        (hex_encode v, match om_get v (va_locations x) with Some l => l | None => [] end)) vs))
  | QValidators => Ok (RValidators (map hex_encode (om_keys (va_validators x))))
  | QVaMailbox => Ok (RMailbox (hex_encode (va_mailbox x)))
  | QVaLocalDomain => Ok (RLocalDomain (va_domain x))
  | _ => Err EParse
  end.
