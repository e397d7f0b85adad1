(** * Interchain gas paymaster and oracle: /repo/contracts/igps *)
From Coq Require Import List NArith Bool.
From Verif Require Import Base OMap Crypto Message Bech32 Metadata Coins Chain Ownable Router
  Mailbox Hooks.
Import ListNotations.

(** ** igps/oracle *)
(** oracle/src/state.rs:6-13 *)
Record gas_data : Type := mkGasData { gd_rate : N; gd_price : N }.
(** /repo/contracts/igps/oracle/src/state.rs:12-13 *)
Record orc : Type := mkOrc { or_own : own; or_data : omap N gas_data }.

(** oracle/src/contract.rs:20-33 *)
Definition or_instantiate (A : api) (owner : str) : res (orc * response) :=
  o <- addr_validate A owner ;; Ok (mkOrc (own_init o) [], resp0).

(** oracle/src/state.rs:15-24 *)
Definition or_insert (m : omap N gas_data) (c : gas_config) : omap N gas_data :=
  om_set (gc_domain c) (mkGasData (gc_rate c) (gc_price c)) m.

(** oracle/src/contract.rs:36-83: only the batch form checks the rate *)
Definition or_execute (A : api) (i : info) (m : emsg) (x : orc) : res (orc * response) :=
  match m with
  | MOracleOwnership om => o <- own_handle A i om (or_own x) ;; Ok (mkOrc o (or_data x), resp0)
  | MSetRemoteGasDataConfigs l =>
      _ <- only_owner (or_own x) i ;;
      d <- foldM (fun m c => _ <- ensure (negb (gc_rate c =? 0)) EInvalidConfig ;;
                             Ok (or_insert m c)) l (or_data x) ;;
      Ok (mkOrc (or_own x) d, resp0)
  | MSetRemoteGasData c =>
      _ <- only_owner (or_own x) i ;;
      Ok (mkOrc (or_own x) (or_insert (or_data x) c), resp0)
  | _ => Err EParse
  end.

(** oracle/src/contract.rs:86-100 *)
Definition or_query (m : qmsg) (x : orc) : res qres :=
  match m with
  | QOwner | QPendingOwner => own_query m (or_own x)
  | QOracle d => g <- ok_or (om_get d (or_data x)) EStd ;; Ok (ROracle (gd_price g) (gd_rate g))
  | _ => Err EParse
  end.

(** ** igps/core *)
(** core/src/lib.rs:19 *)
Definition TOKEN_EXCHANGE_RATE_SCALE : N := 10000000000.

(** core/src/lib.rs:21-34, packages/ownable, packages/router *)
Record gp : Type := mkGp {
  gp_own : own;
  gp_routes : routes;
  gp_hrp : str;
  gp_token : str;
  gp_default_gas : N;
  gp_gas : omap N N;
  gp_beneficiary : addr
}.

(** core/src/contract.rs:21-58.  [query_supply] never fails on chain (an
    unknown denomination has supply zero). *)
Definition gp_instantiate (A : api) (hrp owner token beneficiary : str) (gas : N)
  : res (gp * response) :=
  _ <- ensure (hrp_lowercase hrp) EInvalidConfig ;;
  o <- addr_validate A owner ;;
  b <- addr_validate A beneficiary ;;
  Ok (mkGp (own_init o) [] hrp token gas [] b, resp0).

(** core/src/lib.rs:36-41 *)
Definition gp_gas_for (x : gp) (d : N) : N :=
  match om_get d (gp_gas x) with Some g => g | None => gp_default_gas x end.

(** core/src/query.rs:72-75, 133-136: the oracle's answer *)
Definition query_oracle (q : querier) (oracle : addr) (d : N) : res (N * N) :=
  r <- smart q oracle (QOracle d) ;;
  match r with ROracle price rate => Ok (price, rate) | _ => Err EStd end.

(** [Uint256] multiplication aborts on overflow:
    /repo/contracts/igps/core/src/query.rs:77-79 *)
Definition u256_mul (a b : N) : res N := _ <- need (a * b <? u256_max) ;; Ok (a * b).

(** core/src/query.rs:61-82 *)
Definition gp_quote (q : querier) (x : gp) (d gas : N) : res N :=
  oracle <- ok_or (rs_route (get_route (gp_routes x) d)) EGasOracleNotFound ;;
  ' (price, rate) <- query_oracle q oracle d ;;
  cost <- u256_mul gas price ;;
  n <- u256_mul cost rate ;;
  Ok (n / TOKEN_EXCHANGE_RATE_SCALE).

(** core/src/execute.rs:143-183 *)
Definition gp_pay_for_gas (q : querier) (i : info) (d gas : N) (refund : str) (x : gp)
  : res (gp * response) :=
  received <- must_pay (i_funds i) (gp_token x) ;;
  needed <- gp_quote q x d gas ;;
  _ <- ensure (needed <=? received) EInsufficientFunds ;;
  let gap := received - needed in
  _ <- ensure (gap <? u128_max) EStd ;;
  Ok (x, resp (if gap =? 0 then [] else [CBankSend refund [mkCoin (gp_token x) gap]])).

(** core/src/execute.rs:110-141 *)
Definition gp_post_dispatch (q : querier) (i : info) (metadata message : bytes) (x : gp)
  : res (gp * response) :=
  m <- msg_decode message ;;
  ' (gas, refund) <-
    (if Nat.ltb (length metadata) 32 then
       a <- bech32_encode (gp_hrp x) (m_sender m) ;;
       Ok (gp_gas_for x (m_dest m), a)
     else
       md <- igp_decode metadata ;;
       a <- bech32_encode (gp_hrp x) (m_sender m) ;;
       r <- igp_refund_address md (gp_hrp x) a ;;
       Ok (ig_gas_limit md, r)) ;;
  gp_pay_for_gas q i (m_dest m) gas refund x.

(** core/src/execute.rs:90-108 *)
Definition gp_claim (q : querier) (e : env) (i : info) (x : gp) : res (gp * response) :=
  _ <- ensure (bytes_eqb (i_sender i) (gp_beneficiary x)) EUnauthorized ;;
  Ok (x, resp [CBankSend (gp_beneficiary x)
                 [mkCoin (gp_token x) (q_balance q (e_contract e) (gp_token x))]]).

(** core/src/contract.rs:61-99 with core/src/execute.rs:22-88 *)
Definition gp_execute (A : api) (q : querier) (e : env) (i : info) (m : emsg) (x : gp)
  : res (gp * response) :=
  match m with
  | MOwnable om =>
      o <- own_handle A i om (gp_own x) ;;
      Ok (mkGp o (gp_routes x) (gp_hrp x) (gp_token x) (gp_default_gas x) (gp_gas x)
               (gp_beneficiary x), resp0)
  | MRouter rm =>
      r <- router_handle (gp_own x) i rm (gp_routes x) ;;
      Ok (mkGp (gp_own x) r (gp_hrp x) (gp_token x) (gp_default_gas x) (gp_gas x)
               (gp_beneficiary x), resp0)
  | MPostDispatch md msg => gp_post_dispatch q i md msg x
  | MSetDefaultGas g =>
      _ <- only_owner (gp_own x) i ;;
      Ok (mkGp (gp_own x) (gp_routes x) (gp_hrp x) (gp_token x) g (gp_gas x)
               (gp_beneficiary x), resp0)
  | MSetGasForDomain l =>
      _ <- only_owner (gp_own x) i ;;
      Ok (mkGp (gp_own x) (gp_routes x) (gp_hrp x) (gp_token x) (gp_default_gas x)
               (fold_left (fun m p => om_set (fst p) (snd p) m) l (gp_gas x))
               (gp_beneficiary x), resp0)
  | MUnsetGasForDomain l =>
      _ <- only_owner (gp_own x) i ;;
      Ok (mkGp (gp_own x) (gp_routes x) (gp_hrp x) (gp_token x) (gp_default_gas x)
               (fold_left (fun m d => om_del d m) l (gp_gas x))
               (gp_beneficiary x), resp0)
  | MSetBeneficiary b =>
      _ <- only_owner (gp_own x) i ;;
      b' <- addr_validate A b ;;
      Ok (mkGp (gp_own x) (gp_routes x) (gp_hrp x) (gp_token x) (gp_default_gas x) (gp_gas x)
               b', resp0)
  | MClaim => gp_claim q e i x
  | MPayForGas _ d gas refund => gp_pay_for_gas q i d gas refund x
  | _ => Err EParse
  end.

(** core/src/query.rs:94-122 *)
Definition gp_quote_dispatch (q : querier) (metadata message : bytes) (x : gp) : res (list coin) :=
  m <- msg_decode message ;;
  gas <- (if Nat.ltb (length metadata) 32 then Ok (gp_gas_for x (m_dest m))
          else md <- igp_decode metadata ;; Ok (ig_gas_limit md)) ;;
  fees <- gp_quote q x (m_dest m) gas ;;
  if fees =? 0 then Ok []
  else (_ <- ensure (fees <? u128_max) EStd ;; Ok [mkCoin (gp_token x) fees]).

(** core/src/contract.rs:102-135 with core/src/query.rs:13-59, 84-92, 124-137 *)
Definition gp_query (q : querier) (m : qmsg) (x : gp) : res qres :=
  match m with
  | QOwner | QPendingOwner => own_query m (gp_own x)
  | QDomains | QGetRoute _ | QListRoutes _ _ _ => router_query m (gp_routes x)
  | QHookQuote md msg => f <- gp_quote_dispatch q md msg x ;; Ok (RFees f)
  | QHookMailbox => Ok (RMailbox unrestricted)
  | QOracle d =>
      oracle <- ok_or (rs_route (get_route (gp_routes x) d)) EGasOracleNotFound ;;
      ' (price, rate) <- query_oracle q oracle d ;; Ok (ROracle price rate)
  | QDefaultGas => Ok (RGas (gp_default_gas x))
  | QGasForDomain ds =>
      l <- mapM (fun d => g <- ok_or (om_get d (gp_gas x)) EStd ;; Ok (d, g)) ds ;;
      Ok (RGasList l)
  | QListGas off lim o => l <- range_page (gp_gas x) off lim o ;; Ok (RGasList l)
  | QBeneficiary => Ok (RBeneficiary (gp_beneficiary x))
  | QQuoteGasPayment d g => n <- gp_quote q x d g ;; Ok (RGasNeeded n)
  | _ => Err EParse
  end.
