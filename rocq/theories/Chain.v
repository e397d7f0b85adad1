(** * What contracts see of the chain and of each other.

    Messages are values here, their JSON is in [Json] and [Wire]: the messages of
    all contracts form one sum type
    [emsg] (queries: [qmsg], query answers: [qres]); a contract whose
    [ExecuteMsg]/[QueryMsg] lacks a constructor answers [Err EParse], and a
    caller that expects another answer type gets [Err EStd].  Width checks that
    serde performs on integers are [emsg_ok]. *)
From Coq Require Import List NArith Bool.
From Verif Require Import Base OMap Coins Message.
Import ListNotations.

(** [cosmwasm_std::Addr], e.g. /repo/contracts/core/mailbox/src/state.rs:10-12 *)
Definition addr : Type := str.

(** ** Messages *)
(** /repo/packages/interface/src/ownable.rs:4-9 *)
Inductive ownable_msg :=
| InitOwnershipTransfer (next_owner : str)
| RevokeOwnershipTransfer
| ClaimOwnership.

(** /repo/packages/interface/src/pausable.rs:3-7 *)
Inductive pausable_msg := Pause | Release.

(** /repo/packages/interface/src/router.rs:7-17; [T] is [Addr] or [HexBinary] *)
Record route_set : Type := mkRouteSet { rs_domain : N; rs_route : option bytes }.
(** /repo/packages/interface/src/router.rs:7-17 *)
Inductive router_msg :=
| SetRoute (set : route_set)
| SetRoutes (set : list route_set).

(** /repo/packages/interface/src/connection.rs:3-10 *)
Inductive connection_msg :=
| SetMailbox (mailbox : str)
| SetHook (hook : str)
| SetIsm (ism : str).

(** /repo/packages/interface/src/core/mailbox.rs:18-25 *)
Record dispatch_msg : Type := mkDispatch {
  d_dest : N;
  d_recipient : bytes;
  d_body : bytes;
  d_hook : option str;
  d_metadata : option bytes
}.

(** /repo/packages/interface/src/hook/routing_custom.rs:17-28 *)
Record custom_hook : Type := mkCustomHook {
  ch_dest : N; ch_recipient : str; ch_hook : str }.

(** /repo/packages/interface/src/igp/oracle.rs:11-16 *)
Record gas_config : Type := mkGasConfig {
  gc_domain : N; gc_rate : N; gc_price : N }.

(** ExecuteMsg of every contract; file and lines under
    /repo/packages/interface/src beside each group *)
Inductive emsg :=
(* shared *)
| MOwnable (m : ownable_msg)
| MPausable (m : pausable_msg)
| MRouter (m : router_msg)
| MConnection (m : connection_msg)
| MPostDispatch (metadata message : bytes)                (* hook/mod.rs:14-18 *)
| MHandle (origin : N) (sender body : bytes)              (* core/mod.rs:7-24 *)
(* mailbox: core/mailbox.rs:80-104 *)
| MSetDefaultIsm (ism : str)
| MSetDefaultHook (hook : str)
| MSetRequiredHook (hook : str)
| MDispatch (d : dispatch_msg)
| MProcess (metadata message : bytes)
(* validator announce: core/va.rs:10-17 *)
| MAnnounce (validator signature : bytes) (location : str)
(* ism/multisig.rs:21-33, ism/aggregate.rs:14-19, ism/routing.rs:22-28 *)
| MSetValidators (domain threshold : N) (validators : list bytes)
| MUnsetDomain (domain : N)
| MSetIsms (isms : list str) (threshold : N)
| MRoutingSet (domain : N) (ism : str)
| MRoutingUnset (domains : list N)
(* hook/aggregate.rs:15-20, hook/fee.rs:16-27, hook/routing_custom.rs:30-41,
   hook/routing_fallback.rs:16-23 *)
| MSetHooks (hooks : list str)
| MSetFee (fee : coin)
| MFeeClaim (recipient : option addr)
| MRegisterCustomHook (h : custom_hook)
| MRegisterCustomHooks (hs : list custom_hook)
| MClearCustomHook (dest : N) (recipient : str)
| MClearCustomHooks (l : list (N * str))
| MSetFallbackHook (hook : str)
(* igp/core.rs:46-74, igp/oracle.rs:18-26 *)
| MSetDefaultGas (gas : N)
| MSetGasForDomain (config : list (N * N))
| MUnsetGasForDomain (domains : list N)
| MSetBeneficiary (beneficiary : str)
| MPayForGas (message_id : bytes) (dest gas_amount : N) (refund : str)
| MClaim
| MOracleOwnership (m : ownable_msg)
| MSetRemoteGasDataConfigs (configs : list gas_config)
| MSetRemoteGasData (config : gas_config)
(* warp/native.rs:55-72, warp/cw20.rs:47-64 *)
| MTransferRemote (dest : N) (recipient : bytes) (amount : N)
                  (hook : option str) (metadata : option bytes)
(* cw20-base ExecuteMsg, but for the messages listed in Cw20.v *)
| MCw20Transfer (recipient : str) (amount : N)
| MCw20TransferFrom (owner recipient : str) (amount : N)
| MCw20Burn (amount : N)
| MCw20Mint (recipient : str) (amount : N)
| MCw20IncreaseAllowance (spender : str) (amount : N)
| MCw20DecreaseAllowance (spender : str) (amount : N)
| MCw20BurnFrom (owner : str) (amount : N)
| MCw20UpdateMinter (new_minter : option str)
| MOther (raw : bytes).

(** serde reads a [u8]: /repo/packages/interface/src/ism/multisig.rs:21-33 *)
Definition u8_ok (n : N) : bool := n <? u8_max.
(** serde reads a [u32]: /repo/packages/interface/src/core/mailbox.rs:19-25 *)
Definition u32_ok (n : N) : bool := n <? u32_max.
(** serde reads a [Uint128]: /repo/packages/interface/src/warp/native.rs:56-72 *)
Definition u128_ok (n : N) : bool := n <? u128_max.
(** serde reads a [Uint256]: /repo/packages/interface/src/igp/core.rs:138-140 *)
Definition u256_ok (n : N) : bool := n <? u256_max.

(** serde's integer width checks; on the types of
    /repo/packages/interface/src/{core,hook,igp,ism,warp}/*.rs *)
Definition emsg_ok (m : emsg) : bool :=
  match m with
  | MRouter (SetRoute r) => u32_ok (rs_domain r)
  | MRouter (SetRoutes l) => forallb (fun r => u32_ok (rs_domain r)) l
  | MHandle o _ _ => u32_ok o
  | MDispatch d => u32_ok (d_dest d)
  | MSetValidators d t _ => u32_ok d && u8_ok t
  | MUnsetDomain d => u32_ok d
  | MSetIsms _ t => u8_ok t
  | MRoutingSet d _ => u32_ok d
  | MRoutingUnset l => forallb u32_ok l
  | MSetFee c => u128_ok (c_amount c)
  | MRegisterCustomHook h => u32_ok (ch_dest h)
  | MRegisterCustomHooks l => forallb (fun h => u32_ok (ch_dest h)) l
  | MClearCustomHook d _ => u32_ok d
  | MClearCustomHooks l => forallb (fun p => u32_ok (fst p)) l
  | MSetDefaultGas g => u128_ok g
  | MSetGasForDomain l => forallb (fun p => u32_ok (fst p) && u128_ok (snd p)) l
  | MUnsetGasForDomain l => forallb u32_ok l
  | MPayForGas _ d g _ => u32_ok d && u256_ok g
  | MSetRemoteGasDataConfigs l =>
      forallb (fun c => u32_ok (gc_domain c) && u128_ok (gc_rate c) && u128_ok (gc_price c)) l
  | MSetRemoteGasData c => u32_ok (gc_domain c) && u128_ok (gc_rate c) && u128_ok (gc_price c)
  | MTransferRemote d _ a _ _ => u32_ok d && u128_ok a
  | MCw20Transfer _ a | MCw20TransferFrom _ _ a | MCw20Burn a | MCw20Mint _ a
  | MCw20IncreaseAllowance _ a | MCw20DecreaseAllowance _ a | MCw20BurnFrom _ a => u128_ok a
  | _ => true
  end%bool.

(** ** Queries *)
(** /repo/packages/interface/src/lib.rs:21-31 *)
Inductive order := Asc | Desc.

Inductive qmsg :=
| QOwner | QPendingOwner                                   (* ownable.rs:11-19 *)
| QPauseInfo                                               (* pausable.rs:9-14 *)
| QDomains | QGetRoute (domain : N)
| QListRoutes (offset limit : option N) (o : option order) (* router.rs:19-38 *)
| QConnMailbox | QConnHook | QConnIsm                      (* connection.rs:12-23 *)
| QHookQuote (metadata message : bytes) | QHookMailbox     (* hook/mod.rs:49-57 *)
| QIsmSpecifier                                            (* ism/mod.rs:51-63 *)
| QModuleType | QVerify (metadata message : bytes)
| QVerifyInfo (message : bytes)                            (* ism/mod.rs:22-36 *)
| QBareVerifyInfo (message : bytes)                        (* the same without the [ism] wrapper *)
(* mailbox: core/mailbox.rs:140-190 *)
| QHrp | QLocalDomain | QDelivered (id : bytes) | QDefaultIsm | QDefaultHook
| QRequiredHook | QNonce | QRecipientIsm (recipient : str) | QLatestDispatchId
| QMailboxQuote (sender : str) (d : dispatch_msg)
(* core/va.rs:19-33 *)
| QLocations (validators : list bytes) | QValidators | QVaMailbox | QVaLocalDomain
(* ism/multisig.rs:44-49, ism/aggregate.rs:32-37, ism/routing.rs:39-44 *)
| QEnrolled (domain : N) | QIsms | QRoute (message : bytes)
(* hook/merkle.rs:26-43, hook/aggregate.rs:31-36, hook/fee.rs:38-43,
   hook/routing_custom.rs:53-66 *)
| QMerkleCount | QMerkleRoot | QMerkleBranch | QMerkleTree | QMerkleCheckPoint
| QAggHooks | QFee
| QCustomHook (dest : N) (recipient : str)
| QCustomHooks (dest : N) (offset : option str) (limit : option N) (o : option order)
(* igp/core.rs:90-114, igp/oracle.rs:39-44 *)
| QDefaultGas | QGasForDomain (domains : list N)
| QListGas (offset limit : option N) (o : option order)
| QBeneficiary | QQuoteGasPayment (dest gas : N)
| QOracle (dest : N)
(* warp/mod.rs:85-93; cw20-base QueryMsg *)
| QTokenType | QTokenMode
| QCw20Balance (a : str) | QCw20TokenInfo | QCw20Allowance (owner spender : str)
| QOther (raw : bytes).

(** an optional [u32], e.g. /repo/packages/interface/src/router.rs:19-40 *)
Definition ou32_ok (o : option N) : bool := match o with Some n => u32_ok n | None => true end.
(** serde reads the integers of
    /repo/packages/interface/src/{core,hook,igp,ism,warp}/*.rs *)
Definition qmsg_ok (q : qmsg) : bool :=
  match q with
  | QGetRoute d | QEnrolled d | QCustomHook d _ | QOracle d => u32_ok d
  | QListRoutes a b _ | QListGas a b _ => ou32_ok a && ou32_ok b
  | QCustomHooks d _ l _ => u32_ok d && ou32_ok l
  | QMailboxQuote _ d => u32_ok (d_dest d)
  | QGasForDomain l => forallb u32_ok l
  | QQuoteGasPayment d g => u32_ok d && u256_ok g
  | _ => true
  end%bool.

(** /repo/packages/interface/src/ism/mod.rs:9-20 *)
Inductive ism_type := TUnused | TRouting | TAggregation | TLegacyMultisig
  | TMerkleRootMultisig | TMessageIdMultisig | TNull | TCcipRead.

(** /repo/packages/interface/src/warp/mod.rs:37-41 *)
Inductive token_mode := Bridged | Collateral.

(** Query responses, one constructor per JSON shape of the same files:
    /repo/packages/interface/src/{core,hook,igp,ism,warp}/*.rs *)
Inductive qres :=
| ROwner (a : addr) | RPendingOwner (a : option addr)
| RPaused (b : bool)
| RDomains (l : list N) | RRoute (r : route_set) | RRoutes (l : list route_set)
| RConn (a : option addr)
| RFees (fees : list coin) | RMailbox (a : addr)
| RIsm (a : option addr)
| RModuleType (t : ism_type) | RVerified (b : bool)
| RVerifyInfo (threshold : N) (validators : list bytes)
| RHrp (h : str) | RLocalDomain (d : N) | RDelivered (b : bool)
| RDefaultIsm (a : addr) | RDefaultHook (a : addr) | RRequiredHook (a : addr)
| RNonce (n : N) | RRecipientIsm (a : addr) | RMessageId (id : bytes)
| RLocations (l : list (str * list str)) | RValidators (l : list str)
| REnrolled (validators : list bytes) (threshold : N)
| RIsms (isms : list addr) (threshold : N)
| RRouteIsm (a : addr)
| RCount (n : N) | RRoot (root : bytes) | RBranch (b : list bytes)
| RTree (b : list bytes) (n : N) | RCheckPoint (root : bytes) (n : N)
| RHooks (hooks : list addr) | RFee (c : coin)
| RCustomHook (h : custom_hook) | RCustomHooks (l : list custom_hook)
| RGas (g : N) | RGasList (l : list (N * N)) | RBeneficiary (a : addr)
| RGasNeeded (g : N)
| ROracle (gas_price exchange_rate : N)
| RTokenDenom (d : str) | RTokenCw20 (a : addr) | RTokenMode (m : token_mode)
| RBalance (n : N) | RTokenInfo (supply : N) | RAllowance (n : N)
| ROther (raw : bytes).

(** ** Environment *)
(** [Env]: the fields used by /repo/contracts/core/mailbox/src/execute.rs and
    /repo/contracts/warp/native/src/contract.rs *)
Record env : Type := mkEnv { e_contract : addr; e_height : N }.
(** [MessageInfo], e.g. /repo/contracts/core/mailbox/src/contract.rs:51-56 *)
Record info : Type := mkInfo { i_sender : addr; i_funds : list coin }.

(** chain API: [addr_validate] returns its argument or fails; public-key recovery is
    an oracle: /repo/contracts/isms/multisig/src/query.rs:47-55 *)
Record api : Type := mkApi {
  api_valid : str -> bool;
  api_recover : bytes -> bytes -> N -> option bytes   (* hash, 64-byte signature, id *)
}.
(** [Api::addr_validate], e.g. /repo/contracts/warp/native/src/contract.rs:39 *)
Definition addr_validate (A : api) (a : str) : res addr :=
  if api_valid A a then Ok a else Err EStd.

(** [QuerierWrapper]: e.g. /repo/contracts/igps/core/src/query.rs:61-82 *)
Record querier : Type := mkQuerier {
  q_smart : addr -> qmsg -> res qres;
  q_balance : addr -> str -> N;          (* query_balance *)
  q_all_balances : addr -> list coin     (* query_all_balances *)
}.
(** Width checks when the caller parses an answer (only the answers some contract
    consumes): e.g. /repo/packages/interface/src/ism/mod.rs:72-90 *)
Definition qres_ok (r : qres) : bool :=
  match r with
  | RFees l => forallb (fun c => u128_ok (c_amount c)) l
  | RLocalDomain d => u32_ok d
  | ROracle p x => u128_ok p && u128_ok x
  | _ => true
  end%bool.
(** A failing, aborting or unparsable query surfaces as an error in the caller;
    [query_wasm_smart(..)?], e.g. /repo/packages/interface/src/ism/mod.rs:97-103 *)
Definition smart (q : querier) (a : addr) (m : qmsg) : res qres :=
  match q_smart q a m with
  | Ok r => if qres_ok r then Ok r else Err EStd
  | _ => Err EStd
  end.

(** /repo/packages/interface/src/warp/native.rs:14-33 *)
Record denom_unit : Type := mkUnit {
  du_denom : str; du_exponent : N; du_aliases : list str }.
(** /repo/packages/interface/src/warp/native.rs:25-33 *)
Record denom_metadata : Type := mkMetadata {
  md_description : str;
  md_units : list denom_unit;
  md_base : str;
  md_display : str;
  md_name : str;
  md_symbol : str
}.

(** ** Responses *)
(** token-factory denominations and cw20 instantiation as used by the warp routes;
    [CMint]'s amount is a decimal string in the Rust text and therefore may exceed
    u128: /repo/contracts/warp/native/src/proto.rs:1-150,
    /repo/contracts/warp/cw20/src/conv.rs:8-40 *)
Inductive cmsg :=
| CExec (contract : addr) (m : emsg) (funds : list coin)
| CBankSend (to : addr) (amount : list coin)
| CCreateDenom (sender : addr) (subdenom : str)
| CSetDenomMetadata (sender : addr) (m : denom_metadata)
| CMint (sender : addr) (amount : N) (denom : str)
| CBurn (sender : addr) (amount : N) (denom : str)
| CInstantiateCw20 (minter : addr) (initial : list (addr * N)).

(** [ReplyOn], e.g. /repo/contracts/warp/native/src/contract.rs:52-61 *)
Inductive reply_on := RpNever | RpSuccess (id : N) | RpError (id : N) | RpAlways (id : N).

(** what a reply carries: /repo/contracts/warp/native/src/contract.rs:122-144,
    /repo/contracts/warp/cw20/src/contract.rs:118-140 *)
Inductive reply_result :=
| RrNone
| RrDenom (new_token_denom : str)
| RrContract (a : addr).

(** [SubMsg], e.g. /repo/contracts/warp/native/src/contract.rs:52-61 *)
Record submsg : Type := mkSub { sm_msg : cmsg; sm_reply : reply_on }.

(** events: see Events.v; [Response], e.g.
    /repo/contracts/core/mailbox/src/contract.rs:40-48 *)
Record response : Type := mkResp { r_msgs : list submsg; r_data : option bytes }.
(** [Response::new()], e.g. /repo/contracts/warp/native/src/contract.rs:307 *)
Definition resp0 : response := mkResp [] None.
(** [Response::new().add_messages(..)], e.g.
    /repo/contracts/warp/native/src/contract.rs:189-194 *)
Definition resp (l : list cmsg) : response := mkResp (map (fun m => mkSub m RpNever) l) None.

(** ** Calls shared by contracts *)
(** /repo/packages/interface/src/hook/mod.rs:76-91 *)
Definition post_dispatch (hook : addr) (metadata message : bytes) (funds : list coin) : cmsg :=
  CExec hook (MPostDispatch metadata message) funds.

(** /repo/packages/interface/src/hook/mod.rs:93-107 *)
Definition quote_dispatch (q : querier) (hook : addr) (metadata message : bytes)
  : res (list coin) :=
  r <- smart q hook (QHookQuote metadata message) ;;
  match r with RFees f => Ok f | _ => Err EStd end.

(** /repo/packages/interface/src/ism/mod.rs:93-103 *)
Definition recipient_ism (q : querier) (recipient : addr) : res (option addr) :=
  r <- smart q recipient QIsmSpecifier ;;
  match r with RIsm a => Ok a | _ => Err EStd end.

(** /repo/packages/interface/src/ism/mod.rs:105-117 *)
Definition ism_verify (q : querier) (ism : addr) (metadata message : bytes) : res bool :=
  r <- smart q ism (QVerify metadata message) ;;
  match r with RVerified b => Ok b | _ => Err EStd end.

(** ** Pagination: /repo/packages/interface/src/lib.rs:42-82 *)
Definition MAX_LIMIT : N := 30.
(** /repo/packages/interface/src/lib.rs:44 *)
Definition DEFAULT_LIMIT : N := 10.

(** /repo/packages/interface/src/lib.rs:46-60 *)
Definition get_and_check_limit (limit : option N) (max dflt : N) : res N :=
  match limit with
  | Some l => if l <=? max then Ok l else Err EStd
  | None => Ok dflt
  end.

(** /repo/packages/interface/src/lib.rs:69-82 followed by [Map::range(min, max, order).take(limit)]: the
    exclusive bound is the start key in both orders *)
Definition range_page {K V} {OK : OrdKey K} (m : omap K V) (start : option K)
    (limit : option N) (o : option order) : res (list (K * V)) :=
  l <- get_and_check_limit limit MAX_LIMIT DEFAULT_LIMIT ;;
  let sel := match o with
             | Some Desc =>
                 rev (filter (fun p => match start with
                                       | Some k => klt (fst p) k
                                       | None => true end) m)
             | _ => filter (fun p => match start with
                                     | Some k => klt k (fst p)
                                     | None => true end) m
             end in
  Ok (firstn (N.to_nat l) sel).
