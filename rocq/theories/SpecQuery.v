(** * Which messages each contract understands.

    The [ExecuteMsg] and [QueryMsg] enums of /repo/packages/interface/src, one row
    per contract; a message outside its enum does not deserialize. *)
From Coq Require Import List NArith Bool.
From Verif Require Import Base Chain Ownable Contracts Spec SpecModules.
Import ListNotations.

(** ownable.rs:4-9, router.rs:13-17, connection.rs:3-10, pausable.rs:3-7, hook/mod.rs:43-47
    (under /repo/packages/interface/src, as below) *)
Definition is_own_msg (m : emsg) : bool := match m with MOwnable _ => true | _ => false end.
Definition is_pause_msg (m : emsg) : bool := match m with MPausable _ => true | _ => false end.
Definition is_router_msg (m : emsg) : bool := match m with MRouter _ => true | _ => false end.
Definition is_conn_msg (m : emsg) : bool := match m with MConnection _ => true | _ => false end.
Definition is_post_msg (m : emsg) : bool := match m with MPostDispatch _ _ => true | _ => false end.

(** core/mailbox.rs:81-104, core/va.rs:11-17, ism/multisig.rs:22-33, ism/aggregate.rs:15-19,
    ism/routing.rs:23-28, ism/pausable.rs:17-20, hook/merkle.rs:14-16, hook/aggregate.rs:16-20,
    hook/pausable.rs:17-21, hook/routing.rs:17-21, hook/routing_custom.rs:31-41,
    hook/routing_fallback.rs:17-23, hook/fee.rs:17-27, igp/oracle.rs:19-26, igp/core.rs:47-74,
    warp/native.rs:56-72, warp/cw20.rs:48-64; of cw20-base, what Cw20.v models *)
Definition understands (st : cstate) (m : emsg) : bool :=
  match st with
  | SMailbox _ => is_own_msg m ||
      match m with
      | MSetDefaultIsm _ | MSetDefaultHook _ | MSetRequiredHook _ | MDispatch _ | MProcess _ _ => true
      | _ => false
      end
  | SVa _ => match m with MAnnounce _ _ _ => true | _ => false end
  | SMultisig _ => is_own_msg m || match m with MSetValidators _ _ _ | MUnsetDomain _ => true | _ => false end
  | SAggIsm _ => is_own_msg m || match m with MSetIsms _ _ => true | _ => false end
  | SRoutingIsm _ => is_own_msg m || match m with MRoutingSet _ _ | MRoutingUnset _ => true | _ => false end
  | SPausableIsm _ => is_own_msg m || is_pause_msg m
  | SMerkle _ => is_post_msg m
  | SAggHook _ => is_own_msg m || is_post_msg m || match m with MSetHooks _ => true | _ => false end
  | SPausableHook _ => is_own_msg m || is_pause_msg m || is_post_msg m
  | SRoutingHook _ => is_own_msg m || is_router_msg m || is_post_msg m
  | SCustomHook _ => is_own_msg m || is_router_msg m || is_post_msg m ||
      match m with
      | MRegisterCustomHook _ | MRegisterCustomHooks _ | MClearCustomHook _ _ | MClearCustomHooks _ => true
      | _ => false
      end
  | SFallbackHook _ => is_own_msg m || is_router_msg m || is_post_msg m ||
      match m with MSetFallbackHook _ => true | _ => false end
  | SFeeHook _ => is_own_msg m || is_post_msg m || match m with MSetFee _ | MFeeClaim _ => true | _ => false end
  | SOracle _ => match m with
      | MOracleOwnership _ | MSetRemoteGasData _ | MSetRemoteGasDataConfigs _ => true
      | _ => false
      end
  | SIgp _ => is_own_msg m || is_router_msg m || is_post_msg m ||
      match m with
      | MSetDefaultGas _ | MSetGasForDomain _ | MUnsetGasForDomain _ | MSetBeneficiary _ | MPayForGas _ _ _ _ | MClaim => true
      | _ => false
      end
  | SWarpNative _ | SWarpCw20 _ => is_own_msg m || is_router_msg m || is_conn_msg m ||
      match m with MHandle _ _ _ | MTransferRemote _ _ _ _ _ => true | _ => false end
  | SCw20 _ => match m with
      | MCw20Transfer _ _ | MCw20TransferFrom _ _ _ | MCw20Burn _ | MCw20Mint _ _ | MCw20IncreaseAllowance _ _
      | MCw20DecreaseAllowance _ _ | MCw20BurnFrom _ _ | MCw20UpdateMinter _ => true
      | _ => false
      end
  end.

(** ownable.rs:11-19, router.rs:19-38, connection.rs:12-23, pausable.rs:9-14,
    hook/mod.rs:49-57, ism/mod.rs:22-36 *)
Definition is_own_query (m : qmsg) : bool := match m with QOwner | QPendingOwner => true | _ => false end.
Definition is_router_query (m : qmsg) : bool := match m with QDomains | QGetRoute _ | QListRoutes _ _ _ => true | _ => false end.
Definition is_conn_query (m : qmsg) : bool := match m with QConnMailbox | QConnHook | QConnIsm => true | _ => false end.
Definition is_pause_query (m : qmsg) : bool := match m with QPauseInfo => true | _ => false end.
Definition is_hook_query (m : qmsg) : bool := match m with QHookQuote _ _ | QHookMailbox => true | _ => false end.
Definition is_ism_query (m : qmsg) : bool := match m with QModuleType | QVerify _ _ | QVerifyInfo _ => true | _ => false end.

(** core/mailbox.rs:143-189, core/va.rs:21-33, ism/multisig.rs:38-49, ism/aggregate.rs:24-37,
    ism/routing.rs:33-44, ism/pausable.rs:25-29, hook/merkle.rs:21-43, hook/aggregate.rs:25-36,
    hook/pausable.rs:26-30, hook/routing.rs:26-30, hook/routing_custom.rs:46-66,
    hook/routing_fallback.rs:28-32, hook/fee.rs:32-43, igp/oracle.rs:31-44, igp/core.rs:79-114,
    warp/native.rs:77-87, warp/cw20.rs:69-79 *)
Definition answers_to (st : cstate) (m : qmsg) : bool :=
  match st with
  | SMailbox _ => is_own_query m ||
      match m with
      | QHrp | QLocalDomain | QDelivered _ | QDefaultIsm | QDefaultHook | QRequiredHook | QNonce | QRecipientIsm _
      | QLatestDispatchId | QMailboxQuote _ _ => true
      | _ => false
      end
  | SVa _ => match m with QLocations _ | QValidators | QVaMailbox | QVaLocalDomain => true | _ => false end
  | SMultisig _ => is_own_query m || is_ism_query m || match m with QEnrolled _ => true | _ => false end
  | SAggIsm _ => is_own_query m || is_ism_query m || match m with QIsms => true | _ => false end
  | SRoutingIsm _ => is_own_query m || is_ism_query m || match m with QRoute _ => true | _ => false end
  | SPausableIsm _ => is_own_query m || is_ism_query m || is_pause_query m
  | SMerkle _ => is_hook_query m ||
      match m with
      | QMerkleCount | QMerkleRoot | QMerkleBranch | QMerkleTree | QMerkleCheckPoint => true
      | _ => false
      end
  | SAggHook _ => is_own_query m || is_hook_query m || match m with QAggHooks => true | _ => false end
  | SPausableHook _ => is_own_query m || is_hook_query m || is_pause_query m
  | SRoutingHook _ | SFallbackHook _ => is_own_query m || is_hook_query m || is_router_query m
  | SCustomHook _ => is_own_query m || is_hook_query m || is_router_query m ||
      match m with QCustomHook _ _ | QCustomHooks _ _ _ _ => true | _ => false end
  | SFeeHook _ => is_own_query m || is_hook_query m || match m with QFee => true | _ => false end
  | SOracle _ => is_own_query m || match m with QOracle _ => true | _ => false end
  | SIgp _ => is_own_query m || is_hook_query m || is_router_query m ||
      match m with
      | QDefaultGas | QGasForDomain _ | QListGas _ _ _ | QBeneficiary | QQuoteGasPayment _ _ | QOracle _ => true
      | _ => false
      end
  | SWarpNative _ | SWarpCw20 _ => is_own_query m || is_router_query m || is_conn_query m ||
      match m with QTokenType | QTokenMode | QIsmSpecifier => true | _ => false end
  | SCw20 _ => match m with QCw20Balance _ | QCw20TokenInfo | QCw20Allowance _ _ => true | _ => false end
  end.

(** the type an interchain security module declares
    (/repo/packages/interface/src/ism/mod.rs:9-20) *)
Definition declared_type (st : cstate) : option ism_type :=
  match st with
  | SMultisig _ => Some TMessageIdMultisig
  | SAggIsm _ => Some TAggregation
  | SRoutingIsm _ => Some TRouting
  | SPausableIsm _ => Some TNull
  | _ => None
  end.
