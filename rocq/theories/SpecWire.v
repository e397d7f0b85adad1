(** * The texts of messages, queries and answers, spelled out.

    What goes over the wire, as an indexer, a client or a contract in another language
    would have to write or read it: names and order of members, which numbers are
    quoted, which bytes are hexadecimal.  Nothing here uses the tables of Wire.v and
    WireQuery.v. *)
From Coq Require Import List NArith Bool String.
From Verif Require Import Base Hex Coins Json Chain Ownable Contracts.
Import ListNotations.
Open Scope list_scope.
Open Scope N_scope.

(** ** JSON *)
(** a character of a string: RFC 8259, section 7 *)
Definition escaped (b : byte) : str :=
  match b with
  | x22 => s "\""" | x5c => s "\\" | x08 => s "\b" | x09 => s "\t" | x0a => s "\n" | x0c => s "\f" | x0d => s "\r"
  | x00 => s "\u0000" | x01 => s "\u0001" | x02 => s "\u0002" | x03 => s "\u0003" | x04 => s "\u0004" | x05 => s "\u0005"
  | x06 => s "\u0006" | x07 => s "\u0007" | x0b => s "\u000B" | x0e => s "\u000E" | x0f => s "\u000F"
  | x10 => s "\u0010" | x11 => s "\u0011" | x12 => s "\u0012" | x13 => s "\u0013" | x14 => s "\u0014" | x15 => s "\u0015"
  | x16 => s "\u0016" | x17 => s "\u0017" | x18 => s "\u0018" | x19 => s "\u0019" | x1a => s "\u001A" | x1b => s "\u001B"
  | x1c => s "\u001C" | x1d => s "\u001D" | x1e => s "\u001E" | x1f => s "\u001F"
  | _ => [b]
  end.
(** a text in quotes *)
Definition quoted (t : str) : str := s """" ++ flat_map escaped t ++ s """".
(** bytes in hexadecimal: [HexBinary] *)
Definition hexed (b : bytes) : str := s """" ++ hex_encode b ++ s """".
(** a number in quotes: [Uint128], [Uint256], and [u128] *)
Definition big (n : N) : str := s """" ++ dec n ++ s """".
(** an optional field *)
Definition or_null {A} (f : A -> str) (o : option A) : str := match o with Some x => f x | None => s "null" end.
Definition truth (b : bool) : str := if b then s "true" else s "false".
Fixpoint listed (l : list str) : str :=
  match l with [] => [] | [x] => x | x :: l' => x ++ s "," ++ listed l' end.
Definition brackets (l : list str) : str := s "[" ++ listed l ++ s "]".
Definition braces (l : list str) : str := s "{" ++ listed l ++ s "}".
Definition is (k : string) (v : str) : str := s """" ++ s k ++ s """" ++ s ":" ++ v.
Arguments is k%string_scope v.
(** a variant of an enum *)
Definition variant (k : string) (v : str) : str := braces [is k v].
Arguments variant k%string_scope v.

(** ** Parts; paths are under /repo/packages/interface/src *)
(** ownable.rs:4-9 *)
Definition ownable_text (m : ownable_msg) : str :=
  match m with
  | InitOwnershipTransfer a => variant "init_ownership_transfer" (braces [is "next_owner" (quoted a)])
  | RevokeOwnershipTransfer => variant "revoke_ownership_transfer" (braces [])
  | ClaimOwnership => variant "claim_ownership" (braces [])
  end.
(** router.rs:7-11; [hx]: a warp route, whose counterparts are [HexBinary] *)
Definition route_text (hx : bool) (r : route_set) : str :=
  braces [is "domain" (dec (rs_domain r)); is "route" (or_null (if hx then hexed else quoted) (rs_route r))].
(** core/mailbox.rs:18-25 *)
Definition dispatch_text (d : dispatch_msg) : str :=
  braces [is "dest_domain" (dec (d_dest d)); is "recipient_addr" (hexed (d_recipient d)); is "msg_body" (hexed (d_body d));
          is "hook" (or_null quoted (d_hook d)); is "metadata" (or_null hexed (d_metadata d))].
(** hook/routing_custom.rs:17-28 *)
Definition custom_text (h : custom_hook) : str :=
  braces [is "dest_domain" (dec (ch_dest h)); is "recipient" (quoted (ch_recipient h)); is "hook" (quoted (ch_hook h))].
Definition clear_text (p : N * str) : str := braces [is "dest_domain" (dec (fst p)); is "recipient" (quoted (snd p))].
(** igp/oracle.rs:11-16 *)
Definition gas_text (g : gas_config) : str :=
  braces [is "remote_domain" (dec (gc_domain g)); is "token_exchange_rate" (big (gc_rate g)); is "gas_price" (big (gc_price g))].
(** cosmwasm-std [Coin] *)
Definition coin_text (c : coin) : str := braces [is "denom" (quoted (c_denom c)); is "amount" (big (c_amount c))].
(** two byte strings: hook/mod.rs:14-26, core/mailbox.rs:100-103, ism/mod.rs:28-31 *)
Definition meta_text (md raw : bytes) : str := braces [is "metadata" (hexed md); is "message" (hexed raw)].
(** igp/core.rs:57 *)
Definition gas_pair_text (p : N * N) : str := brackets [dec (fst p); big (snd p)].
(** lib.rs:21-25 *)
Definition order_text (o : order) : str := match o with Asc => s """asc""" | Desc => s """desc""" end.

(** ** Messages: the [ExecuteMsg] enums and cw20's *)
Definition message_text (hx : bool) (m : emsg) : str :=
  match m with
  | MOwnable o => variant "ownable" (ownable_text o)
  | MPausable Pause => variant "pausable" (variant "pause" (braces []))
  | MPausable Release => variant "pausable" (variant "release" (braces []))
  | MRouter (SetRoute r) => variant "router" (variant "set_route" (braces [is "set" (route_text hx r)]))
  | MRouter (SetRoutes l) => variant "router" (variant "set_routes" (braces [is "set" (brackets (map (route_text hx) l))]))
  | MConnection (SetMailbox a) => variant "connection" (variant "set_mailbox" (braces [is "mailbox" (quoted a)]))
  | MConnection (SetHook a) => variant "connection" (variant "set_hook" (braces [is "hook" (quoted a)]))
  | MConnection (SetIsm a) => variant "connection" (variant "set_ism" (braces [is "ism" (quoted a)]))
  | MPostDispatch md raw => variant "post_dispatch" (meta_text md raw)
  | MHandle o sd b => variant "handle" (braces [is "origin" (dec o); is "sender" (hexed sd); is "body" (hexed b)])
  | MSetDefaultIsm a => variant "set_default_ism" (braces [is "ism" (quoted a)])
  | MSetDefaultHook a => variant "set_default_hook" (braces [is "hook" (quoted a)])
  | MSetRequiredHook a => variant "set_required_hook" (braces [is "hook" (quoted a)])
  | MDispatch d => variant "dispatch" (dispatch_text d)
  | MProcess md raw => variant "process" (meta_text md raw)
  | MAnnounce v sg l => variant "announce" (braces [is "validator" (hexed v); is "signature" (hexed sg); is "storage_location" (quoted l)])
  | MSetValidators d t l =>
      variant "set_validators" (braces [is "domain" (dec d); is "threshold" (dec t); is "validators" (brackets (map hexed l))])
  | MUnsetDomain d => variant "unset_domain" (braces [is "domain" (dec d)])
  | MSetIsms l t => variant "set_isms" (braces [is "isms" (brackets (map quoted l)); is "threshold" (dec t)])
  | MRoutingSet d a => variant "set" (braces [is "ism" (braces [is "domain" (dec d); is "address" (quoted a)])])
  | MRoutingUnset l => variant "unset" (braces [is "domains" (brackets (map dec l))])
  | MSetHooks l => variant "set_hooks" (braces [is "hooks" (brackets (map quoted l))])
  | MSetFee c => variant "fee_hook" (variant "set_fee" (braces [is "fee" (coin_text c)]))
  | MFeeClaim o => variant "fee_hook" (variant "claim" (braces [is "recipient" (or_null quoted o)]))
  | MRegisterCustomHook h => variant "register_custom_hook" (custom_text h)
  | MRegisterCustomHooks l => variant "register_custom_hooks" (brackets (map custom_text l))
  | MClearCustomHook d r => variant "clear_custom_hook" (clear_text (d, r))
  | MClearCustomHooks l => variant "clear_custom_hooks" (brackets (map clear_text l))
  | MSetFallbackHook a => variant "set_fallback_hook" (braces [is "hook" (quoted a)])
  | MSetDefaultGas g => variant "set_default_gas" (braces [is "gas" (big g)])
  | MSetGasForDomain l => variant "set_gas_for_domain" (braces [is "config" (brackets (map gas_pair_text l))])
  | MUnsetGasForDomain l => variant "unset_gas_for_domain" (braces [is "domains" (brackets (map dec l))])
  | MSetBeneficiary a => variant "set_beneficiary" (braces [is "beneficiary" (quoted a)])
  | MPayForGas id d g a =>
      variant "pay_for_gas" (braces [is "message_id" (hexed id); is "dest_domain" (dec d); is "gas_amount" (big g); is "refund_address" (quoted a)])
  | MClaim => variant "claim" (braces [])
  | MOracleOwnership o => variant "ownership" (ownable_text o)
  | MSetRemoteGasDataConfigs l => variant "set_remote_gas_data_configs" (braces [is "configs" (brackets (map gas_text l))])
  | MSetRemoteGasData g => variant "set_remote_gas_data" (braces [is "config" (gas_text g)])
  | MTransferRemote d r n h md =>
      variant "transfer_remote" (braces [is "dest_domain" (dec d); is "recipient" (hexed r); is "amount" (big n);
                                         is "hook" (or_null quoted h); is "metadata" (or_null hexed md)])
  | MCw20Transfer r n => variant "transfer" (braces [is "recipient" (quoted r); is "amount" (big n)])
  | MCw20TransferFrom o r n => variant "transfer_from" (braces [is "owner" (quoted o); is "recipient" (quoted r); is "amount" (big n)])
  | MCw20Burn n => variant "burn" (braces [is "amount" (big n)])
  | MCw20Mint r n => variant "mint" (braces [is "recipient" (quoted r); is "amount" (big n)])
  | MCw20IncreaseAllowance a n =>
      variant "increase_allowance" (braces [is "spender" (quoted a); is "amount" (big n); is "expires" (s "null")])
  | MCw20DecreaseAllowance a n =>
      variant "decrease_allowance" (braces [is "spender" (quoted a); is "amount" (big n); is "expires" (s "null")])
  | MCw20BurnFrom o n => variant "burn_from" (braces [is "owner" (quoted o); is "amount" (big n)])
  | MCw20UpdateMinter a => variant "update_minter" (braces [is "new_minter" (or_null quoted a)])
  | MOther raw => raw
  end.

(** ** Queries: the [QueryMsg] enums and cw20's *)
Definition page_text (o l : option N) (r : option order) : str :=
  braces [is "offset" (or_null dec o); is "limit" (or_null dec l); is "order" (or_null order_text r)].
Definition question_text (m : qmsg) : str :=
  match m with
  | QOwner => variant "ownable" (variant "get_owner" (braces []))
  | QPendingOwner => variant "ownable" (variant "get_pending_owner" (braces []))
  | QPauseInfo => variant "pausable" (variant "pause_info" (braces []))
  | QDomains => variant "router" (variant "domains" (braces []))
  | QGetRoute d => variant "router" (variant "get_route" (braces [is "domain" (dec d)]))
  | QListRoutes o l r => variant "router" (variant "list_routes" (page_text o l r))
  | QConnMailbox => variant "connection" (variant "get_mailbox" (braces []))
  | QConnHook => variant "connection" (variant "get_hook" (braces []))
  | QConnIsm => variant "connection" (variant "get_ism" (braces []))
  | QHookQuote md raw => variant "hook" (variant "quote_dispatch" (meta_text md raw))
  | QHookMailbox => variant "hook" (variant "mailbox" (braces []))
  | QIsmSpecifier => variant "ism_specifier" (variant "interchain_security_module" (brackets []))
  | QModuleType => variant "ism" (variant "module_type" (braces []))
  | QVerify md raw => variant "ism" (variant "verify" (meta_text md raw))
  | QVerifyInfo raw => variant "ism" (variant "verify_info" (braces [is "message" (hexed raw)]))
  | QBareVerifyInfo raw => variant "verify_info" (braces [is "message" (hexed raw)])
  | QHrp => variant "mailbox" (variant "hrp" (braces []))
  | QLocalDomain => variant "mailbox" (variant "local_domain" (braces []))
  | QDelivered id => variant "mailbox" (variant "message_delivered" (braces [is "id" (hexed id)]))
  | QDefaultIsm => variant "mailbox" (variant "default_ism" (braces []))
  | QDefaultHook => variant "mailbox" (variant "default_hook" (braces []))
  | QRequiredHook => variant "mailbox" (variant "required_hook" (braces []))
  | QNonce => variant "mailbox" (variant "nonce" (braces []))
  | QRecipientIsm a => variant "mailbox" (variant "recipient_ism" (braces [is "recipient_addr" (quoted a)]))
  | QLatestDispatchId => variant "mailbox" (variant "latest_dispatch_id" (braces []))
  | QMailboxQuote a d => variant "hook" (variant "quote_dispatch" (braces [is "sender" (quoted a); is "msg" (dispatch_text d)]))
  | QLocations l => variant "get_announce_storage_locations" (braces [is "validators" (brackets (map hexed l))])
  | QValidators => variant "get_announced_validators" (braces [])
  | QVaMailbox => variant "mailbox" (braces [])
  | QVaLocalDomain => variant "local_domain" (braces [])
  | QEnrolled d => variant "multisig_ism" (variant "enrolled_validators" (braces [is "domain" (dec d)]))
  | QIsms => variant "aggregate_ism" (variant "isms" (braces []))
  | QRoute raw => variant "routing_ism" (variant "route" (braces [is "message" (hexed raw)]))
  | QMerkleCount => variant "merkle_hook" (variant "count" (braces []))
  | QMerkleRoot => variant "merkle_hook" (variant "root" (braces []))
  | QMerkleBranch => variant "merkle_hook" (variant "branch" (braces []))
  | QMerkleTree => variant "merkle_hook" (variant "tree" (braces []))
  | QMerkleCheckPoint => variant "merkle_hook" (variant "check_point" (braces []))
  | QAggHooks => variant "aggregate_hook" (variant "hooks" (braces []))
  | QFee => variant "fee_hook" (variant "fee" (braces []))
  | QCustomHook d r => variant "custom_routing_hook" (variant "custom_hook" (clear_text (d, r)))
  | QCustomHooks d o l r =>
      variant "custom_routing_hook" (variant "custom_hooks"
        (braces [is "dest_domain" (dec d); is "offset" (or_null quoted o); is "limit" (or_null dec l); is "order" (or_null order_text r)]))
  | QDefaultGas => variant "igp" (variant "default_gas" (braces []))
  | QGasForDomain l => variant "igp" (variant "gas_for_domain" (braces [is "domains" (brackets (map dec l))]))
  | QListGas o l r => variant "igp" (variant "list_gas_for_domains" (page_text o l r))
  | QBeneficiary => variant "igp" (variant "beneficiary" (braces []))
  | QQuoteGasPayment d g => variant "igp" (variant "quote_gas_payment" (braces [is "dest_domain" (dec d); is "gas_amount" (big g)]))
  | QOracle d => variant "oracle" (variant "get_exchange_rate_and_gas_price" (braces [is "dest_domain" (dec d)]))
  | QTokenType => variant "token_default" (variant "token_type" (braces []))
  | QTokenMode => variant "token_default" (variant "token_mode" (braces []))
  | QCw20Balance a => variant "balance" (braces [is "address" (quoted a)])
  | QCw20TokenInfo => variant "token_info" (braces [])
  | QCw20Allowance o a => variant "allowance" (braces [is "owner" (quoted o); is "spender" (quoted a)])
  | QOther raw => raw
  end.

(** ** Answers: the response structs; the queries tell which *)
Definition type_text (t : ism_type) : str :=
  match t with
  | TUnused => s """unused""" | TRouting => s """routing""" | TAggregation => s """aggregation"""
  | TLegacyMultisig => s """legacy_multisig""" | TMerkleRootMultisig => s """merkle_root_multisig"""
  | TMessageIdMultisig => s """message_id_multisig""" | TNull => s """null""" | TCcipRead => s """ccip_read"""
  end.
Definition mode_text (m : token_mode) : str := match m with Bridged => s """bridged""" | Collateral => s """collateral""" end.
Definition location_text (p : str * list str) : str := brackets [quoted (fst p); brackets (map quoted (snd p))].
Definition reply_text (hx : bool) (m : qmsg) (r : qres) : str :=
  match r with
  | ROwner a => braces [is "owner" (quoted a)]
  | RPendingOwner o => braces [is "pending_owner" (or_null quoted o)]
  | RPaused b => braces [is "paused" (truth b)]
  | RDomains l => braces [is "domains" (brackets (map dec l))]
  | RRoute x => braces [is "route" (route_text hx x)]
  | RRoutes l => braces [is "routes" (brackets (map (route_text hx) l))]
  | RConn o =>
      match m with
      | QConnMailbox => braces [is "mailbox" (or_null quoted o)]
      | QConnHook => braces [is "hook" (or_null quoted o)]
      | _ => braces [is "ism" (or_null quoted o)]
      end
  | RFees l => braces [is "fees" (brackets (map coin_text l))]
  | RMailbox a => braces [is "mailbox" (quoted a)]
  | RIsm o => braces [is "ism" (or_null quoted o)]
  | RModuleType t => braces [is "type" (type_text t)]
  | RVerified b => braces [is "verified" (truth b)]
  | RVerifyInfo t l => braces [is "threshold" (dec t); is "validators" (brackets (map hexed l))]
  | RHrp h => braces [is "hrp" (quoted h)]
  | RLocalDomain d => braces [is "local_domain" (dec d)]
  | RDelivered b => braces [is "delivered" (truth b)]
  | RDefaultIsm a => braces [is "default_ism" (quoted a)]
  | RDefaultHook a => braces [is "default_hook" (quoted a)]
  | RRequiredHook a => braces [is "required_hook" (quoted a)]
  | RNonce n => braces [is "nonce" (dec n)]
  | RRecipientIsm a => braces [is "ism" (quoted a)]
  | RMessageId id => braces [is "message_id" (hexed id)]
  | RLocations l => braces [is "storage_locations" (brackets (map location_text l))]
  | RValidators l => braces [is "validators" (brackets (map quoted l))]
  | REnrolled l t => braces [is "validators" (brackets (map hexed l)); is "threshold" (dec t)]
  | RIsms l t => braces [is "isms" (brackets (map quoted l)); is "threshold" (dec t)]
  | RRouteIsm a => braces [is "ism" (quoted a)]
  | RCount n => braces [is "count" (dec n)]
  | RRoot x => braces [is "root" (hexed x)]
  | RBranch l => braces [is "branch" (brackets (map hexed l))]
  | RTree l n => braces [is "branch" (brackets (map hexed l)); is "count" (dec n)]
  | RCheckPoint x n => braces [is "root" (hexed x); is "count" (dec n)]
  | RHooks l => braces [is "hooks" (brackets (map quoted l))]
  | RFee c => braces [is "fee" (coin_text c)]
  | RCustomHook h => custom_text h
  | RCustomHooks l => braces [is "custom_hooks" (brackets (map custom_text l))]
  | RGas g => braces [is "gas" (big g)]
  | RGasList l => braces [is "gas" (brackets (map gas_pair_text l))]
  | RBeneficiary a => braces [is "beneficiary" (quoted a)]
  | RGasNeeded g => braces [is "gas_needed" (big g)]
  | ROracle p x => braces [is "gas_price" (big p); is "exchange_rate" (big x)]
  | RTokenDenom d => braces [is "type" (variant "native" (variant "fungible" (braces [is "denom" (quoted d)])))]
  | RTokenCw20 a => braces [is "type" (variant "c_w20" (braces [is "contract" (quoted a)]))]
  | RTokenMode x => braces [is "mode" (mode_text x)]
  | RBalance _ | RTokenInfo _ | RAllowance _ => []
  | ROther raw => raw
  end.

(** ** Who speaks to whom *)
(** messages from contract to contract: hook/mod.rs:76-91, core/mailbox.rs:106-127;
    /repo/contracts/core/mailbox/src/execute.rs:207-216, warp/cw20/src/conv.rs:8-40 *)
Definition sent (m : emsg) : bool :=
  match m with
  | MPostDispatch _ _ | MHandle _ _ _ | MDispatch _
  | MCw20Transfer _ _ | MCw20TransferFrom _ _ _ | MCw20Burn _ | MCw20Mint _ _ => true
  | _ => false
  end.
(** queries from contract to contract: hook/mod.rs:93-107, ism/mod.rs:93-117;
    /repo/contracts/hooks/merkle/src/lib.rs:88-94, core/va/src/contract.rs:38-43,
    igps/core/src/query.rs:72-75, isms/routing/src/contract.rs:121-136 *)
Definition asked (m : qmsg) : bool :=
  match m with
  | QHookQuote _ _ | QVerify _ _ | QIsmSpecifier | QLocalDomain | QLatestDispatchId | QOracle _ | QBareVerifyInfo _ => true
  | _ => false
  end.
(** a warp route, whose router keeps byte strings *)
Definition hex_router (st : cstate) : bool := match st with SWarpNative _ | SWarpCw20 _ => true | _ => false end.

(** a contract as it can be found on a chain: created, then called any number of times *)
Definition deployed (A : api) (st : cstate) : Prop :=
  exists q e i m r st0 h, c_instantiate A q e i m = Ok (st0, r) /\ st = c_run A st0 h.
