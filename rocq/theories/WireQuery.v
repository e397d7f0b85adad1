(** * Queries and their answers as JSON. *)
From Coq Require Import List NArith Bool.
From Verif Require Import Base OMap Coins Hex Json Chain Ownable Contracts Wire.
Import ListNotations.

(** ** Queries *)
(** a variant without fields, e.g. /repo/packages/interface/src/ownable.rs:15 *)
Definition plain {A} (t : str) (a : A) (is : A -> bool) : case A :=
  on t (struct none) (fun _ => a) (fun x => if is x then Some tt else None).
(** /repo/packages/interface/src/lib.rs:21-25 *)
Definition order_c : codec order :=
  mkCodec (fun o => JStr (match o with Asc => s "asc" | Desc => s "desc" end))
    (fun j => match j with
              | JStr t => if bytes_eqb t (s "asc") then Some Asc else if bytes_eqb t (s "desc") then Some Desc else None
              | _ => None
              end) (fun _ => true).

(** /repo/packages/interface/src/ownable.rs:11-19 *)
Definition q_ownable : case qmsg :=
  under qmsg_ok (s "ownable")
    [plain (s "get_owner") QOwner (fun m => match m with QOwner => true | _ => false end);
     plain (s "get_pending_owner") QPendingOwner (fun m => match m with QPendingOwner => true | _ => false end)].
(** /repo/packages/interface/src/pausable.rs:9-14 *)
Definition q_pausable : case qmsg :=
  under qmsg_ok (s "pausable") [plain (s "pause_info") QPauseInfo (fun m => match m with QPauseInfo => true | _ => false end)].
(** [offset], [limit], [order] of /repo/packages/interface/src/router.rs:31-36 *)
Definition page_c : codec (option N * (option N * (option order * unit))) :=
  struct (optional (s "offset") u32_c (optional (s "limit") u32_c (optional (s "order") order_c none))).
(** /repo/packages/interface/src/router.rs:19-40 *)
Definition q_router : case qmsg :=
  under qmsg_ok (s "router")
    [plain (s "domains") QDomains (fun m => match m with QDomains => true | _ => false end);
     on (s "get_route") (struct (field (s "domain") u32_c none)) (fun '(x, _) => QGetRoute x)
       (fun m => match m with QGetRoute x => Some (x, tt) | _ => None end);
     on (s "list_routes") page_c (fun '(a, (b, (c, _))) => QListRoutes a b c)
       (fun m => match m with QListRoutes a b c => Some (a, (b, (c, tt))) | _ => None end)].
(** /repo/packages/interface/src/connection.rs:12-23 *)
Definition q_connection : case qmsg :=
  under qmsg_ok (s "connection")
    [plain (s "get_mailbox") QConnMailbox (fun m => match m with QConnMailbox => true | _ => false end);
     plain (s "get_hook") QConnHook (fun m => match m with QConnHook => true | _ => false end);
     plain (s "get_ism") QConnIsm (fun m => match m with QConnIsm => true | _ => false end)].
(** [QuoteDispatch(QuoteDispatchMsg)], /repo/packages/interface/src/hook/mod.rs:52-53 *)
Definition q_quote : case qmsg :=
  on (s "quote_dispatch") meta_message_c (fun '(a, (b, _)) => QHookQuote a b)
    (fun m => match m with QHookQuote a b => Some (a, (b, tt)) | _ => None end).
(** /repo/packages/interface/src/hook/mod.rs:49-57 *)
Definition q_hook : case qmsg :=
  under qmsg_ok (s "hook")
    [q_quote; plain (s "mailbox") QHookMailbox (fun m => match m with QHookMailbox => true | _ => false end)].
(** /repo/packages/interface/src/ism/mod.rs:28-32 *)
Definition q_verify : case qmsg :=
  on (s "verify") meta_message_c (fun '(a, (b, _)) => QVerify a b)
    (fun m => match m with QVerify a b => Some (a, (b, tt)) | _ => None end).
(** /repo/packages/interface/src/ism/mod.rs:22-36 *)
Definition q_ism : case qmsg :=
  under qmsg_ok (s "ism")
    [plain (s "module_type") QModuleType (fun m => match m with QModuleType => true | _ => false end); q_verify;
     on (s "verify_info") (struct (field (s "message") hex_c none)) (fun '(x, _) => QVerifyInfo x)
       (fun m => match m with QVerifyInfo x => Some (x, tt) | _ => None end)].
(** /repo/packages/interface/src/ism/mod.rs:51-63 *)
Definition q_specifier : case qmsg :=
  under qmsg_ok (s "ism_specifier")
    [on (s "interchain_security_module") empty_c (fun _ => QIsmSpecifier)
       (fun m => match m with QIsmSpecifier => Some tt | _ => None end)].
(** /repo/packages/interface/src/igp/oracle.rs:39-44 *)
Definition q_oracle : case qmsg :=
  under qmsg_ok (s "oracle")
    [on (s "get_exchange_rate_and_gas_price") (struct (field (s "dest_domain") u32_c none)) (fun '(x, _) => QOracle x)
       (fun m => match m with QOracle x => Some (x, tt) | _ => None end)].
(** /repo/packages/interface/src/core/mailbox.rs:166-167, :187-188 *)
Definition q_local_domain : case qmsg :=
  plain (s "local_domain") QLocalDomain (fun m => match m with QLocalDomain => true | _ => false end).
(** /repo/packages/interface/src/core/mailbox.rs:187-188 *)
Definition q_latest_id : case qmsg :=
  plain (s "latest_dispatch_id") QLatestDispatchId (fun m => match m with QLatestDispatchId => true | _ => false end).

(** [QueryMsg] of each program: /repo/packages/interface/src/core/mailbox.rs:143-189, core/va.rs:21-33,
    ism/multisig.rs:38-49, ism/aggregate.rs:24-37, ism/routing.rs:33-44, ism/pausable.rs:25-29,
    hook/merkle.rs:21-43, hook/aggregate.rs:25-36, hook/pausable.rs:26-30, hook/routing.rs:26-30,
    hook/routing_custom.rs:46-66, hook/routing_fallback.rs:28-32, hook/fee.rs:32-43,
    igp/oracle.rs:31-44, igp/core.rs:79-114, warp/native.rs:77-87, warp/cw20.rs:69-79;
    of cw20-base what Cw20.v models *)
Definition query_cases (p : program) : list (case qmsg) :=
  match p with
  | PMailbox =>
      [q_ownable;
       under qmsg_ok (s "hook")
         [on (s "quote_dispatch") (struct (field (s "sender") string_c (field (s "msg") dispatch_c none)))
            (fun '(a, (b, _)) => QMailboxQuote a b)
            (fun m => match m with QMailboxQuote a b => Some (a, (b, tt)) | _ => None end)];
       under qmsg_ok (s "mailbox")
         [plain (s "hrp") QHrp (fun m => match m with QHrp => true | _ => false end);
          q_local_domain;
          on (s "message_delivered") (struct (field (s "id") hex_c none)) (fun '(x, _) => QDelivered x)
            (fun m => match m with QDelivered x => Some (x, tt) | _ => None end);
          plain (s "default_ism") QDefaultIsm (fun m => match m with QDefaultIsm => true | _ => false end);
          plain (s "default_hook") QDefaultHook (fun m => match m with QDefaultHook => true | _ => false end);
          plain (s "required_hook") QRequiredHook (fun m => match m with QRequiredHook => true | _ => false end);
          plain (s "nonce") QNonce (fun m => match m with QNonce => true | _ => false end);
          on (s "recipient_ism") (struct (field (s "recipient_addr") string_c none)) (fun '(x, _) => QRecipientIsm x)
            (fun m => match m with QRecipientIsm x => Some (x, tt) | _ => None end);
          q_latest_id]]
  | PVa =>
      [on (s "get_announce_storage_locations") (struct (field (s "validators") (list_c hex_c) none))
         (fun '(x, _) => QLocations x) (fun m => match m with QLocations x => Some (x, tt) | _ => None end);
       plain (s "get_announced_validators") QValidators (fun m => match m with QValidators => true | _ => false end);
       plain (s "mailbox") QVaMailbox (fun m => match m with QVaMailbox => true | _ => false end);
       plain (s "local_domain") QVaLocalDomain (fun m => match m with QVaLocalDomain => true | _ => false end)]
  | PMultisig =>
      [q_ownable; q_ism;
       under qmsg_ok (s "multisig_ism")
         [on (s "enrolled_validators") (struct (field (s "domain") u32_c none)) (fun '(x, _) => QEnrolled x)
            (fun m => match m with QEnrolled x => Some (x, tt) | _ => None end)]]
  | PAggIsm =>
      [q_ownable; q_ism;
       under qmsg_ok (s "aggregate_ism") [plain (s "isms") QIsms (fun m => match m with QIsms => true | _ => false end)]]
  | PRoutingIsm =>
      [q_ownable; q_ism;
       under qmsg_ok (s "routing_ism")
         [on (s "route") (struct (field (s "message") hex_c none)) (fun '(x, _) => QRoute x)
            (fun m => match m with QRoute x => Some (x, tt) | _ => None end)]]
  | PPausableIsm => [q_ownable; q_ism; q_pausable]
  | PMerkle =>
      [q_hook;
       under qmsg_ok (s "merkle_hook")
         [plain (s "count") QMerkleCount (fun m => match m with QMerkleCount => true | _ => false end);
          plain (s "root") QMerkleRoot (fun m => match m with QMerkleRoot => true | _ => false end);
          plain (s "branch") QMerkleBranch (fun m => match m with QMerkleBranch => true | _ => false end);
          plain (s "tree") QMerkleTree (fun m => match m with QMerkleTree => true | _ => false end);
          plain (s "check_point") QMerkleCheckPoint (fun m => match m with QMerkleCheckPoint => true | _ => false end)]]
  | PAggHook =>
      [q_ownable; q_hook;
       under qmsg_ok (s "aggregate_hook") [plain (s "hooks") QAggHooks (fun m => match m with QAggHooks => true | _ => false end)]]
  | PPausableHook => [q_pausable; q_ownable; q_hook]
  | PRoutingHook | PFallbackHook => [q_ownable; q_router; q_hook]
  | PCustomHook =>
      [q_ownable; q_router; q_hook;
       under qmsg_ok (s "custom_routing_hook")
         [on (s "custom_hook") (struct (field (s "dest_domain") u32_c (field (s "recipient") string_c none)))
            (fun '(a, (b, _)) => QCustomHook a b)
            (fun m => match m with QCustomHook a b => Some (a, (b, tt)) | _ => None end);
          on (s "custom_hooks")
            (struct (field (s "dest_domain") u32_c (optional (s "offset") string_c
              (optional (s "limit") u32_c (optional (s "order") order_c none)))))
            (fun '(a, (b, (c, (d, _)))) => QCustomHooks a b c d)
            (fun m => match m with QCustomHooks a b c d => Some (a, (b, (c, (d, tt)))) | _ => None end)]]
  | PFeeHook =>
      [q_ownable; q_hook; under qmsg_ok (s "fee_hook") [plain (s "fee") QFee (fun m => match m with QFee => true | _ => false end)]]
  | POracle => [q_ownable; q_oracle]
  | PIgp =>
      [q_ownable; q_hook; q_router; q_oracle;
       under qmsg_ok (s "igp")
         [plain (s "default_gas") QDefaultGas (fun m => match m with QDefaultGas => true | _ => false end);
          on (s "gas_for_domain") (struct (field (s "domains") (list_c u32_c) none)) (fun '(x, _) => QGasForDomain x)
            (fun m => match m with QGasForDomain x => Some (x, tt) | _ => None end);
          on (s "list_gas_for_domains") page_c (fun '(a, (b, (c, _))) => QListGas a b c)
            (fun m => match m with QListGas a b c => Some (a, (b, (c, tt))) | _ => None end);
          plain (s "beneficiary") QBeneficiary (fun m => match m with QBeneficiary => true | _ => false end);
          on (s "quote_gas_payment") (struct (field (s "dest_domain") u32_c (field (s "gas_amount") u256_c none)))
            (fun '(a, (b, _)) => QQuoteGasPayment a b)
            (fun m => match m with QQuoteGasPayment a b => Some (a, (b, tt)) | _ => None end)]]
  | PWarpNative | PWarpCw20 =>
      [q_ownable; q_router; q_connection;
       under qmsg_ok (s "token_default")
         [plain (s "token_type") QTokenType (fun m => match m with QTokenType => true | _ => false end);
          plain (s "token_mode") QTokenMode (fun m => match m with QTokenMode => true | _ => false end)];
       q_specifier]
  | PCw20 =>
      [on (s "balance") (struct (field (s "address") string_c none)) (fun '(x, _) => QCw20Balance x)
         (fun m => match m with QCw20Balance x => Some (x, tt) | _ => None end);
       plain (s "token_info") QCw20TokenInfo (fun m => match m with QCw20TokenInfo => true | _ => false end);
       on (s "allowance") (struct (field (s "owner") string_c (field (s "spender") string_c none)))
         (fun '(a, (b, _)) => QCw20Allowance a b)
         (fun m => match m with QCw20Allowance a b => Some (a, (b, tt)) | _ => None end)]
  end.
(** [from_json::<QueryMsg>] before /repo/contracts/*/*/src/contract.rs's [query] *)
Definition query_c (p : program) : codec qmsg := enum qmsg_ok (query_cases p).
(** a text asked of a contract: the argument of [query] in /repo/contracts/*/*/src/contract.rs *)
Definition read_query (p : program) (t : str) : option qmsg :=
  match parse t with Some j => read (query_c p) j | None => None end.
(** the same, written by a client, e.g. /repo/packages/interface/src/macros.rs:14 *)
Definition write_query (p : program) (m : qmsg) : str := text (write (query_c p) m).

(** ** What contracts send to and ask of each other *)
(** /repo/packages/interface/src/hook/mod.rs:76-91 and
    /repo/contracts/hooks/routing/src/lib.rs:131, routing-custom/src/lib.rs:292,
    routing-fallback/src/lib.rs:134; /repo/contracts/core/mailbox/src/execute.rs:207-216;
    /repo/packages/interface/src/core/mailbox.rs:106-127; /repo/contracts/warp/cw20/src/conv.rs:8-40,
    contract.rs:214-228 *)
Definition sent_cases : list (case emsg) :=
  e_post_dispatch :: e_handle ::
  on (s "dispatch") dispatch_c MDispatch (fun m => match m with MDispatch x => Some x | _ => None end) ::
  firstn 4 cw20_cases.
(** the text of a message from a contract: [wasm_execute], e.g. /repo/packages/interface/src/hook/mod.rs:82-90 *)
Definition send_text (m : emsg) : str := text (write_case sent_cases m).

(** /repo/packages/interface/src/hook/mod.rs:93-107, ism/mod.rs:93-117;
    /repo/contracts/hooks/merkle/src/lib.rs:88-94, core/va/src/contract.rs:38-43,
    igps/core/src/query.rs:72-75, :133-136, isms/routing/src/contract.rs:121;
    the last one, without its wrapper, isms/routing/src/contract.rs:134 *)
Definition asked_cases : list (case qmsg) :=
  [under qmsg_ok (s "hook") [q_quote];
   under qmsg_ok (s "ism") [q_verify];
   q_specifier;
   under qmsg_ok (s "mailbox") [q_local_domain; q_latest_id];
   q_oracle;
   on (s "verify_info") (struct (field (s "message") hex_c none)) (fun '(x, _) => QBareVerifyInfo x)
     (fun m => match m with QBareVerifyInfo x => Some (x, tt) | _ => None end)].
(** the text of a query from a contract: [query_wasm_smart], e.g. /repo/packages/interface/src/hook/mod.rs:99-106 *)
Definition ask_text (m : qmsg) : str := text (write_case asked_cases m).

(** ** Answers *)
(** an answer of one type, e.g. /repo/packages/interface/src/ownable.rs:21-24 *)
Definition ans {X R} (c : codec X) (f : X -> R) (g : R -> option X) : codec R :=
  mkCodec (fun r => match g r with Some x => write c x | None => JNull end)
    (fun j => option_map f (read c j))
    (fun r => match g r with Some x => fits c x | None => false end).
(** not modelled: the answers of cw20-base, which no contract of
    /repo/contracts/*/*/src/*.rs asks for *)
Definition no_answer_c : codec qres := mkCodec (fun _ => JNull) (fun _ => None) (fun _ => false).
(** [[HexBinary; TREE_DEPTH]], /repo/packages/interface/src/hook/merkle.rs:55-58 *)
Definition branch_c : codec (list bytes) :=
  let ok l := Nat.eqb (length l) 32 in
  mkCodec (write (list_c hex_c))
    (fun j => match read (list_c hex_c) j with Some l => if ok l then Some l else None | None => None end) ok.
(** /repo/packages/interface/src/ism/mod.rs:9-20 *)
Definition ism_type_name (t : ism_type) : str :=
  match t with
  | TUnused => s "unused" | TRouting => s "routing" | TAggregation => s "aggregation"
  | TLegacyMultisig => s "legacy_multisig" | TMerkleRootMultisig => s "merkle_root_multisig"
  | TMessageIdMultisig => s "message_id_multisig" | TNull => s "null" | TCcipRead => s "ccip_read"
  end.
(** /repo/packages/interface/src/ism/mod.rs:9-20 *)
Definition ism_type_c : codec ism_type :=
  mkCodec (fun t => JStr (ism_type_name t))
    (fun j => match j with
              | JStr x => find (fun t => bytes_eqb x (ism_type_name t))
                  [TUnused; TRouting; TAggregation; TLegacyMultisig; TMerkleRootMultisig; TMessageIdMultisig; TNull; TCcipRead]
              | _ => None
              end) (fun _ => true).
(** /repo/packages/interface/src/warp/mod.rs:37-41 *)
Definition token_mode_c : codec token_mode :=
  mkCodec (fun m => JStr (match m with Bridged => s "bridged" | Collateral => s "collateral" end))
    (fun j => match j with
              | JStr x => if bytes_eqb x (s "bridged") then Some Bridged
                          else if bytes_eqb x (s "collateral") then Some Collateral else None
              | _ => None
              end) (fun _ => true).
(** the tokens of a route: /repo/packages/interface/src/warp/mod.rs:9-20; the other
    variants are never made *)
Inductive token_type := TkDenom (d : str) | TkCw20 (a : addr).
(** [CW20] becomes [c_w20]; /repo/packages/interface/src/warp/mod.rs:15-20 *)
Definition token_type_c : codec token_type :=
  enum (fun _ => true)
    [on (s "native")
       (enum (fun _ => true)
          [on (s "fungible") (struct (field (s "denom") string_c none)) (fun '(x, _) => x) (fun x : str => Some (x, tt))])
       TkDenom (fun t => match t with TkDenom d => Some d | _ => None end);
     on (s "c_w20") (struct (field (s "contract") string_c none)) (fun '(x, _) => TkCw20 x)
       (fun t => match t with TkCw20 x => Some (x, tt) | _ => None end)].

(** [QuoteDispatchResponse], /repo/packages/interface/src/hook/mod.rs:71-74 *)
Definition fees_c : codec qres :=
  ans (struct (field (s "fees") (list_c coin_c) none)) (fun '(x, _) => RFees x)
    (fun r => match r with RFees x => Some (x, tt) | _ => None end).
(** [LocalDomainResponse], /repo/packages/interface/src/core/mailbox.rs:201-204, core/va.rs:50-53 *)
Definition local_domain_c : codec qres :=
  ans (struct (field (s "local_domain") u32_c none)) (fun '(x, _) => RLocalDomain x)
    (fun r => match r with RLocalDomain x => Some (x, tt) | _ => None end).
(** [MailboxResponse], /repo/packages/interface/src/hook/mod.rs:66-69, core/va.rs:45-48 *)
Definition mailbox_c : codec qres :=
  ans (struct (field (s "mailbox") string_c none)) (fun '(x, _) => RMailbox x)
    (fun r => match r with RMailbox x => Some (x, tt) | _ => None end).
(** [MailboxResponse], [HookResponse], [IsmResponse], /repo/packages/interface/src/connection.rs:25-38 *)
Definition conn_c (k : str) : codec qres :=
  ans (struct (optional k string_c none)) (fun '(x, _) => RConn x)
    (fun r => match r with RConn x => Some (x, tt) | _ => None end).
(** [VerifyResponse], /repo/packages/interface/src/ism/mod.rs:77-80 *)
Definition verified_c : codec qres :=
  ans (struct (field (s "verified") bool_c none)) (fun '(x, _) => RVerified x)
    (fun r => match r with RVerified x => Some (x, tt) | _ => None end).
(** [GetExchangeRateAndGasPriceResponse], /repo/packages/interface/src/igp/oracle.rs:52-56 *)
Definition oracle_c : codec qres :=
  ans (struct (field (s "gas_price") u128_c (field (s "exchange_rate") u128_c none))) (fun '(a, (b, _)) => ROracle a b)
    (fun r => match r with ROracle a b => Some (a, (b, tt)) | _ => None end).
(** [GasForDomainResponse], /repo/packages/interface/src/igp/core.rs:127-130 *)
Definition gas_list_c : codec qres :=
  ans (struct (field (s "gas") (list_c (pair_c u32_c u128_c)) none)) (fun '(x, _) => RGasList x)
    (fun r => match r with RGasList x => Some (x, tt) | _ => None end).
(** a struct of one string, e.g. /repo/packages/interface/src/ownable.rs:21-24 *)
Definition one_string_c (k : str) (f : str -> qres) (g : qres -> option str) : codec qres :=
  ans (struct (field k string_c none)) (fun '(x, _) => f x) (fun r => option_map (fun x => (x, tt)) (g r)).

(** [T] of the program's router: [HexBinary] in /repo/packages/interface/src/warp/native.rs:58,
    warp/cw20.rs:50 *)
Definition hex_routes (p : program) : bool := match p with PWarpNative | PWarpCw20 => true | _ => false end.
(** the type each program answers a query with: the [returns] attributes of the enums above
    and the response structs beside them; the routing ISM passes on what it read as a
    [VerifyResponse] (/repo/contracts/isms/routing/src/contract.rs:131-136) *)
Definition answer_c (p : program) (m : qmsg) : codec qres :=
  match m with
  | QOwner => one_string_c (s "owner") ROwner (fun r => match r with ROwner x => Some x | _ => None end)
  | QPendingOwner =>
      ans (struct (optional (s "pending_owner") string_c none)) (fun '(x, _) => RPendingOwner x)
        (fun r => match r with RPendingOwner x => Some (x, tt) | _ => None end)
  | QPauseInfo =>
      ans (struct (field (s "paused") bool_c none)) (fun '(x, _) => RPaused x)
        (fun r => match r with RPaused x => Some (x, tt) | _ => None end)
  | QDomains =>
      ans (struct (field (s "domains") (list_c u32_c) none)) (fun '(x, _) => RDomains x)
        (fun r => match r with RDomains x => Some (x, tt) | _ => None end)
  | QGetRoute _ =>
      ans (struct (field (s "route") (route_set_c (hex_routes p)) none)) (fun '(x, _) => RRoute x)
        (fun r => match r with RRoute x => Some (x, tt) | _ => None end)
  | QListRoutes _ _ _ =>
      ans (struct (field (s "routes") (list_c (route_set_c (hex_routes p))) none)) (fun '(x, _) => RRoutes x)
        (fun r => match r with RRoutes x => Some (x, tt) | _ => None end)
  | QConnMailbox => conn_c (s "mailbox")
  | QConnHook => conn_c (s "hook")
  | QConnIsm => conn_c (s "ism")
  | QHookQuote _ _ | QMailboxQuote _ _ => fees_c
  | QHookMailbox | QVaMailbox => mailbox_c
  | QIsmSpecifier =>
      ans (struct (optional (s "ism") string_c none)) (fun '(x, _) => RIsm x)
        (fun r => match r with RIsm x => Some (x, tt) | _ => None end)
  | QModuleType =>
      ans (struct (field (s "type") ism_type_c none)) (fun '(x, _) => RModuleType x)
        (fun r => match r with RModuleType x => Some (x, tt) | _ => None end)
  | QVerify _ _ | QBareVerifyInfo _ => verified_c
  | QVerifyInfo _ =>
      match p with
      | PRoutingIsm => verified_c
      | _ => ans (struct (field (s "threshold") u8_c (field (s "validators") (list_c hex_c) none)))
               (fun '(a, (b, _)) => RVerifyInfo a b)
               (fun r => match r with RVerifyInfo a b => Some (a, (b, tt)) | _ => None end)
      end
  | QHrp => one_string_c (s "hrp") RHrp (fun r => match r with RHrp x => Some x | _ => None end)
  | QLocalDomain | QVaLocalDomain => local_domain_c
  | QDelivered _ =>
      ans (struct (field (s "delivered") bool_c none)) (fun '(x, _) => RDelivered x)
        (fun r => match r with RDelivered x => Some (x, tt) | _ => None end)
  | QDefaultIsm => one_string_c (s "default_ism") RDefaultIsm (fun r => match r with RDefaultIsm x => Some x | _ => None end)
  | QDefaultHook => one_string_c (s "default_hook") RDefaultHook (fun r => match r with RDefaultHook x => Some x | _ => None end)
  | QRequiredHook => one_string_c (s "required_hook") RRequiredHook (fun r => match r with RRequiredHook x => Some x | _ => None end)
  | QNonce =>
      ans (struct (field (s "nonce") u32_c none)) (fun '(x, _) => RNonce x)
        (fun r => match r with RNonce x => Some (x, tt) | _ => None end)
  | QRecipientIsm _ => one_string_c (s "ism") RRecipientIsm (fun r => match r with RRecipientIsm x => Some x | _ => None end)
  | QLatestDispatchId =>
      ans (struct (field (s "message_id") hex_c none)) (fun '(x, _) => RMessageId x)
        (fun r => match r with RMessageId x => Some (x, tt) | _ => None end)
  | QLocations _ =>
      ans (struct (field (s "storage_locations") (list_c (pair_c string_c (list_c string_c))) none)) (fun '(x, _) => RLocations x)
        (fun r => match r with RLocations x => Some (x, tt) | _ => None end)
  | QValidators =>
      ans (struct (field (s "validators") (list_c string_c) none)) (fun '(x, _) => RValidators x)
        (fun r => match r with RValidators x => Some (x, tt) | _ => None end)
  | QEnrolled _ =>
      ans (struct (field (s "validators") (list_c hex_c) (field (s "threshold") u8_c none)))
        (fun '(a, (b, _)) => REnrolled a b)
        (fun r => match r with REnrolled a b => Some (a, (b, tt)) | _ => None end)
  | QIsms =>
      ans (struct (field (s "isms") (list_c string_c) (field (s "threshold") u8_c none)))
        (fun '(a, (b, _)) => RIsms a b)
        (fun r => match r with RIsms a b => Some (a, (b, tt)) | _ => None end)
  | QRoute _ => one_string_c (s "ism") RRouteIsm (fun r => match r with RRouteIsm x => Some x | _ => None end)
  | QMerkleCount =>
      ans (struct (field (s "count") u32_c none)) (fun '(x, _) => RCount x)
        (fun r => match r with RCount x => Some (x, tt) | _ => None end)
  | QMerkleRoot =>
      ans (struct (field (s "root") hex_c none)) (fun '(x, _) => RRoot x)
        (fun r => match r with RRoot x => Some (x, tt) | _ => None end)
  | QMerkleBranch =>
      ans (struct (field (s "branch") branch_c none)) (fun '(x, _) => RBranch x)
        (fun r => match r with RBranch x => Some (x, tt) | _ => None end)
  | QMerkleTree =>
      ans (struct (field (s "branch") branch_c (field (s "count") u32_c none))) (fun '(a, (b, _)) => RTree a b)
        (fun r => match r with RTree a b => Some (a, (b, tt)) | _ => None end)
  | QMerkleCheckPoint =>
      ans (struct (field (s "root") hex_c (field (s "count") u32_c none))) (fun '(a, (b, _)) => RCheckPoint a b)
        (fun r => match r with RCheckPoint a b => Some (a, (b, tt)) | _ => None end)
  | QAggHooks =>
      ans (struct (field (s "hooks") (list_c string_c) none)) (fun '(x, _) => RHooks x)
        (fun r => match r with RHooks x => Some (x, tt) | _ => None end)
  | QFee =>
      ans (struct (field (s "fee") coin_c none)) (fun '(x, _) => RFee x)
        (fun r => match r with RFee x => Some (x, tt) | _ => None end)
  | QCustomHook _ _ => ans custom_hook_c RCustomHook (fun r => match r with RCustomHook x => Some x | _ => None end)
  | QCustomHooks _ _ _ _ =>
      ans (struct (field (s "custom_hooks") (list_c custom_hook_c) none)) (fun '(x, _) => RCustomHooks x)
        (fun r => match r with RCustomHooks x => Some (x, tt) | _ => None end)
  | QDefaultGas =>
      ans (struct (field (s "gas") u128_c none)) (fun '(x, _) => RGas x)
        (fun r => match r with RGas x => Some (x, tt) | _ => None end)
  | QGasForDomain _ | QListGas _ _ _ => gas_list_c
  | QBeneficiary => one_string_c (s "beneficiary") RBeneficiary (fun r => match r with RBeneficiary x => Some x | _ => None end)
  | QQuoteGasPayment _ _ =>
      ans (struct (field (s "gas_needed") u256_c none)) (fun '(x, _) => RGasNeeded x)
        (fun r => match r with RGasNeeded x => Some (x, tt) | _ => None end)
  | QOracle _ => oracle_c
  | QTokenType =>
      ans (struct (field (s "type") token_type_c none))
        (fun '(x, _) => match x with TkDenom d => RTokenDenom d | TkCw20 a => RTokenCw20 a end)
        (fun r => match r with RTokenDenom d => Some (TkDenom d, tt) | RTokenCw20 a => Some (TkCw20 a, tt) | _ => None end)
  | QTokenMode =>
      ans (struct (field (s "mode") token_mode_c none)) (fun '(x, _) => RTokenMode x)
        (fun r => match r with RTokenMode x => Some (x, tt) | _ => None end)
  | QCw20Balance _ | QCw20TokenInfo | QCw20Allowance _ _ | QOther _ => no_answer_c
  end.
(** [to_json_binary] of an answer, e.g. /repo/packages/interface/src/lib.rs:84-88 *)
Definition answer_text (p : program) (m : qmsg) (r : qres) : str := text (write (answer_c p m) r).
(** [query_wasm_smart::<T>], e.g. /repo/packages/interface/src/ism/mod.rs:97-103 *)
Definition read_answer (p : program) (m : qmsg) (t : str) : option qres :=
  match parse t with Some j => read (answer_c p m) j | None => None end.
