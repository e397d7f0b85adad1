(** * Warp routes: /repo/contracts/warp *)
From Coq Require Import List NArith Bool.
From Verif Require Import Base OMap Crypto Message Bech32 Coins Chain Ownable Router.
Import ListNotations.

(** warp/native/src/lib.rs:11, warp/cw20/src/lib.rs:10 *)
Definition REPLY_ID_CREATE_DENOM : N := 0.

(** warp/native/src/lib.rs:17-31, warp/cw20/src/lib.rs:16-30 and the storage of
    packages/ownable, packages/router, packages/connection.  [wp_token] is the
    denomination (native) or the token contract (cw20); it is absent between
    the instantiation of a bridged route and its reply.  MAILBOX (key "mailbox")
    is not the connection's mailbox (key "conn::mailbox",
    packages/connection/src/lib.rs:10). *)
Record wp : Type := mkWp {
  wp_own : own;
  wp_routes : routes;
  wp_conn : conn;
  wp_token : option str;
  wp_mode : token_mode;
  wp_hrp : str;
  wp_mailbox : addr
}.

(** packages/interface/src/warp/native.rs:35-44, warp/cw20.rs: the token part of
    InstantiateMsg.  Of the cw20 init message only the initial balances matter
    here. *)
Inductive native_token :=
| NtBridged (subdenom : str) (md : option denom_metadata)
| NtCollateral (denom : str).
(** /repo/packages/interface/src/warp/cw20.rs:17-37 *)
Inductive cw20_token :=
| CtBridged (initial : list (addr * N))
| CtCollateral (address : str).

(** ** warp/native *)
(** warp/native/src/contract.rs:30-86 *)
Definition wn_instantiate (A : api) (e : env) (t : native_token) (hrp owner mailbox : str)
  : res (wp * response) :=
  o <- addr_validate A owner ;;
  mb <- addr_validate A mailbox ;;
  match t with
  | NtBridged d md =>
      Ok (mkWp (own_init o) [] (mkConn None None None) None Bridged hrp mb,
          mkResp (mkSub (CCreateDenom (e_contract e) d) (RpSuccess REPLY_ID_CREATE_DENOM)
                  :: match md with
                     | Some m => [mkSub (CSetDenomMetadata (e_contract e) m) RpNever]
                     | None => [] end) None)
  | NtCollateral d =>
      Ok (mkWp (own_init o) [] (mkConn None None None) (Some d) Collateral hrp mb, resp0)
  end.

(** storing TOKEN: /repo/contracts/warp/native/src/contract.rs:134,
    /repo/contracts/warp/cw20/src/contract.rs:130 *)
Definition wp_set_token (x : wp) (t : str) : wp :=
  mkWp (wp_own x) (wp_routes x) (wp_conn x) (Some t) (wp_mode x) (wp_hrp x) (wp_mailbox x).

(** warp/native/src/contract.rs:122-144 *)
Definition wn_reply (id : N) (r : res reply_result) (x : wp) : res (wp * response) :=
  match r with
  | Ok (RrDenom d) =>
      if id =? REPLY_ID_CREATE_DENOM then Ok (wp_set_token x d, resp0) else Err EInvalidReplyId
  | _ => Err EStd
  end.

(** warp/native/src/contract.rs:152-167 and warp/cw20/src/contract.rs:147-162:
    the caller is the mailbox and the message comes from the enrolled router *)
Definition wp_check_handle (i : info) (origin : N) (sender body : bytes) (x : wp)
  : res warp_message :=
  _ <- ensure (bytes_eqb (i_sender i) (wp_mailbox x)) EUnauthorized ;;
  r <- expect (rs_route (get_route (wp_routes x) origin)) ;;
  _ <- ensure (bytes_eqb sender r) EUnauthorized ;;
  warp_decode body.

(** warp/native/src/conv.rs:43-45, warp/cw20/src/conv.rs:42-44 *)
Definition to_uint128 (n : N) : res N := if n <? u128_max then Ok n else Err EStd.

(** warp/native/src/contract.rs:146-195 *)
Definition wn_handle (e : env) (i : info) (origin : N) (sender body : bytes) (x : wp)
  : res (wp * response) :=
  w <- wp_check_handle i origin sender body x ;;
  recipient <- bech32_encode (wp_hrp x) (w_recipient w) ;;
  token <- ok_or (wp_token x) EStd ;;
  amount <- to_uint128 (w_amount w) ;;
  let mint := match wp_mode x with
              | Bridged => [CMint (e_contract e) (w_amount w) token]
              | Collateral => [] end in
  Ok (x, resp (mint ++ [CBankSend recipient [mkCoin token amount]])).

(** warp/native/src/contract.rs:214-224: the first coin of the token's
    denomination pays for the transfer *)
Fixpoint take_token (token : str) (amount : N) (funds : list coin) : res (list coin) :=
  match funds with
  | [] => Panic
  | c :: l =>
      if bytes_eqb (c_denom c) token then
        if amount <=? c_amount c then Ok (mkCoin (c_denom c) (c_amount c - amount) :: l)
        else Err EInsufficientFunds
      else r <- take_token token amount l ;; Ok (c :: r)
  end.

(** packages/interface/src/core/mailbox.rs:106-127 *)
Definition mailbox_dispatch (mailbox : addr) (dest : N) (recipient body : bytes)
    (hook : option str) (metadata : option bytes) (funds : list coin) : cmsg :=
  CExec mailbox (MDispatch (mkDispatch dest recipient body hook metadata)) funds.

(** [if let Some(h) = hook { addr_validate(h)? }]:
    /repo/contracts/warp/native/src/contract.rs:230-233 *)
Definition check_hook (A : api) (hook : option str) : res unit :=
  match hook with Some h => (_ <- addr_validate A h ;; Ok tt) | None => Ok tt end.

(** [hook.clone().or(get_hook(deps.storage)?)]:
    /repo/contracts/warp/native/src/contract.rs:254 *)
Definition hook_or (hook : option str) (x : wp) : option str :=
  match hook with Some h => Some h | None => cn_hook (wp_conn x) end.

(** warp/native/src/contract.rs:198-268; the recipient's length is not checked *)
Definition wn_transfer_remote (A : api) (e : env) (i : info) (dest : N) (recipient : bytes)
    (amount : N) (hook : option str) (metadata : option bytes) (x : wp) : res (wp * response) :=
  token <- ok_or (wp_token x) EStd ;;
  funds <- take_token token amount (i_funds i) ;;
  router <- expect (rs_route (get_route (wp_routes x) dest)) ;;
  _ <- check_hook A hook ;;
  let burn := match wp_mode x with
              | Bridged => [CBurn (e_contract e) amount token]
              | Collateral => [] end in
  Ok (x, resp (burn ++
    [mailbox_dispatch (wp_mailbox x) dest router (warp_encode (mkWarp recipient amount []))
       (hook_or hook x) metadata funds])).

(** storing OWNER and PENDING_OWNER: /repo/packages/ownable/src/lib.rs:62-118 *)
Definition wp_set_own (x : wp) (o : own) : wp :=
  mkWp o (wp_routes x) (wp_conn x) (wp_token x) (wp_mode x) (wp_hrp x) (wp_mailbox x).
(** storing "routes": /repo/packages/router/src/lib.rs:66-108 *)
Definition wp_set_routes (x : wp) (r : routes) : wp :=
  mkWp (wp_own x) r (wp_conn x) (wp_token x) (wp_mode x) (wp_hrp x) (wp_mailbox x).
(** storing HOOK, ISM or the connection MAILBOX:
    /repo/packages/connection/src/lib.rs:27-70 *)
Definition wp_set_conn (x : wp) (c : conn) : wp :=
  mkWp (wp_own x) (wp_routes x) c (wp_token x) (wp_mode x) (wp_hrp x) (wp_mailbox x).

(** warp/native/src/contract.rs:98-100, warp/cw20/src/contract.rs:94-96 *)
Definition wp_common (A : api) (i : info) (m : emsg) (x : wp) : res (wp * response) :=
  match m with
  | MOwnable om => o <- own_handle A i om (wp_own x) ;; Ok (wp_set_own x o, resp0)
  | MRouter rm => r <- router_handle (wp_own x) i rm (wp_routes x) ;; Ok (wp_set_routes x r, resp0)
  | MConnection cm =>
      c <- conn_handle A (wp_own x) i cm (wp_conn x) ;; Ok (wp_set_conn x c, resp0)
  | _ => Err EParse
  end.

(** warp/native/src/contract.rs:89-119 *)
Definition wn_execute (A : api) (e : env) (i : info) (m : emsg) (x : wp) : res (wp * response) :=
  match m with
  | MHandle o sn b => wn_handle e i o sn b x
  | MTransferRemote d r a h md => wn_transfer_remote A e i d r a h md x
  | _ => wp_common A i m x
  end.

(** warp/native/src/contract.rs:271-302 and warp/cw20/src/contract.rs:258-289 but
    the token type *)
Definition wp_query (tt : str -> qres) (m : qmsg) (x : wp) : res qres :=
  match m with
  | QOwner | QPendingOwner => own_query m (wp_own x)
  | QDomains | QGetRoute _ | QListRoutes _ _ _ => router_query m (wp_routes x)
  | QConnMailbox | QConnHook | QConnIsm => conn_query m (wp_conn x)
  | QTokenType => t <- ok_or (wp_token x) EStd ;; Ok (tt t)
  | QTokenMode => Ok (RTokenMode (wp_mode x))
  | QIsmSpecifier => Ok (RIsm (cn_ism (wp_conn x)))
  | _ => Err EParse
  end.
(** warp/native/src/contract.rs:271-302 *)
Definition wn_query : qmsg -> wp -> res qres := wp_query RTokenDenom.

(** ** warp/cw20 *)
(** warp/cw20/src/contract.rs:29-82.  The code id of the token is taken to be
    that of cw20-base. *)
Definition wc_instantiate (A : api) (e : env) (t : cw20_token) (hrp owner mailbox : str)
  : res (wp * response) :=
  o <- addr_validate A owner ;;
  mb <- addr_validate A mailbox ;;
  match t with
  | CtBridged init =>
      Ok (mkWp (own_init o) [] (mkConn None None None) None Bridged hrp mb,
          mkResp [mkSub (CInstantiateCw20 (e_contract e) init) (RpSuccess REPLY_ID_CREATE_DENOM)]
            None)
  | CtCollateral a =>
      a' <- addr_validate A a ;;
      Ok (mkWp (own_init o) [] (mkConn None None None) (Some a') Collateral hrp mb, resp0)
  end.

(** warp/cw20/src/contract.rs:118-140 *)
Definition wc_reply (A : api) (id : N) (r : res reply_result) (x : wp) : res (wp * response) :=
  if id =? REPLY_ID_CREATE_DENOM then
    match r with
    | Ok (RrContract a) => a' <- addr_validate A a ;; Ok (wp_set_token x a', resp0)
    | _ => Err EStd
    end
  else Err EInvalidReplyId.

(** warp/cw20/src/contract.rs:142-182 *)
Definition wc_handle (i : info) (origin : N) (sender body : bytes) (x : wp) : res (wp * response) :=
  w <- wp_check_handle i origin sender body x ;;
  recipient <- bech32_encode (wp_hrp x) (w_recipient w) ;;
  token <- ok_or (wp_token x) EStd ;;
  amount <- to_uint128 (w_amount w) ;;
  Ok (x, resp [CExec token (match wp_mode x with
                            | Bridged => MCw20Mint recipient amount
                            | Collateral => MCw20Transfer recipient amount end) []]).

(** warp/cw20/src/contract.rs:185-255; the recipient's length is not checked *)
Definition wc_transfer_remote (A : api) (e : env) (i : info) (dest : N) (recipient : bytes)
    (amount : N) (hook : option str) (metadata : option bytes) (x : wp) : res (wp * response) :=
  token <- ok_or (wp_token x) EStd ;;
  router <- expect (rs_route (get_route (wp_routes x) dest)) ;;
  _ <- check_hook A hook ;;
  let burn := match wp_mode x with
              | Bridged => [CExec token (MCw20Burn amount) []]
              | Collateral => [] end in
  Ok (x, resp (CExec token (MCw20TransferFrom (i_sender i) (e_contract e) amount) [] :: burn ++
    [mailbox_dispatch (wp_mailbox x) dest router (warp_encode (mkWarp recipient amount []))
       (hook_or hook x) metadata (i_funds i)])).

(** warp/cw20/src/contract.rs:85-115 *)
Definition wc_execute (A : api) (e : env) (i : info) (m : emsg) (x : wp) : res (wp * response) :=
  match m with
  | MHandle o sn b => wc_handle i o sn b x
  | MTransferRemote d r a h md => wc_transfer_remote A e i d r a h md x
  | _ => wp_common A i m x
  end.

(** warp/cw20/src/contract.rs:258-289 *)
Definition wc_query : qmsg -> wp -> res qres := wp_query RTokenCw20.
