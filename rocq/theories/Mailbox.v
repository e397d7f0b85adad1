(** * /repo/contracts/core/mailbox

    Queries made after the contract has written its storage see the written
    value (CosmWasm queries run on the same store), hence the queriers are
    given as a function [Q] of the contract's current state. *)
From Coq Require Import List NArith Bool.
From Verif Require Import Base OMap Coins Crypto Message Bech32 Chain Ownable.
Import ListNotations.

(** mailbox/src/lib.rs:10 *)
Definition MAILBOX_VERSION : N := 3.

(** mailbox/src/state.rs:49-53 *)
Record delivery : Type := mkDelivery { dl_sender : addr; dl_height : N }.

(** mailbox/src/state.rs:5-13 and 55-65, plus the ownable storage.  CONFIG and
    NONCE are written by [instantiate], LATEST_DISPATCHED_ID only by dispatch. *)
Record mb : Type := mkMb {
  mb_own : own;
  mb_hrp : str;
  mb_domain : N;
  mb_ism : option addr;        (* default_ism *)
  mb_hook : option addr;       (* default_hook *)
  mb_required : option addr;   (* required_hook *)
  mb_nonce : N;
  mb_latest : option bytes;
  mb_deliveries : omap bytes delivery
}.

(** [hrp.chars().all(char::is_lowercase)]: exact on ASCII; bytes of non-ASCII
    characters are all let through (over-approximates acceptance; such a prefix makes
    every later bech32 call fail): /repo/contracts/core/mailbox/src/contract.rs:28 *)
Definition hrp_lowercase (h : str) : bool :=
  forallb (fun b => is_lower b || (128 <=? bN b))%bool h.

(** mailbox/src/contract.rs:18-48 *)
Definition mb_instantiate (A : api) (hrp owner : str) (domain : N) : res (mb * response) :=
  _ <- ensure (hrp_lowercase hrp) EInvalidConfig ;;
  o <- addr_validate A owner ;;
  Ok (mkMb (own_init o) hrp domain None None None 0 None [], resp0).

(** storing OWNER and PENDING_OWNER: /repo/packages/ownable/src/lib.rs:62-118 *)
Definition mb_set_own (x : mb) (o : own) : mb :=
  mkMb o (mb_hrp x) (mb_domain x) (mb_ism x) (mb_hook x) (mb_required x)
       (mb_nonce x) (mb_latest x) (mb_deliveries x).

(** mailbox/src/execute.rs:26-47 *)
Definition mb_set_default_ism (A : api) (i : info) (ism : str) (x : mb) : res (mb * response) :=
  _ <- only_owner (mb_own x) i ;;
  a <- addr_validate A ism ;;
  Ok (mkMb (mb_own x) (mb_hrp x) (mb_domain x) (Some a) (mb_hook x) (mb_required x)
           (mb_nonce x) (mb_latest x) (mb_deliveries x), resp0).

(** mailbox/src/execute.rs:49-70 *)
Definition mb_set_default_hook (A : api) (i : info) (hook : str) (x : mb) : res (mb * response) :=
  _ <- only_owner (mb_own x) i ;;
  a <- addr_validate A hook ;;
  Ok (mkMb (mb_own x) (mb_hrp x) (mb_domain x) (mb_ism x) (Some a) (mb_required x)
           (mb_nonce x) (mb_latest x) (mb_deliveries x), resp0).

(** mailbox/src/execute.rs:72-93 *)
Definition mb_set_required_hook (A : api) (i : info) (hook : str) (x : mb) : res (mb * response) :=
  _ <- only_owner (mb_own x) i ;;
  a <- addr_validate A hook ;;
  Ok (mkMb (mb_own x) (mb_hrp x) (mb_domain x) (mb_ism x) (mb_hook x) (Some a)
           (mb_nonce x) (mb_latest x) (mb_deliveries x), resp0).

(** mailbox/src/state.rs:36-38, 40-42, 44-46 *)
Definition get_default_ism (x : mb) : res addr := expect (mb_ism x).
(** /repo/contracts/core/mailbox/src/state.rs:40-42 *)
Definition get_default_hook (x : mb) : res addr := expect (mb_hook x).
(** /repo/contracts/core/mailbox/src/state.rs:44-46 *)
Definition get_required_hook (x : mb) : res addr := expect (mb_required x).

(** packages/interface/src/core/mailbox.rs:52-68 *)
Definition to_msg (d : dispatch_msg) (version nonce origin : N) (sender : str) : res message :=
  h <- bech32_to_h256 sender ;;
  Ok (mkMessage version nonce origin h (d_dest d) (d_recipient d) (d_body d)).

(** packages/interface/src/core/mailbox.rs:70-77 *)
Definition get_hook_addr (A : api) (d : dispatch_msg) (default : addr) : res addr :=
  match d_hook d with Some h => addr_validate A h | None => Ok default end.

(** [Option::unwrap_or_default] on the metadata:
    /repo/contracts/core/mailbox/src/execute.rs:115 *)
Definition d_meta (d : dispatch_msg) : bytes :=
  match d_metadata d with Some x => x | None => [] end.

(** mailbox/src/execute.rs:123-131 *)
Definition pay_required (funds : list coin) (fees : list coin) : res coins :=
  f <- coins_try_from funds ;;
  map_err (foldM coins_sub fees f) EHookPayment.

(** mailbox/src/execute.rs:95-154 *)
Definition mb_dispatch (A : api) (Q : mb -> querier) (i : info) (d : dispatch_msg) (x : mb)
  : res (mb * response) :=
  let nonce := mb_nonce x in
  _ <- ensure (Nat.eqb (length (d_recipient d)) 32)
         (EInvalidAddressLength (N.of_nat (length (d_recipient d)))) ;;
  msg <- to_msg d MAILBOX_VERSION nonce (mb_domain x) (i_sender i) ;;
  let metadata := d_meta d in
  default <- get_default_hook x ;;
  hook <- get_hook_addr A d default ;;
  required <- get_required_hook x ;;
  fees <- quote_dispatch (Q x) required metadata (msg_encode msg) ;;
  rest <- pay_required (i_funds i) fees ;;
  let id := msg_id msg in
  _ <- need (nonce + 1 <? u32_max) ;;
  Ok (mkMb (mb_own x) (mb_hrp x) (mb_domain x) (mb_ism x) (mb_hook x) (mb_required x)
           (nonce + 1) (Some id) (mb_deliveries x),
      mkResp [mkSub (post_dispatch required metadata (msg_encode msg) fees) RpNever;
              mkSub (post_dispatch hook metadata (msg_encode msg) (coins_to_vec rest)) RpNever]
             (Some id)).

(** mailbox/src/execute.rs:156-226 *)
Definition mb_process (Q : mb -> querier) (e : env) (i : info) (metadata message : bytes) (x : mb)
  : res (mb * response) :=
  m <- msg_decode message ;;
  recipient <- bech32_encode (mb_hrp x) (m_recipient m) ;;
  _ <- ensure (m_version m =? MAILBOX_VERSION) EInvalidMessageVersion ;;
  _ <- ensure (m_dest m =? mb_domain x) EInvalidDestinationDomain ;;
  let id := msg_id m in
  own_ism <- recipient_ism (Q x) recipient ;;
  default <- get_default_ism x ;;
  let ism := match own_ism with Some a => a | None => default end in
  _ <- ensure (match om_get id (mb_deliveries x) with Some _ => false | None => true end)
         EAlreadyDeliveredMessage ;;
  let x' := mkMb (mb_own x) (mb_hrp x) (mb_domain x) (mb_ism x) (mb_hook x) (mb_required x)
              (mb_nonce x) (mb_latest x)
              (om_set id (mkDelivery (i_sender i) (e_height e)) (mb_deliveries x)) in
  verified <- ism_verify (Q x') ism metadata (msg_encode m) ;;
  _ <- ensure verified EVerifyFailed ;;
  Ok (x', resp [CExec recipient (MHandle (m_origin m) (m_sender m) (m_body m)) []]).

(** mailbox/src/contract.rs:51-70 *)
Definition mb_execute (A : api) (Q : mb -> querier) (e : env) (i : info) (m : emsg) (x : mb)
  : res (mb * response) :=
  match m with
  | MOwnable om => o <- own_handle A i om (mb_own x) ;; Ok (mb_set_own x o, resp0)
  | MSetDefaultIsm a => mb_set_default_ism A i a x
  | MSetDefaultHook a => mb_set_default_hook A i a x
  | MSetRequiredHook a => mb_set_required_hook A i a x
  | MDispatch d => mb_dispatch A Q i d x
  | MProcess md msg => mb_process Q e i md msg x
  | _ => Err EParse
  end.

(** mailbox/src/query.rs:67-78 *)
Definition mb_recipient_ism (A : api) (q : querier) (r : str) (x : mb) : res qres :=
  default <- get_default_ism x ;;
  a <- addr_validate A r ;;
  o <- recipient_ism q a ;;
  Ok (RRecipientIsm (match o with Some i => i | None => default end)).

(** mailbox/src/query.rs:88-132 *)
Definition mb_quote_dispatch (A : api) (q : querier) (sender : str) (d : dispatch_msg) (x : mb)
  : res (list coin) :=
  snd <- addr_validate A sender ;;
  msg <- to_msg d MAILBOX_VERSION (mb_nonce x) (mb_domain x) snd ;;
  default <- get_default_hook x ;;
  required <- get_required_hook x ;;
  hook <- get_hook_addr A d default ;;
  base <- quote_dispatch q hook (d_meta d) (msg_encode msg) ;;
  req <- quote_dispatch q required (d_meta d) (msg_encode msg) ;;
  acc <- coins_try_from base ;;
  total <- foldM coins_add req acc ;;
  Ok (coins_to_vec total).

(** mailbox/src/contract.rs:73-96 with mailbox/src/query.rs:17-65, 80-86 *)
Definition mb_query (A : api) (q : querier) (m : qmsg) (x : mb) : res qres :=
  match m with
  | QOwner | QPendingOwner => own_query m (mb_own x)
  | QMailboxQuote sender d => f <- mb_quote_dispatch A q sender d x ;; Ok (RFees f)
  | QHrp => Ok (RHrp (mb_hrp x))
  | QLocalDomain => Ok (RLocalDomain (mb_domain x))
  | QDefaultIsm => a <- get_default_ism x ;; Ok (RDefaultIsm a)
  | QDefaultHook => a <- get_default_hook x ;; Ok (RDefaultHook a)
  | QRequiredHook => a <- get_required_hook x ;; Ok (RRequiredHook a)
  | QDelivered id =>
      Ok (RDelivered (match om_get id (mb_deliveries x) with Some _ => true | None => false end))
  | QRecipientIsm r => mb_recipient_ism A q r x
  | QNonce => Ok (RNonce (mb_nonce x))
  | QLatestDispatchId => id <- ok_or (mb_latest x) EStd ;; Ok (RMessageId id)
  | _ => Err EParse
  end.
