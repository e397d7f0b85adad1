(** * What the errors say: the words used in C102.

    For each error a call can be refused with, the state of affairs it reports, in
    terms of the message, what the contract reports and the answers of others. *)
From Coq Require Import List NArith Bool.
From Verif Require Import Base Bech32 Crypto Coins Message Chain Contracts Spec SpecModules SpecWorld SpecInit.
Import ListNotations.

(** somebody else than the one the call is reserved for:
    /repo/packages/ownable/src/lib.rs:62-118, /repo/packages/pausable/src/lib.rs:28-44,
    /repo/contracts/igps/core/src/execute.rs:90-92,
    /repo/contracts/warp/native/src/contract.rs:152-167,
    /repo/contracts/hooks/merkle/src/lib.rs:91-102 *)
Definition forbidden (A : api) (q : querier) (i : info) (m : emsg) (st : cstate) : Prop :=
  match m with
  | MOwnable ClaimOwnership | MOracleOwnership ClaimOwnership =>
      exists p, reported_pending st = Some p /\ p <> i_sender i
  | MClaim => is_igp st /\ reported_beneficiary st <> Some (i_sender i)
  | MHandle origin sender _ =>
      is_warp st /\ (warp_mailbox st <> Some (i_sender i) \/ reported_route st origin <> Some (Some sender))
  | MPostDispatch _ raw =>
      exists mb latest, reported_hook_mailbox st = Some mb /\
        q_smart q mb QLatestDispatchId = Ok (RMessageId latest) /\ latest <> keccak256_hash raw
  | _ => setting A st m <> None /\ reported_owner st <> Some (i_sender i)
  end.

(** the denomination a payment must be made in:
    /repo/contracts/hooks/fee/src/lib.rs:114-116, /repo/contracts/igps/core/src/execute.rs:151-152 *)
Definition asked_denom (st : cstate) : str :=
  match st with
  | SFeeHook _ => match reported_fee st with Some c => c_denom c | None => [] end
  | _ => gas_token st
  end.

(** too little gas paid: /repo/contracts/igps/core/src/execute.rs:151-161 *)
Definition underpaid (q : querier) (i : info) (st : cstate) (d gas : N) : Prop :=
  exists price rate, gas_terms q st d price rate /\
    amount_of (gas_token st) (i_funds i) < gas_cost gas price rate.

(** what each error says; an error not listed for a call is not given by it.
    [EStd] and [EParse] stand for the errors without a cause of their own.  The names
    are the model's: e.g. [EVerifyReplay] is the announce contract's
    "replay protection triggered", [EInvalidConfig] and [EWrongLength] the thresholds,
    addresses and arguments found invalid, and what the packages report as generic
    errors with a text of their own has the name of that text.
    /repo/contracts/core/mailbox/src/error.rs:8-50, /repo/contracts/core/va/src/error.rs:6-33,
    /repo/contracts/igps/core/src/error.rs:6-38 *)
Definition cause (A : api) (Q : cstate -> querier) (i : info) (m : emsg) (st : cstate) (er : err) : Prop :=
  match er, m with
  | EStd, _ | EParse, _ => True
  | EUnauthorized, _ => forbidden A (Q st) i m st
  | EOwnershipTransferring, (MOwnable (InitOwnershipTransfer _) | MOracleOwnership (InitOwnershipTransfer _)) =>
      reported_owner st = Some (i_sender i) /\ reported_pending st <> None
  | EOwnershipNotTransferring, (MOwnable _ | MOracleOwnership _) => reported_pending st = None
  | EPaused, MPostDispatch _ _ => reported_paused st = Some true
  | EAlreadyPaused, MPausable Pause => reported_paused st = Some true
  | ENotPaused, MPausable Release => reported_paused st = Some false
  | ERouteNotFound, MPostDispatch _ raw =>
      is_router_hook st /\ exists msg, msg_decode raw = Ok msg /\ selected_hook st msg = None
  | EInvalidAddressLength n, MDispatch d => n = N.of_nat (length (d_recipient d)) /\ n <> 32
  | EInvalidAddressLength n, MAnnounce v _ _ => n = N.of_nat (length v) /\ n <> 20
  | EHookPayment, MDispatch d =>
      exists n dom sender required fees x,
        reported_nonce st = Some n /\ reported_domain st = Some dom /\ bech32_to_h256 (i_sender i) = Ok sender /\
        reported_required_hook st = Some required /\
        q_smart (Q st) required (QHookQuote (request_metadata d)
          (msg_encode (mkMessage 3 n dom sender (d_dest d) (d_recipient d) (d_body d)))) = Ok (RFees fees) /\
        amount_of x (i_funds i) < amount_of x fees
  | EInvalidMessageVersion, MProcess _ raw => exists msg, msg_decode raw = Ok msg /\ m_version msg <> 3
  | EInvalidDestinationDomain, MProcess _ raw =>
      exists msg dom, msg_decode raw = Ok msg /\ reported_domain st = Some dom /\ m_dest msg <> dom
  | EAlreadyDeliveredMessage, MProcess _ raw => reported_delivered st (keccak256_hash raw) = Some true
  | EVerifyFailed, MProcess md raw =>
      reported_delivered st (keccak256_hash raw) = Some false /\
      exists msg hrp recipient own dflt st', msg_decode raw = Ok msg /\ reported_hrp st = Some hrp /\
        bech32_encode hrp (m_recipient msg) = Ok recipient /\
        q_smart (Q st) recipient QIsmSpecifier = Ok (RIsm own) /\ reported_default_ism st = Some dflt /\
        q_smart (Q st') (match own with Some a => a | None => dflt end) (QVerify md raw) = Ok (RVerified false)
  | (EVerifyFailed | ERecover), MAnnounce v sg l => ~ announcement_signed A st v sg l
  | EVerifyReplay, MAnnounce v _ l =>
      exists v' l' ls, announced st v' = Some ls /\ In l' ls /\ keccak256_hash (v' ++ l') = keccak256_hash (v ++ l)
  | EInsufficientFunds, MPostDispatch md raw =>
      (exists fee, reported_fee st = Some fee /\ amount_of (c_denom fee) (i_funds i) < c_amount fee) \/
      (exists msg gas, msg_decode raw = Ok msg /\ requested_gas st md msg gas /\ underpaid (Q st) i st (m_dest msg) gas)
  | EInsufficientFunds, MPayForGas _ d gas _ => underpaid (Q st) i st d gas
  | EInsufficientFunds, MTransferRemote _ _ amount _ _ =>
      exists token n, reported_token st = Some token /\ In (mkCoin token n) (i_funds i) /\ n < amount
  | EPaymentNoFunds, (MPostDispatch _ _ | MPayForGas _ _ _ _) => forall x, amount_of x (i_funds i) = 0
  | EPaymentMultiple, (MPostDispatch _ _ | MPayForGas _ _ _ _) => (1 < length (i_funds i))%nat
  | EPaymentMissingDenom, (MPostDispatch _ _ | MPayForGas _ _ _ _) => amount_of (asked_denom st) (i_funds i) = 0
  | EGasOracleNotFound, MPostDispatch _ raw =>
      exists msg, msg_decode raw = Ok msg /\ reported_route st (m_dest msg) = Some None
  | EGasOracleNotFound, MPayForGas _ d _ _ => reported_route st d = Some None
  | (EInvalidConfig | EWrongLength), _ => exists P, setting A st m = Some P /\ ~ P
  | ETreeFull, MPostDispatch _ _ => reported_count st = Some (2 ^ 32 - 1)
  | _, _ => False
  end.

(** the same for queries: /repo/contracts/isms/routing/src/contract.rs:103-152,
    /repo/contracts/isms/pausable/src/lib.rs:80-95, /repo/contracts/isms/multisig/src/query.rs:21-68,
    /repo/contracts/hooks/routing/src/lib.rs:113-122, /repo/contracts/igps/core/src/query.rs:62-137 *)
Definition query_cause (A : api) (m : qmsg) (st : cstate) (er : err) : Prop :=
  match er, m with
  | EStd, _ | EParse, _ => True
  | ERouteNotFound, (QVerify _ raw | QVerifyInfo raw | QRoute raw) =>
      is_routing_ism st /\ (exists msg, msg_decode raw = Ok msg) /\ reported_module_for st raw = None
  | ERouteNotFound, QHookQuote _ raw =>
      is_router_hook st /\ exists msg, msg_decode raw = Ok msg /\ selected_hook st msg = None
  | EPaused, QVerify _ _ => is_pausable_ism st /\ reported_paused st = Some true
  | ERecover, QVerify md raw =>
      is_multisig st /\ exists msg tree root index sigs sg,
        msg_decode raw = Ok msg /\ multisig_metadata md tree root index sigs /\ In sg sigs /\
        forall a, ~ signed_by A (checkpoint_digest (m_origin msg) tree root index (keccak256_hash raw)) sg a
  | EGasOracleNotFound, QHookQuote _ raw =>
      is_igp st /\ exists msg, msg_decode raw = Ok msg /\ reported_route st (m_dest msg) = Some None
  | EGasOracleNotFound, (QOracle d | QQuoteGasPayment d _) => is_igp st /\ reported_route st d = Some None
  | _, _ => False
  end.
(** and for creation: /repo/contracts/core/mailbox/src/contract.rs:27-30,
    /repo/contracts/igps/core/src/contract.rs:30-33 *)
Definition create_cause (m : imsg) (er : err) : Prop :=
  match er, m with
  | EStd, _ | EParse, _ => True
  | EInvalidConfig, (IMailbox hrp _ _ | IIgp hrp _ _ _ _) => ~ lower_case hrp
  | _, _ => False
  end.
