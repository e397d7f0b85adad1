(** * What the errors say (C102). *)
From Coq Require Import List NArith Bool String.
From Verif Require Import Base BaseFacts Hex Coins CoinsFacts Crypto Message Bech32 Chain Ownable Router Contracts
  Spec SpecModules SpecWorld SpecWire SpecBridge SpecErrors AbortFacts ErrorFacts ErrorCauses ErrorAsk SpecInit
  PropsAccess PropsMailbox PropsIsm PropsHooks PropsVa PropsWarp PropsIgp PropsAbort.
Import ListNotations.
Open Scope N_scope.

(** A contract that was created and called in any way refuses a message with an
    error only if what the error says is the case. *)
Theorem C102_errors_are_true A Q e i m st er : ~ is_cw20 st -> deployed A st ->
  c_execute A Q e i m st = Err er -> cause A Q i m st er.
Proof. exact (execute_cause A Q e i m st er). Qed.
Print Assumptions C102_errors_are_true.

(** A setting the owner could make is refused to anybody else with "unauthorized". *)
Theorem C102_strangers_are_told A Q e i m st P :
  setting A st m = Some P -> P -> reported_owner st <> Some (i_sender i) -> c_execute A Q e i m st = Err EUnauthorized.
Proof. exact (stranger_refused A Q e i m st P). Qed.
Print Assumptions C102_strangers_are_told.

(** So are a claim by somebody other than the beneficiary, a delivery not made by
    the mailbox or not from the enrolled route, and a hand-over not to the caller. *)
Theorem C102_reserved_calls A Q e i st :
  (is_igp st -> reported_beneficiary st <> Some (i_sender i) -> c_execute A Q e i MClaim st = Err EUnauthorized) /\
  (forall origin sn body, is_warp st -> origin < 2 ^ 32 ->
    (warp_mailbox st <> Some (i_sender i) \/
     exists r, reported_route st origin = Some (Some r) /\ r <> sn) ->
    c_execute A Q e i (MHandle origin sn body) st = Err EUnauthorized) /\
  (forall wrap p, wrap = MOwnable \/ wrap = MOracleOwnership -> setting A st (wrap RevokeOwnershipTransfer) <> None ->
    reported_pending st = Some p -> p <> i_sender i -> c_execute A Q e i (wrap ClaimOwnership) st = Err EUnauthorized).
Proof. exact (reserved_refused A Q e i st). Qed.
Print Assumptions C102_reserved_calls.

(** The relayer learns why a message was not delivered. *)
Theorem C102_relayers_are_told A Q e i md raw st hrp dom m recipient :
  reported_hrp st = Some hrp -> reported_domain st = Some dom ->
  msg_decode raw = Ok m -> bech32_encode hrp (m_recipient m) = Ok recipient ->
  (m_version m <> 3 -> c_execute A Q e i (MProcess md raw) st = Err EInvalidMessageVersion) /\
  (m_version m = 3 -> m_dest m <> dom -> c_execute A Q e i (MProcess md raw) st = Err EInvalidDestinationDomain) /\
  (forall own dflt, m_version m = 3 -> m_dest m = dom ->
    q_smart (Q st) recipient QIsmSpecifier = Ok (RIsm own) -> reported_default_ism st = Some dflt ->
    (reported_delivered st (keccak256_hash raw) = Some true ->
      c_execute A Q e i (MProcess md raw) st = Err EAlreadyDeliveredMessage) /\
    (reported_delivered st (keccak256_hash raw) = Some false ->
     (forall st1, reported_delivered st1 (keccak256_hash raw) = Some true ->
       q_smart (Q st1) (match own with Some a => a | None => dflt end) (QVerify md raw) = Ok (RVerified false)) ->
      c_execute A Q e i (MProcess md raw) st = Err EVerifyFailed)).
Proof. exact (process_refused A Q e i md raw st hrp dom m recipient). Qed.
Print Assumptions C102_relayers_are_told.

(** So does whoever pays for gas, *)
Theorem C102_payers_are_told A Q e i id d gas refund st : is_igp st -> d < 2 ^ 32 -> gas < 2 ^ 256 ->
  let call := c_execute A Q e i (MPayForGas id d gas refund) st in
  (i_funds i = [] -> call = Err EPaymentNoFunds) /\
  ((1 < length (i_funds i))%nat -> call = Err EPaymentMultiple) /\
  (forall c, i_funds i = [c] -> c_amount c <> 0 ->
    (c_denom c <> gas_token st -> call = Err EPaymentMissingDenom) /\
    (c_denom c = gas_token st ->
      (reported_route st d = Some None -> call = Err EGasOracleNotFound) /\
      (forall price rate, gas_terms (Q st) st d price rate -> fits gas price rate ->
        c_amount c < gas_cost gas price rate -> call = Err EInsufficientFunds))).
Proof. exact (payment_refused A Q e i id d gas refund st). Qed.
Print Assumptions C102_payers_are_told.
(** and a validator that repeats an announcement, whatever the signature. *)
Theorem C102_announcers_are_told A Q e i v sg l st ls : deployed A st -> length v = 20%nat ->
  announced st v = Some ls -> In l ls -> c_execute A Q e i (MAnnounce v sg l) st = Err EVerifyReplay.
Proof. exact (repeated_refused A Q e i v sg l st ls). Qed.
Print Assumptions C102_announcers_are_told.

(** Whoever sends a message to a recipient of the wrong length, or with less than
    the required hook asks for, is told so. *)
Theorem C102_senders_are_told A Q e i d st n dom :
  reported_nonce st = Some n -> reported_domain st = Some dom -> d_dest d < 2 ^ 32 ->
  (length (d_recipient d) <> 32%nat ->
    c_execute A Q e i (MDispatch d) st = Err (EInvalidAddressLength (N.of_nat (length (d_recipient d))))) /\
  (forall sender dflt required fees x, length (d_recipient d) = 32%nat ->
    bech32_to_h256 (i_sender i) = Ok sender -> reported_default_hook st = Some dflt ->
    match d_hook d with Some h => valid A h | None => True end -> reported_required_hook st = Some required ->
    q_smart (Q st) required (QHookQuote (request_metadata d)
      (msg_encode (mkMessage 3 n dom sender (d_dest d) (d_recipient d) (d_body d)))) = Ok (RFees fees) ->
    Forall (fun c => c_amount c < 2 ^ 128) fees -> no_repeats (i_funds i) ->
    amount_of x (i_funds i) < amount_of x fees ->
    c_execute A Q e i (MDispatch d) st = Err EHookPayment).
Proof. exact (dispatch_refused A Q e i d st n dom). Qed.
Print Assumptions C102_senders_are_told.

(** Whoever posts a message to a hook (as the mailbox does for the sender) learns
    that the hook is paused, has no route, did not see that message dispatched, or
    is not paid.  A fallback hook without a fallback gives a generic error. *)
Theorem C102_posters_are_told A Q e i md raw st :
  let call := c_execute A Q e i (MPostDispatch md raw) st in
  (is_pausable_hook st -> reported_paused st = Some true -> call = Err EPaused) /\
  (forall m, is_router_hook st -> ~ is_fallback_hook st -> msg_decode raw = Ok m -> selected_hook st m = None ->
    call = Err ERouteNotFound) /\
  (forall m mb latest, is_merkle_hook st -> msg_decode raw = Ok m -> reported_hook_mailbox st = Some mb ->
    q_smart (Q st) mb QLatestDispatchId = Ok (RMessageId latest) -> latest <> keccak256_hash raw ->
    call = Err EUnauthorized) /\
  (forall fee, reported_fee st = Some fee ->
    (i_funds i = [] -> call = Err EPaymentNoFunds) /\
    ((1 < length (i_funds i))%nat -> call = Err EPaymentMultiple) /\
    (forall c, i_funds i = [c] -> c_amount c <> 0 ->
      (c_denom c <> c_denom fee -> call = Err EPaymentMissingDenom) /\
      (c_denom c = c_denom fee -> c_amount c < c_amount fee -> call = Err EInsufficientFunds))).
Proof. exact (post_refused A Q e i md raw st). Qed.
Print Assumptions C102_posters_are_told.

(** The same goes for the answers to queries and for creation. *)
Theorem C102_queries A q m st er : ~ is_cw20 st -> c_query A q m st = Err er -> query_cause A m st er.
Proof. exact (query_err A q m st er). Qed.
Print Assumptions C102_queries.
Theorem C102_creation A q e i m er : (forall mt l, m <> ICw20 mt l) -> c_instantiate A q e i m = Err er -> create_cause m er.
Proof. exact (create_err A q e i m er). Qed.
Print Assumptions C102_creation.

Definition refusal (st : cstate) (ev : event) : option err :=
  match c_apply ex_api ev st with Err er => Some er | _ => None end.

(** The errors are given: by contracts that were created and called. *)
Example C102_example :
  deployed ex_api ex_mailbox /\ deployed ex_api ex_igp /\ deployed ex_api ex_routing /\ deployed ex_api ex_fee_hook /\
  let wrong v d := msg_encode (mkMessage v 5 9 (repeat x02 32) d (repeat x01 32) (s "hi")) in
  let delivered := c_step ex_api ex_mailbox (ex_process "proof" ex_incoming) in
  let paused := born (IPausableHook (s "owner") true) in
  map (refusal ex_mailbox)
    [ex_process "proof" (wrong 2 7); ex_process "proof" (wrong 3 8); ex_process "forged" ex_incoming; ex_dispatch [];
     EvExec ex_env (mkInfo ex_user ex_funds) (MDispatch (mkDispatch 9 (repeat x01 31) [] None None)) (fun _ => ex_hooks);
     call "mallory" (MSetDefaultIsm (s "mine")); call "mallory" (MOwnable (InitOwnershipTransfer (s "mallory")));
     call "owner" (MOwnable RevokeOwnershipTransfer)]
  = map Some [EInvalidMessageVersion; EInvalidDestinationDomain; EVerifyFailed; EHookPayment;
              EInvalidAddressLength 31; EUnauthorized; EUnauthorized; EOwnershipNotTransferring] /\
  refusal delivered (ex_process "proof" ex_incoming) = Some EAlreadyDeliveredMessage /\
  refusal ex_routing (post "mb" [] 99 x01) = Some ERouteNotFound /\
  refusal ex_fee_hook (post "mb" [mkCoin (s "uosmo") 3] 7 x01) = Some EInsufficientFunds /\
  map (refusal ex_igp) [pay 1 "uosmo" 7 100; pay 1 "uatom" 7 100; pay 0 "uosmo" 7 100; pay 1 "uosmo" 8 100; call "owner" MClaim]
  = map Some [EInsufficientFunds; EPaymentMissingDenom; EPaymentNoFunds; EGasOracleNotFound; EUnauthorized] /\
  refusal (born (IMultisig (s "owner"))) (call "owner" (MSetValidators 5 0 [ex_val x01])) <> None /\
  map (refusal paused) [call "owner" (MPausable Pause); post "mb" [] 7 x01] = map Some [EAlreadyPaused; EPaused].
Proof.
  split; [exact (ex_deployed (IMailbox (s "osmo") (s "owner") 7) ex_setup _ _ eq_refl) |].
  split; [exact (ex_deployed (IIgp (s "osmo") (s "owner") (s "uosmo") (s "ben") 100) _ _ _ eq_refl) |].
  split; [exact (ex_deployed (IRoutingHook (s "owner")) _ _ _ eq_refl) |].
  split; [exact (ex_deployed (IFeeHook (s "owner") (mkCoin (s "uosmo") 4)) [] _ _ eq_refl) |].
  vm_compute. repeat split. discriminate.
Qed.

(** The hypotheses of the second and the third theorem are met. *)
Example C102_told_example :
  (exists P, setting ex_api ex_mailbox (MSetDefaultIsm (s "ism2")) = Some P /\ P) /\
  reported_owner ex_mailbox = Some (s "owner") /\
  reported_hrp ex_mailbox = Some (s "osmo") /\ reported_domain ex_mailbox = Some 7 /\
  exists m recipient own dflt,
    msg_decode ex_incoming = Ok m /\ bech32_encode (s "osmo") (m_recipient m) = Ok recipient /\
    m_version m = 3 /\ m_dest m = 7 /\
    q_smart ex_hooks recipient QIsmSpecifier = Ok (RIsm own) /\ reported_default_ism ex_mailbox = Some dflt /\
    reported_delivered ex_mailbox (keccak256_hash ex_incoming) = Some false /\
    q_smart ex_hooks (match own with Some a => a | None => dflt end) (QVerify (s "forged") ex_incoming) = Ok (RVerified false).
Proof.
  split; [eexists; split; reflexivity |]. split; [vm_compute; reflexivity |]. split; [vm_compute; reflexivity |].
  split; [vm_compute; reflexivity |]. do 4 eexists. repeat split; vm_compute; reflexivity.
Qed.

Example C102_queries_example :
  c_query ex_api ex_modules (QVerify (s "ok") (ex_from 6)) ex_routing_ism = Err ERouteNotFound /\
  c_query ex_api no_querier (QVerify [] ex_raw) (born (IPausableIsm (s "owner") true)) = Err EPaused /\
  c_query ex_api no_querier (QQuoteGasPayment 8 1) ex_igp = Err EGasOracleNotFound /\
  c_query ex_api no_querier (QHookQuote [] (ex_hook_raw 99 x01)) ex_routing = Err ERouteNotFound /\
  c_query ex_recover no_querier (QVerify (ex_md [repeat x00 64 ++ [x1b]]) ex_raw) ex_multisig = Err ERecover /\
  c_instantiate ex_api no_querier ex_env (mkInfo (s "creator") []) (IMailbox (s "Osmo") (s "owner") 7) = Err EInvalidConfig.
Proof. vm_compute. repeat split. Qed.

Example C102_payers_example :
  is_igp ex_igp /\ gas_token ex_igp = s "uosmo" /\ reported_route ex_igp 8 = Some None /\
  gas_terms ex_oracle_chain ex_igp 7 21 15000000000 /\ fits 100 21 15000000000 /\ gas_cost 100 21 15000000000 = 3150 /\
  deployed ex_sign_api (c_run ex_sign_api ex_va ex_va_history) /\ length (key_addr x01) = 20%nat /\
  announced (c_run ex_sign_api ex_va ex_va_history) (key_addr x01) = Some [s "s3://one"; s "s3://three"].
Proof.
  split; [exact I |]. split; [vm_compute; reflexivity |]. split; [vm_compute; reflexivity |].
  split; [exists (s "oracle"); vm_compute; repeat split |]. split; [vm_compute; split; reflexivity |]. split; [vm_compute; reflexivity |].
  split; [| split; vm_compute; reflexivity].
  do 7 eexists. split; [| reflexivity].
  instantiate (1 := resp0). instantiate (1 := IVa (encoded ex_mailbox32)). instantiate (1 := mkInfo (s "creator") []).
  instantiate (1 := ex_env). instantiate (1 := mkQuerier (fun _ _ => Ok (RLocalDomain 26657)) (fun _ _ => 0) (fun _ => [])).
  vm_compute. reflexivity.
Qed.

Example C102_senders_example :
  exists sender dflt required fees,
    reported_nonce ex_mailbox = Some 0 /\ reported_domain ex_mailbox = Some 7 /\ d_dest ex_request < 2 ^ 32 /\
    length (d_recipient ex_request) = 32%nat /\ bech32_to_h256 ex_user = Ok sender /\
    reported_default_hook ex_mailbox = Some dflt /\ d_hook ex_request = None /\ reported_required_hook ex_mailbox = Some required /\
    q_smart ex_hooks required (QHookQuote (request_metadata ex_request)
      (msg_encode (mkMessage 3 0 7 sender (d_dest ex_request) (d_recipient ex_request) (d_body ex_request)))) = Ok (RFees fees) /\
    Forall (fun c => c_amount c < 2 ^ 128) fees /\ no_repeats [] /\ amount_of (s "uosmo") [] < amount_of (s "uosmo") fees.
Proof.
  exists (match bech32_to_h256 ex_user with Ok v => v | _ => [] end), (s "hook"), (s "required"), [mkCoin (s "uosmo") 3].
  do 9 (split; [vm_compute; reflexivity |]).
  split; [constructor; [reflexivity | constructor] |]. split; [constructor | vm_compute; reflexivity].
Qed.

Example C102_reserved_example :
  let handed := c_step ex_api ex_mailbox (call "owner" (MOwnable (InitOwnershipTransfer (s "heir")))) in
  is_warp ex_native /\ warp_mailbox ex_native = Some (s "mailbox") /\
  reported_route ex_native 7 = Some (Some ex_router) /\
  reported_beneficiary ex_igp = Some (s "ben") /\ reported_pending handed = Some (s "heir") /\
  setting ex_api handed (MOwnable RevokeOwnershipTransfer) <> None /\
  refusal handed (call "owner" (MOwnable ClaimOwnership)) = Some EUnauthorized /\
  map (refusal ex_native) [deliver "mallory" ex_router (repeat x01 32) 5; deliver "mailbox" (repeat x53 32) (repeat x01 32) 5]
  = [Some EUnauthorized; Some EUnauthorized].
Proof. vm_compute. repeat split. discriminate. Qed.

Example C102_posters_example :
  let paused := born (IPausableHook (s "owner") true) in
  let tree := born (IMerkle (s "mb")) in
  let q := mkQuerier (fun _ _ => Ok (RMessageId (repeat x07 32))) (fun _ _ => 0) (fun _ => []) in
  let raw := ex_hook_raw 99 x01 in
  is_pausable_hook paused /\ reported_paused paused = Some true /\
  is_router_hook ex_custom /\ ~ is_fallback_hook ex_custom /\
  (exists m, msg_decode raw = Ok m /\ selected_hook ex_custom m = None) /\
  is_merkle_hook tree /\ reported_hook_mailbox tree = Some (s "mb") /\ repeat x07 32 <> keccak256_hash raw /\
  refusal tree (EvExec ex_env (mkInfo (s "anyone") []) (MPostDispatch [] raw) (fun _ => q)) = Some EUnauthorized /\
  reported_fee ex_fee_hook = Some (mkCoin (s "uosmo") 4) /\
  map (fun l => refusal ex_fee_hook (post "mb" l 7 x01))
    [[]; [mkCoin (s "uatom") 4; mkCoin (s "uosmo") 4]; [mkCoin (s "uatom") 4]; [mkCoin (s "uosmo") 3]]
  = map Some [EPaymentNoFunds; EPaymentMultiple; EPaymentMissingDenom; EInsufficientFunds].
Proof.
  cbv zeta. split; [exact I |]. split; [vm_compute; reflexivity |]. split; [exact I |]. split; [vm_compute; exact (fun H => H) |].
  split; [exists (mkMessage 3 8 5 (repeat x0a 32) 99 (repeat x01 32) (s "hi")); split; vm_compute; reflexivity |]. split; [exact I |]. split; [vm_compute; reflexivity |].
  split; [vm_compute; discriminate |]. split; [vm_compute; reflexivity |]. split; vm_compute; reflexivity.
Qed.
