(** * Vocabulary of the statements about security modules, hooks, gas payment
      and announcements (specification side). *)
From Coq Require Import List NArith Bool.
From Verif Require Import Base Crypto Message Bech32 Metadata Coins Chain Contracts Spec Hex Hooks Igp Warp.
Import ListNotations.

(** ** Multisig *)
Definition is_multisig (st : cstate) : Prop := match st with SMultisig _ => True | _ => False end.
Definition reported_enrolled (st : cstate) (d : N) : option (list bytes * N) :=
  match c_query no_api no_querier (QEnrolled d) st with
  | Ok (REnrolled vs t) => Some (vs, t) | _ => None end.

(** What validators sign: the Ethereum-style hash of the checkpoint *)
Definition domain_preimage (origin : N) (tree : bytes) : bytes :=
  be 4 origin ++ tree ++ s "HYPERLANE".
Definition checkpoint_preimage (origin : N) (tree root : bytes) (index : N) (id : bytes) : bytes :=
  keccak256_hash (domain_preimage origin tree) ++ root ++ be 4 index ++ id.
Definition signed_preimage (origin : N) (tree root : bytes) (index : N) (id : bytes) : bytes :=
  [x19] ++ s "Ethereum Signed Message:" ++ [x0a] ++ s "32" ++
  keccak256_hash (checkpoint_preimage origin tree root index id).
Definition checkpoint_digest (origin : N) (tree root : bytes) (index : N) (id : bytes) : bytes :=
  keccak256_hash (signed_preimage origin tree root index id).

(** a 65-byte signature r || s || v over a digest is that of the Ethereum-style
    address [a] *)
Definition signed_by (A : api) (digest sg a : bytes) : Prop :=
  length sg = 65%nat /\
  exists v pk,
    nth_error sg 64 = Some v /\ 27 <= bN v /\
    api_recover A digest (firstn 64 sg) (bN v - 27) = Some pk /\
    pk <> [] /\ a = skipn 12 (keccak256_hash (tl pk)).

(** the fields of multisig metadata: tree address, root, index, signatures *)
Definition multisig_metadata (metadata tree root : bytes) (index : N) (sigs : list bytes) : Prop :=
  exists tail, metadata = tree ++ root ++ be 4 index ++ concat sigs ++ tail /\
    length tree = 32%nat /\ length root = 32%nat /\ index < 2 ^ 32 /\
    Forall (fun x => length x = 65%nat) sigs /\ (length tail < 65)%nat.

(** ** Aggregate *)
Definition reported_modules (st : cstate) : option (list addr * N) :=
  match c_query no_api no_querier QIsms st with Ok (RIsms l t) => Some (l, t) | _ => None end.

(** the part of aggregate metadata addressed to the [k]-th module: the first
    bytes hold, per module, two 4-byte offsets *)
Definition module_slice (metadata : bytes) (k : nat) (md : bytes) : Prop :=
  exists lo hi,
    (8 * k + 8 <= length metadata)%nat /\
    lo = of_be (firstn 4 (skipn (8 * k) metadata)) /\
    hi = of_be (firstn 4 (skipn (8 * k + 4) metadata)) /\
    lo <= hi /\ hi <= N.of_nat (length metadata) /\
    md = firstn (N.to_nat (hi - lo)) (skipn (N.to_nat lo) metadata).

Definition module_answer (q : querier) (isms : list addr) (metadata message : bytes) (a : addr) (b : bool) : Prop :=
  exists k md, nth_error isms k = Some a /\ module_slice metadata k md /\
    q_smart q a (QVerify md message) = Ok (RVerified b).

(** ** Routing module *)
Definition reported_module_for (st : cstate) (message : bytes) : option addr :=
  match c_query no_api no_querier (QRoute message) st with Ok (RRouteIsm a) => Some a | _ => None end.
Definition is_aggregate_ism (st : cstate) : Prop := match st with SAggIsm _ => True | _ => False end.
Definition is_routing_ism (st : cstate) : Prop := match st with SRoutingIsm _ => True | _ => False end.
Definition is_pausable_ism (st : cstate) : Prop := match st with SPausableIsm _ => True | _ => False end.
Definition is_pausable_hook (st : cstate) : Prop := match st with SPausableHook _ => True | _ => False end.

(** ** Settings as the replay of the accepted calls *)
Definition replay {X} (f : emsg -> X -> X) (A : api) (st : cstate) (h : list event) (x0 : X) : X :=
  fold_left (fun acc (p : cstate * event) =>
    match ev_msg (snd p) with Some m => f m acc | None => acc end) (accepted_calls A st h) x0.

(** what one call makes of the validators enrolled for domain [d] *)
Definition enroll_update (d : N) (m : emsg) (acc : option (list bytes * N)) : option (list bytes * N) :=
  match m with
  | MSetValidators d' t vs => if d' =? d then Some (vs, t) else acc
  | MUnsetDomain d' => if d' =? d then None else acc
  | _ => acc
  end.

(** ... of the module routed for origin [d] *)
Definition module_update (d : N) (m : emsg) (acc : option addr) : option addr :=
  match m with
  | MRoutingSet d' a => if d' =? d then Some a else acc
  | MRoutingUnset ds => if existsb (N.eqb d) ds then None else acc
  | _ => acc
  end.

(** ... of the aggregate module's list and threshold *)
Definition modules_update (m : emsg) (acc : option (list addr * N)) : option (list addr * N) :=
  match m with MSetIsms l t => Some (l, t) | _ => acc end.

(** the last entry for [d] of a list of routes *)
Definition last_entry {X} (d : N) (l : list (N * X)) : option X :=
  fold_left (fun acc p => if fst p =? d then Some (snd p) else acc) l None.

(** ** Hooks *)
Definition reported_hooks (st : cstate) : option (list addr) :=
  match c_query no_api no_querier QAggHooks st with Ok (RHooks l) => Some l | _ => None end.
Definition reported_fee (st : cstate) : option coin :=
  match c_query no_api no_querier QFee st with Ok (RFee c) => Some c | _ => None end.

(** each hook of a list answers a quote *)
Definition quotes (q : querier) (metadata message : bytes) (hooks : list addr) (fees : list (list coin)) : Prop :=
  Forall2 (fun h f => q_smart q h (QHookQuote metadata message) = Ok (RFees f) /\
                      Forall (fun c => c_amount c < 2 ^ 128) f) hooks fees.

(** a call of a hook *)
Definition hook_call (metadata message : bytes) (h : addr) (funds : list coin) : submsg :=
  mkSub (CExec h (MPostDispatch metadata message) funds) RpNever.

Definition reported_custom (st : cstate) (d : N) (recipient : bytes) : option addr :=
  option_map ch_hook (reported_hook st d (hex_encode recipient)).

(** the fallback hook (no query exposes it;
    /repo/contracts/hooks/routing-fallback/src/lib.rs:39-40) *)
Definition fallback_of (st : cstate) : option addr :=
  match st with SFallbackHook x => fb_fallback x | _ => None end.

Definition is_router_hook (st : cstate) : Prop :=
  match st with SRoutingHook _ | SCustomHook _ | SFallbackHook _ => True | _ => False end.
Definition is_custom_hook (st : cstate) : Prop := match st with SCustomHook _ => True | _ => False end.
Definition is_fallback_hook (st : cstate) : Prop := match st with SFallbackHook _ => True | _ => False end.
Definition is_aggregate_hook (st : cstate) : Prop := match st with SAggHook _ => True | _ => False end.
Definition is_fee_hook (st : cstate) : Prop := match st with SFeeHook _ => True | _ => False end.
Definition is_merkle_hook (st : cstate) : Prop := match st with SMerkle _ => True | _ => False end.

(** the hook in charge of a message: by destination and recipient, else by
    destination, else the fallback *)
Definition selected_hook (st : cstate) (m : message) : option addr :=
  match reported_custom st (m_dest m) (m_recipient m) with
  | Some h => Some h
  | None =>
      match reported_route st (m_dest m) with
      | Some (Some h) => Some h
      | _ => fallback_of st
      end
  end.

(** what one call makes of the hook registered for a destination and recipient *)
Definition custom_update (d : N) (r : bytes) (m : emsg) (acc : option addr) : option addr :=
  let names (d' : N) (r' : str) := ((d' =? d) && match hex_decode r' with Ok v => bytes_eqb v r | _ => false end)%bool in
  match m with
  | MRegisterCustomHook c => if names (ch_dest c) (ch_recipient c) then Some (ch_hook c) else acc
  | MRegisterCustomHooks l =>
      fold_left (fun acc c => if names (ch_dest c) (ch_recipient c) then Some (ch_hook c) else acc) l acc
  | MClearCustomHook d' r' => if names d' r' then None else acc
  | MClearCustomHooks l => if existsb (fun p => names (fst p) (snd p)) l then None else acc
  | _ => acc
  end.
Definition fallback_update (m : emsg) (acc : option addr) : option addr :=
  match m with MSetFallbackHook h => Some h | _ => acc end.
Definition hooks_update (m : emsg) (acc : option (list addr)) : option (list addr) :=
  match m with MSetHooks l => Some l | _ => acc end.
Definition fee_update (m : emsg) (acc : option coin) : option coin :=
  match m with MSetFee c => Some c | _ => acc end.

(** configuration calls of the hooks *)
Definition hook_setting (m : emsg) : bool :=
  match m with
  | MRegisterCustomHook _ | MRegisterCustomHooks _ | MClearCustomHook _ _ | MClearCustomHooks _
  | MSetFallbackHook _ | MSetHooks _ | MSetFee _ => true
  | _ => false
  end.

(** ** Gas payment *)
Definition is_igp (st : cstate) : Prop := match st with SIgp _ => True | _ => False end.
Definition is_oracle (st : cstate) : Prop := match st with SOracle _ => True | _ => False end.
Definition reported_default_gas (st : cstate) : option N :=
  match c_query no_api no_querier QDefaultGas st with Ok (RGas g) => Some g | _ => None end.
Definition reported_beneficiary (st : cstate) : option addr :=
  match c_query no_api no_querier QBeneficiary st with Ok (RBeneficiary a) => Some a | _ => None end.
Definition reported_gas_data (st : cstate) (d : N) : option (N * N) :=
  match c_query no_api no_querier (QOracle d) st with Ok (ROracle price rate) => Some (price, rate) | _ => None end.
(** the paymaster's token and address prefix (no query exposes them;
    /repo/contracts/igps/core/src/lib.rs:21-25) *)
Definition gas_token (st : cstate) : str := match st with SIgp x => gp_token x | _ => [] end.
Definition gas_hrp (st : cstate) : str := match st with SIgp x => gp_hrp x | _ => [] end.

(** the price and exchange rate the oracle routed for a destination reports *)
Definition gas_terms (q : querier) (st : cstate) (d price rate : N) : Prop :=
  exists oracle, reported_route st d = Some (Some oracle) /\
    q_smart q oracle (QOracle d) = Ok (ROracle price rate) /\ price < 2 ^ 128 /\ rate < 2 ^ 128.

Definition gas_cost (gas price rate : N) : N := gas * price * rate / 10 ^ 10.

(** the product is computed in 256 bits, left to right *)
Definition fits (gas price rate : N) : Prop := gas * price < 2 ^ 256 /\ gas * price * rate < 2 ^ 256.

(** an accepted payment: what was attached, and the refund of the excess *)
Definition gas_paid (q : querier) (st : cstate) (i : info) (d gas : N) (refund : str) (r : response) : Prop :=
  exists price rate paid, gas_terms q st d price rate /\ fits gas price rate /\
    i_funds i = [mkCoin (gas_token st) paid] /\ paid <> 0 /\
    gas_cost gas price rate <= paid /\ paid - gas_cost gas price rate < 2 ^ 128 /\
    r = mkResp (if paid =? gas_cost gas price rate then []
                else [mkSub (CBankSend refund [mkCoin (gas_token st) (paid - gas_cost gas price rate)]) RpNever])
               None.

(** what a response sends from the contract's balance *)
Definition sends (r : response) : list coin :=
  flat_map (fun sm => match sm with mkSub (CBankSend _ l) _ => l | mkSub (CExec _ _ l) _ => l | _ => [] end) (r_msgs r).

(** the gas charged for a destination when the caller names none *)
Definition used_gas (st : cstate) (d : N) : option N :=
  match reported_gas st d with Some g => Some g | None => reported_default_gas st end.

(** the gas a dispatch pays for: in its metadata, or else the one for the
    destination *)
Definition requested_gas (st : cstate) (md : bytes) (m : message) (gas : N) : Prop :=
  if Nat.ltb (length md) 32 then used_gas st (m_dest m) = Some gas else gas = of_be (firstn 32 md).

(** who gets the excess of a dispatch: the refund field of the metadata when it
    is 20 or 32 bytes long (one starting with sixteen zero bytes aborts, C07),
    else the message's sender *)
Definition requested_refund (st : cstate) (md : bytes) (m : message) (refund : str) : Prop :=
  exists sender, bech32_encode (gas_hrp st) (m_sender m) = Ok sender /\
    let field := skipn 32 md in
    if (Nat.eqb (length field) 20 || Nat.eqb (length field) 32)%bool
    then firstn 16 field <> zeros 16 /\ bech32_encode (gas_hrp st) field = Ok refund
    else refund = sender.

(** what one call makes of the gas for destination [d] ... *)
Definition gas_update (d : N) (m : emsg) (acc : option N) : option N :=
  match m with
  | MSetGasForDomain l => fold_left (fun acc p => if fst p =? d then Some (snd p) else acc) l acc
  | MUnsetGasForDomain l => if existsb (N.eqb d) l then None else acc
  | _ => acc
  end.
Definition default_gas_update (m : emsg) (acc : option N) : option N :=
  match m with MSetDefaultGas g => Some g | _ => acc end.
Definition beneficiary_update (m : emsg) (acc : option addr) : option addr :=
  match m with MSetBeneficiary a => Some a | _ => acc end.
(** ... and of the oracle's data for [d] *)
Definition gas_data_update (d : N) (m : emsg) (acc : option (N * N)) : option (N * N) :=
  let one acc c := if gc_domain c =? d then Some (gc_price c, gc_rate c) else acc in
  match m with
  | MSetRemoteGasData c => one acc c
  | MSetRemoteGasDataConfigs l => fold_left one l acc
  | _ => acc
  end.

Definition gas_setting (m : emsg) : bool :=
  match m with
  | MSetDefaultGas _ | MSetGasForDomain _ | MUnsetGasForDomain _ | MSetBeneficiary _
  | MSetRemoteGasData _ | MSetRemoteGasDataConfigs _ => true
  | _ => false
  end.

(** ** Announcements *)
Definition is_va (st : cstate) : Prop := match st with SVa _ => True | _ => False end.
Definition announced (st : cstate) (v : bytes) : option (list str) :=
  match c_query no_api no_querier (QLocations [v]) st with Ok (RLocations [(_, l)]) => Some l | _ => None end.
Definition reported_validators (st : cstate) : option (list str) :=
  match c_query no_api no_querier QValidators st with Ok (RValidators l) => Some l | _ => None end.
Definition reported_va_domain (st : cstate) : option N :=
  match c_query no_api no_querier QVaLocalDomain st with Ok (RLocalDomain d) => Some d | _ => None end.
(** the mailbox is reported as hexadecimal text *)
Definition reported_va_mailbox (st : cstate) : option bytes :=
  match c_query no_api no_querier QVaMailbox st with
  | Ok (RMailbox h) => match hex_decode h with Ok b => Some b | _ => None end
  | _ => None
  end.

(** what a validator signs *)
Definition announce_domain_preimage (d : N) (mailbox32 : bytes) : bytes :=
  be 4 d ++ mailbox32 ++ s "HYPERLANE_ANNOUNCEMENT".
Definition announce_preimage (d : N) (mailbox32 : bytes) (location : str) : bytes :=
  keccak256_hash (announce_domain_preimage d mailbox32) ++ location.
Definition announce_signed_preimage (d : N) (mailbox32 : bytes) (location : str) : bytes :=
  [x19] ++ s "Ethereum Signed Message:" ++ [x0a] ++ s "32" ++
  keccak256_hash (announce_preimage d mailbox32 location).
Definition announce_digest (d : N) (mailbox32 : bytes) (location : str) : bytes :=
  keccak256_hash (announce_signed_preimage d mailbox32 location).

(** an address as 32 bytes *)
Definition padded (b : bytes) : bytes := zeros (32 - length b) ++ b.

(** the first 65 bytes of [sg] are [v]'s signature over the location, for this
    contract's domain and mailbox *)
Definition announcement_signed (A : api) (st : cstate) (v sg : bytes) (location : str) : Prop :=
  exists d mb, reported_va_domain st = Some d /\ reported_va_mailbox st = Some mb /\
    (length mb <= 32)%nat /\ signed_by A (announce_digest d (padded mb) location) (firstn 65 sg) v.

(** the announcements accepted along a history *)
Definition announcements (A : api) (st : cstate) (h : list event) : list (bytes * str) :=
  flat_map (fun p : cstate * event =>
    match ev_msg (snd p) with Some (MAnnounce v _ l) => [(v, l)] | _ => [] end) (accepted_calls A st h).
Definition locations_of (v : bytes) (l : list (bytes * str)) : list str :=
  map snd (filter (fun p => bytes_eqb (fst p) v) l).

(** ** Warp routes *)
Definition is_warp (st : cstate) : Prop := match st with SWarpNative _ | SWarpCw20 _ => True | _ => False end.
Definition is_warp_native (st : cstate) : Prop := match st with SWarpNative _ => True | _ => False end.
Definition is_warp_cw20 (st : cstate) : Prop := match st with SWarpCw20 _ => True | _ => False end.
Definition reported_token (st : cstate) : option str :=
  match c_query no_api no_querier QTokenType st with
  | Ok (RTokenDenom d) => Some d | Ok (RTokenCw20 a) => Some a | _ => None end.
Definition reported_mode (st : cstate) : option token_mode :=
  match c_query no_api no_querier QTokenMode st with Ok (RTokenMode m) => Some m | _ => None end.
Definition reported_conn_hook (st : cstate) : option addr :=
  match reported_conn st QConnHook with Some h => h | None => None end.
(** the mailbox and address prefix given at instantiation (no query exposes
    them; /repo/contracts/warp/native/src/lib.rs:27-31,
    /repo/contracts/warp/cw20/src/lib.rs:26-30) *)
Definition warp_mailbox (st : cstate) : option addr :=
  match st with SWarpNative x | SWarpCw20 x => Some (wp_mailbox x) | _ => None end.
Definition warp_hrp (st : cstate) : str :=
  match st with SWarpNative x | SWarpCw20 x => wp_hrp x | _ => [] end.

(** ** The answer that names a bridged route's token
    (/repo/contracts/warp/native/src/contract.rs:122-144,
    /repo/contracts/warp/cw20/src/contract.rs:118-140) *)
Definition reply_names (A : api) (st : cstate) (ans : res reply_result) (token : str) : Prop :=
  match st with
  | SWarpNative _ => ans = Ok (RrDenom token)
  | SWarpCw20 _ => ans = Ok (RrContract token) /\ api_valid A token = true
  | _ => False
  end.
(** everything a warp route stores, except the token, is as before *)
Definition same_but_token (st st' : cstate) : Prop :=
  match st, st' with
  | SWarpNative x, SWarpNative y | SWarpCw20 x, SWarpCw20 y =>
      wp_own y = wp_own x /\ wp_routes y = wp_routes x /\ wp_conn y = wp_conn x /\
      wp_mode y = wp_mode x /\ wp_hrp y = wp_hrp x /\ wp_mailbox y = wp_mailbox x
  | _, _ => False
  end.

(** a delivery a warp route must accept: from its mailbox, from the router
    enrolled for the origin, with a payload naming [recipient] (text) and
    [amount] *)
Definition warp_delivery (st : cstate) (i : info) (origin : N) (sender body : bytes) (recipient : str) (amount : N) : Prop :=
  origin < 2 ^ 32 /\ warp_mailbox st = Some (i_sender i) /\ reported_route st origin = Some (Some sender) /\
  amount < 2 ^ 128 /\
  exists rcp tail, body = rcp ++ be 32 amount ++ tail /\ length rcp = 32%nat /\
    bech32_encode (warp_hrp st) rcp = Ok recipient.

(** messages by which a warp route gives out tokens *)
Definition gives_tokens (m : cmsg) : bool :=
  match m with
  | CMint _ _ _ | CBankSend _ _ => true
  | CExec _ (MCw20Mint _ _) _ | CExec _ (MCw20Transfer _ _) _ => true
  | _ => false
  end.

Definition plain (l : list cmsg) : response := mkResp (map (fun m => mkSub m RpNever) l) None.

(** [amount] of [token] is taken from the first coin of that denomination *)
Definition taken (token : str) (amount : N) (funds rest : list coin) : Prop :=
  exists pre a post, funds = pre ++ mkCoin token a :: post /\
    Forall (fun c => c_denom c <> token) pre /\ amount <= a /\
    rest = pre ++ mkCoin token (a - amount) :: post.

(** the dispatch a remote transfer asks its mailbox for *)
Definition transfer_dispatch (st : cstate) (mailbox : addr) (d : N) (router recipient : bytes) (amount : N)
    (hook : option str) (metadata : option bytes) (funds : list coin) : cmsg :=
  CExec mailbox (MDispatch (mkDispatch d router (recipient ++ be 32 amount)
    (match hook with Some h => Some h | None => reported_conn_hook st end) metadata)) funds.
Definition mode_eqb (a : option token_mode) (b : token_mode) : bool :=
  match a, b with Some Bridged, Bridged | Some Collateral, Collateral => true | _, _ => false end.

(** ** Settings *)
(** the settings of each contract, with what a value must satisfy to be
    accepted (from anyone but the owner nothing is).  [None]: not a setting of
    this contract *)
Definition valid (A : api) (a : str) : Prop := api_valid A a = true.
Definition domains_ok (l : list N) : Prop := Forall (fun d => d < 2 ^ 32) l.
Definition custom_ok (A : api) (c : custom_hook) : Prop :=
  ch_dest c < 2 ^ 32 /\ valid A (ch_hook c) /\
  exists r, hex_decode (ch_recipient c) = Ok r /\ length r = 32%nat.
Definition cleared_ok (p : N * str) : Prop := fst p < 2 ^ 32 /\ exists r, hex_decode (snd p) = Ok r.
Definition gas_config_ok (c : gas_config) : Prop :=
  gc_domain c < 2 ^ 32 /\ gc_rate c < 2 ^ 128 /\ gc_price c < 2 ^ 128.
Definition setting (A : api) (st : cstate) (m : emsg) : option Prop :=
  match m with
  | MOracleOwnership om =>
      match st, om with
      | SOracle _, InitOwnershipTransfer n => Some (valid A n /\ reported_pending st = None)
      | SOracle _, RevokeOwnershipTransfer => Some (reported_pending st <> None)
      | _, _ => None
      end
  | MOwnable om =>
      match st, om with
      | SOracle _, _ | SVa _, _ | SMerkle _, _ | SCw20 _, _ => None
      | _, InitOwnershipTransfer n => Some (valid A n /\ reported_pending st = None)
      | _, RevokeOwnershipTransfer => Some (reported_pending st <> None)
      | _, ClaimOwnership => None
      end
  | MRouter rm =>
      match st with
      | SRoutingHook _ | SCustomHook _ | SFallbackHook _ | SIgp _ | SWarpNative _ | SWarpCw20 _ =>
          Some (domains_ok (map rs_domain (match rm with SetRoute r => [r] | SetRoutes l => l end)))
      | _ => None
      end
  | MPausable pm =>
      match st with
      | SPausableIsm _ | SPausableHook _ =>
          Some (reported_paused st = Some (match pm with Pause => false | Release => true end))
      | _ => None
      end
  | MConnection cm =>
      match st with
      | SWarpNative _ | SWarpCw20 _ =>
          Some (valid A (match cm with SetMailbox a | SetHook a | SetIsm a => a end))
      | _ => None
      end
  | _ =>
      match st, m with
      | SMailbox _, MSetDefaultIsm a | SMailbox _, MSetDefaultHook a | SMailbox _, MSetRequiredHook a =>
          Some (valid A a)
      | SMultisig _, MSetValidators d t vs =>
          Some (d < 2 ^ 32 /\ 0 < t < 2 ^ 8 /\ t <= N.of_nat (length vs) /\
                Forall (fun v => length v = 20%nat) vs)
      | SMultisig _, MUnsetDomain d => Some (d < 2 ^ 32)
      | SAggIsm _, MSetIsms l t =>
          Some (0 < t < 2 ^ 8 /\ t <= N.of_nat (length l) /\ Forall (valid A) l)
      | SRoutingIsm _, MRoutingSet d a => Some (d < 2 ^ 32 /\ valid A a)
      | SRoutingIsm _, MRoutingUnset ds => Some (domains_ok ds)
      | SAggHook _, MSetHooks l => Some (Forall (valid A) l)
      | SFeeHook _, MSetFee c => Some (c_amount c < 2 ^ 128)
      | SFeeHook _, MFeeClaim _ => Some True
      | SCustomHook _, MRegisterCustomHook c => Some (custom_ok A c)
      | SCustomHook _, MRegisterCustomHooks l => Some (Forall (custom_ok A) l)
      | SCustomHook _, MClearCustomHook d r => Some (cleared_ok (d, r))
      | SCustomHook _, MClearCustomHooks l => Some (Forall cleared_ok l)
      | SFallbackHook _, MSetFallbackHook h => Some (valid A h)
      | SIgp _, MSetDefaultGas g => Some (g < 2 ^ 128)
      | SIgp _, MSetGasForDomain l => Some (Forall (fun p => fst p < 2 ^ 32 /\ snd p < 2 ^ 128) l)
      | SIgp _, MUnsetGasForDomain l => Some (domains_ok l)
      | SIgp _, MSetBeneficiary a => Some (valid A a)
      | SOracle _, MSetRemoteGasData c => Some (gas_config_ok c)
      | SOracle _, MSetRemoteGasDataConfigs l => Some (Forall (fun c => gas_config_ok c /\ gc_rate c <> 0) l)
      | _, _ => None
      end
  end.
(** contracts that keep more than settings *)
Definition keeps_records (st : cstate) : Prop :=
  match st with SMailbox _ | SVa _ | SMerkle _ | SCw20 _ => True | _ => False end.

(** how an ownership request reaches a contract (the gas oracle nests it,
    /repo/contracts/igps/oracle/src/contract.rs) *)
Definition own_msg (st : cstate) (om : ownable_msg) : emsg :=
  match st with SOracle _ => MOracleOwnership om | _ => MOwnable om end.
