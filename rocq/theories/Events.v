(** * The events of accepted calls.

    What [Response::add_event] collects, in order.  The chain prefixes the type
    with "wasm-" and adds the contract's address; both are left out.  A
    rejected call emits nothing.  Instantiation events and those of the cw20
    token are not modelled. *)
From Coq Require Import List NArith Bool.
From Verif Require Import Base OMap Crypto Message Bech32 Metadata Merkle Hex Coins Chain Ownable Router
  Mailbox Va Isms Hooks Igp Warp Contracts.
Import ListNotations.

(** [cosmwasm_std::Event]: e.g. /repo/contracts/warp/cw20/src/lib.rs:32-34 *)
Record wevent : Type := mkWev { we_type : str; we_attrs : list (str * str) }.

(** [Vec<String>::join(",")]: e.g. /repo/contracts/isms/aggregate/src/lib.rs:61 *)
Fixpoint commas (l : list str) : str :=
  match l with
  | [] => []
  | [a] => a
  | a :: l' => a ++ s "," ++ commas l'
  end.

(** ** JSON texts inside attributes: serde-json-wasm 1.0 [to_string] *)
(** one character of a string: quotes, backslashes and control characters are escaped;
    serde-json-wasm (/repo/Cargo.toml:68) behind
    /repo/contracts/hooks/routing-custom/src/lib.rs:211, 252 *)
Definition json_char (b : byte) : bytes :=
  if bN b =? 92 then [x5c; x5c]
  else if bN b =? 34 then [x5c; x22]
  else if bN b =? 8 then [x5c; x62]
  else if bN b =? 9 then [x5c; x74]
  else if bN b =? 10 then [x5c; x6e]
  else if bN b =? 12 then [x5c; x66]
  else if bN b =? 13 then [x5c; x72]
  else if bN b <? 32 then
    s "\u00" ++ [nB (48 + bN b / 16);
                 let d := bN b mod 16 in if d <? 10 then nB (48 + d) else nB (55 + d)]
  else [b].
(** serde-json-wasm (/repo/Cargo.toml:68) behind
    /repo/contracts/hooks/routing-custom/src/lib.rs:211, 252 *)
Definition json_string (t : str) : str := [x22] ++ flat_map json_char t ++ [x22].
(** serde-json-wasm (/repo/Cargo.toml:68) behind
    /repo/contracts/hooks/routing-custom/src/lib.rs:211, 252 *)
Definition json_array (l : list str) : str := s "[" ++ commas l ++ s "]".
(** /repo/packages/interface/src/router.rs:7-11; [hex] tells whether the route
    is a [HexBinary] (warp routes) or an [Addr] *)
Definition json_route (hex : bool) (r : route_set) : str :=
  s "{" ++ json_string (s "domain") ++ s ":" ++ dec (rs_domain r) ++ s "," ++
  json_string (s "route") ++ s ":" ++
  match rs_route r with
  | Some a => json_string (if hex then hex_encode a else a)
  | None => s "null"
  end ++ s "}".

(** ** Packages *)
(** packages/ownable/src/lib.rs:80-82, 99, 117 *)
Definition own_events (i : info) (m : ownable_msg) : list wevent :=
  match m with
  | InitOwnershipTransfer n =>
      [mkWev (s "hpl_ownable::init") [(s "owner", i_sender i); (s "next_owner", n)]]
  | RevokeOwnershipTransfer => [mkWev (s "hpl_ownable::revoke") [(s "owner", i_sender i)]]
  | ClaimOwnership => [mkWev (s "hpl_ownable::claim") [(s "owner", i_sender i)]]
  end.
(** packages/pausable/src/lib.rs:53, 63 *)
Definition pause_events (i : info) (m : pausable_msg) : list wevent :=
  match m with
  | Pause => [mkWev (s "hpl_pausable::pause") [(s "sender", i_sender i)]]
  | Release => [mkWev (s "hpl_pausable::release") [(s "sender", i_sender i)]]
  end.
(** packages/router/src/lib.rs:76-82, 101-107 *)
Definition router_events (hex : bool) (i : info) (m : router_msg) : list wevent :=
  match m with
  | SetRoute r =>
      [mkWev (s "hpl_router::set_route") [(s "sender", i_sender i); (s "set", json_route hex r)]]
  | SetRoutes l =>
      [mkWev (s "hpl_router::set_routes")
         [(s "sender", i_sender i); (s "set", json_array (map (json_route hex) l))]]
  end.
(** packages/connection/src/lib.rs:47-49, 56-58, 65-67 *)
Definition conn_events (m : connection_msg) : list wevent :=
  match m with
  | SetMailbox a => [mkWev (s "hpl_connection::set_mailbox") [(s "mailbox", a)]]
  | SetIsm a => [mkWev (s "hpl_connection::set_ism") [(s "ism", a)]]
  | SetHook a => [mkWev (s "hpl_connection::set_hook") [(s "hook", a)]]
  end.

(** ** Core *)
(** mailbox/src/event.rs:27-37 *)
Definition dispatch_events (m : message) : list wevent :=
  [mkWev (s "mailbox_dispatch_id") [(s "message_id", hex_encode (msg_id m))];
   mkWev (s "mailbox_dispatch")
     [(s "sender", hex_encode (m_sender m)); (s "destination", dec (m_dest m));
      (s "recipient", hex_encode (m_recipient m)); (s "message", hex_encode (msg_encode m))]].
(** mailbox/src/event.rs:39-48 *)
Definition process_events (m : message) : list wevent :=
  [mkWev (s "mailbox_process_id") [(s "message_id", hex_encode (msg_id m))];
   mkWev (s "mailbox_process")
     [(s "origin", dec (m_origin m)); (s "sender", hex_encode (m_sender m));
      (s "recipient", hex_encode (m_recipient m))]].
(** mailbox/src/execute.rs:38, 61, 84, 149-151, 218-225 with mailbox/src/event.rs:9-25 *)
Definition mb_events (i : info) (m : emsg) (x : mb) : list wevent :=
  match m with
  | MOwnable om => own_events i om
  | MSetDefaultIsm a =>
      [mkWev (s "mailbox_default_ism_set") [(s "owner", i_sender i); (s "new_default_ism", a)]]
  | MSetDefaultHook a =>
      [mkWev (s "mailbox_default_hook_set") [(s "owner", i_sender i); (s "new_default_hook", a)]]
  | MSetRequiredHook a =>
      [mkWev (s "mailbox_required_hook_set") [(s "owner", i_sender i); (s "new_required_hook", a)]]
  | MDispatch d =>
      match to_msg d MAILBOX_VERSION (mb_nonce x) (mb_domain x) (i_sender i) with
      | Ok msg => dispatch_events msg
      | _ => []
      end
  | MProcess _ raw => match msg_decode raw with Ok msg => process_events msg | _ => [] end
  | _ => []
  end.

(** va/src/contract.rs:210-215 *)
Definition va_events (i : info) (m : emsg) : list wevent :=
  match m with
  | MAnnounce v _ l =>
      [mkWev (s "validator-announcement")
         [(s "sender", i_sender i); (s "validator", hex_encode v); (s "storage-location", l)]]
  | _ => []
  end.

(** ** Security modules *)
(** multisig/src/contract.rs:77-83, 95-99 (the key "sener" is the source's) *)
Definition ms_events (i : info) (m : emsg) : list wevent :=
  match m with
  | MOwnable om => own_events i om
  | MSetValidators d t vs =>
      [mkWev (s "ism_multisig_set_validators")
         [(s "sender", i_sender i); (s "domain", dec d);
          (s "validators", dec (N.of_nat (length vs))); (s "threshold", dec t)]]
  | MUnsetDomain d =>
      [mkWev (s "ism_multisig_unset_domain") [(s "sener", i_sender i); (s "domain", dec d)]]
  | _ => []
  end.
(** isms/aggregate/src/lib.rs:99-101 *)
Definition ag_events (i : info) (m : emsg) : list wevent :=
  match m with
  | MOwnable om => own_events i om
  | MSetIsms l _ => [mkWev (s "hpl_ism_aggregate::set_isms") [(s "isms", commas l)]]
  | _ => []
  end.
(** isms/routing/src/contract.rs:68-73, 86-97 *)
Definition ri_events (i : info) (m : emsg) : list wevent :=
  match m with
  | MOwnable om => own_events i om
  | MRoutingSet d a =>
      [mkWev (s "hpl_ism_routing::set")
         [(s "sender", i_sender i); (s "domain", dec d); (s "ism", a)]]
  | MRoutingUnset l =>
      [mkWev (s "hpl_ism_routing::unset")
         [(s "sender", i_sender i); (s "domains", commas (map dec l))]]
  | _ => []
  end.
(** isms/pausable/src/lib.rs:60-72 *)
Definition pi_events (i : info) (m : emsg) : list wevent :=
  match m with
  | MOwnable om => own_events i om
  | MPausable pm => pause_events i pm
  | _ => []
  end.

(** ** Hooks *)
(** hooks/merkle/src/lib.rs:100-118: the index is the count before insertion *)
Definition mk_events (m : emsg) (x : mk) : list wevent :=
  match m with
  | MPostDispatch _ raw =>
      match msg_decode raw with
      | Ok msg =>
          let index := dec (mt_count (mk_tree x)) in
          [mkWev (s "hpl_hook_merkle::post_dispatch")
             [(s "message_id", hex_encode (msg_id msg)); (s "index", index)];
           mkWev (s "hpl_hook_merkle::inserted_into_tree") [(s "index", index)]]
      | _ => []
      end
  | _ => []
  end.
(** hooks/aggregate/src/lib.rs:109-111, 127-131 *)
Definition ah_events (i : info) (m : emsg) : list wevent :=
  match m with
  | MOwnable om => own_events i om
  | MPostDispatch _ raw =>
      match msg_decode raw with
      | Ok msg => [mkWev (s "hpl_hook_aggregate::post_dispatch")
                     [(s "message_id", hex_encode (msg_id msg))]]
      | _ => []
      end
  | MSetHooks l =>
      [mkWev (s "hpl_hook_aggregate::set_hooks") [(s "sender", i_sender i); (s "hooks", commas l)]]
  | _ => []
  end.
(** hooks/pausable/src/lib.rs:62-81: posting emits nothing *)
Definition ph_events (i : info) (m : emsg) : list wevent :=
  match m with
  | MOwnable om => own_events i om
  | MPausable pm => pause_events i pm
  | _ => []
  end.
(** hooks/routing/src/lib.rs:133-138, routing-custom/src/lib.rs:294-299,
    routing-fallback/src/lib.rs:136-141 *)
Definition routed_event (ty : str) (route : bytes -> res addr) (raw : bytes) : list wevent :=
  match msg_decode raw, route raw with
  | Ok msg, Ok h =>
      [mkWev ty [(s "domain", dec (m_dest msg)); (s "route", h);
                 (s "message_id", hex_encode (msg_id msg))]]
  | _, _ => []
  end.
(** hooks/routing/src/lib.rs:65-76 *)
Definition rh_events (i : info) (m : emsg) (x : rh) : list wevent :=
  match m with
  | MOwnable om => own_events i om
  | MRouter rm => router_events false i rm
  | MPostDispatch _ raw =>
      routed_event (s "hpl_hook_routing::post_dispatch") (fun r => rh_route r x) raw
  | _ => []
  end.
(** hooks/routing-custom/src/lib.rs:206-223, 247-264: keys "domain:recipient" as
    a JSON array of strings *)
Definition custom_keys (l : list (N * str)) : str :=
  json_array (map (fun p => json_string (dec (fst p) ++ s ":" ++ snd p)) l).
(** /repo/contracts/hooks/routing-custom/src/lib.rs:206-220 *)
Definition cu_register_events (i : info) (l : list custom_hook) : list wevent :=
  [mkWev (s "hpl_hook_routing_custom::register")
     [(s "sender", i_sender i);
      (s "keys", custom_keys (map (fun c => (ch_dest c, ch_recipient c)) l))]].
(** /repo/contracts/hooks/routing-custom/src/lib.rs:247-262 *)
Definition cu_clear_events (i : info) (l : list (N * str)) : list wevent :=
  [mkWev (s "hpl_hook_routing_custom::clear")
     [(s "sender", i_sender i); (s "keys", custom_keys l)]].
(** hooks/routing-custom/src/lib.rs:77-94 *)
Definition cu_events (i : info) (m : emsg) (x : cu) : list wevent :=
  match m with
  | MOwnable om => own_events i om
  | MRouter rm => router_events false i rm
  | MPostDispatch _ raw =>
      routed_event (s "hpl_hook_routing_custom::post_dispatch") (fun r => cu_route r x) raw
  | MRegisterCustomHook h => cu_register_events i [h]
  | MRegisterCustomHooks l => cu_register_events i l
  | MClearCustomHook d r => cu_clear_events i [(d, r)]
  | MClearCustomHooks l => cu_clear_events i l
  | _ => []
  end.
(** hooks/routing-fallback/src/lib.rs:67-95 (it uses the routing hook's prefix, 42-44) *)
Definition fb_events (i : info) (m : emsg) (x : fb) : list wevent :=
  match m with
  | MOwnable om => own_events i om
  | MRouter rm => router_events false i rm
  | MPostDispatch _ raw =>
      routed_event (s "hpl_hook_routing::post_dispatch") (fun r => fb_route r x) raw
  | MSetFallbackHook h =>
      [mkWev (s "hpl_hook_routing::set_fallback_hook")
         [(s "sender", i_sender i); (s "fallback-hook", h)]]
  | _ => []
  end.
(** hooks/fee/src/lib.rs:90-94, 109-111, 124-128 *)
Definition fe_events (i : info) (m : emsg) (x : fe) : list wevent :=
  match m with
  | MOwnable om => own_events i om
  | MSetFee c =>
      [mkWev (s "hpl_hook_fee::set_fee")
         [(s "fee_denom", c_denom c); (s "fee_amount", dec (c_amount c))]]
  | MFeeClaim _ => [mkWev (s "hpl_hook_fee::claim") []]
  | MPostDispatch _ _ =>
      match must_pay (i_funds i) (c_denom (fe_fee x)) with
      | Ok supplied =>
          [mkWev (s "hpl_hook_fee::post_dispatch")
             [(s "paid_denom", c_denom (fe_fee x)); (s "paid_amount", dec supplied)]]
      | _ => []
      end
  | _ => []
  end.

(** ** Gas payment *)
(** oracle/src/contract.rs:63-67, 79-80 *)
Definition or_events (i : info) (m : emsg) : list wevent :=
  match m with
  | MOracleOwnership om => own_events i om
  | MSetRemoteGasDataConfigs l =>
      [mkWev (s "set-gas-configs")
         [(s "owner", i_sender i); (s "domains", commas (map (fun c => dec (gc_domain c)) l))]]
  | MSetRemoteGasData c => [mkWev (s "set-gas-config") [(s "domain", dec (gc_domain c))]]
  | _ => []
  end.
(** core/src/execute.rs:174-182 with core/src/event.rs:60-77 *)
Definition pay_events (q : querier) (i : info) (id : bytes) (d gas : N) (x : gp) : list wevent :=
  match must_pay (i_funds i) (gp_token x), gp_quote q x d gas with
  | Ok received, Ok needed =>
      [mkWev (s "igp-core-pay-for-gas")
         [(s "sender", i_sender i); (s "dest_domain", dec d); (s "message_id", hex_encode id);
          (s "gas_amount", dec gas); (s "gas_refunded", dec (received - needed));
          (s "gas_required", dec needed); (s "payment", dec received)]]
  | _, _ => []
  end.
(** core/src/execute.rs:110-141 with core/src/event.rs:49-60 *)
Definition gp_post_events (q : querier) (i : info) (md raw : bytes) (x : gp) : list wevent :=
  match msg_decode raw with
  | Ok m =>
      match (if Nat.ltb (length md) 32 then Ok (gp_gas_for x (m_dest m))
             else g <- igp_decode md ;; Ok (ig_gas_limit g)) with
      | Ok gas =>
          pay_events q i (msg_id m) (m_dest m) gas x ++
          [mkWev (s "igp-core-post-dispatch")
             [(s "metadata", match md with [] => s "0x" | _ => hex_encode md end);
              (s "message", hex_encode raw)]]
      | _ => []
      end
  | _ => []
  end.
(** core/src/execute.rs:22-108 with core/src/event.rs:3-47 *)
Definition gp_events (q : querier) (e : env) (i : info) (m : emsg) (x : gp) : list wevent :=
  match m with
  | MOwnable om => own_events i om
  | MRouter rm => router_events false i rm
  | MPostDispatch md raw => gp_post_events q i md raw x
  | MSetDefaultGas g =>
      [mkWev (s "igp-core-set-default-gas") [(s "owner", i_sender i); (s "default-gas", dec g)]]
  | MSetGasForDomain l =>
      [mkWev (s "igp-core-set-gas-for-domain")
         [(s "owner", i_sender i); (s "domains", commas (map (fun p => dec (fst p)) l))]]
  | MUnsetGasForDomain l =>
      [mkWev (s "igp-core-unset-gas-for-domain")
         [(s "owner", i_sender i); (s "domains", commas (map dec l))]]
  | MSetBeneficiary b =>
      [mkWev (s "igp-core-set-beneficiary") [(s "owner", i_sender i); (s "beneficiary", b)]]
  | MClaim =>
      [mkWev (s "igp-core-claim")
         [(s "beneficiary", gp_beneficiary x);
          (s "collected", dec (q_balance q (e_contract e) (gp_token x)) ++ gp_token x)]]
  | MPayForGas id d gas _ => pay_events q i id d gas x
  | _ => []
  end.

(** ** Warp routes *)
(** [Option::unwrap_or_default]: e.g. /repo/contracts/warp/native/src/contract.rs:265 *)
Definition or_empty (o : option bytes) : bytes := match o with Some b => b | None => [] end.
(** the shared messages of /repo/contracts/warp/native/src/contract.rs:97-100,
    /repo/contracts/warp/cw20/src/contract.rs:93-96 *)
Definition wp_common_events (i : info) (m : emsg) : list wevent :=
  match m with
  | MOwnable om => own_events i om
  | MRouter rm => router_events true i rm
  | MConnection cm => conn_events cm
  | _ => []
  end.
(** warp/native/src/contract.rs:189-194, warp/cw20/src/contract.rs:176-181 *)
Definition handle_events (ty : str) (body : bytes) (x : wp) : list wevent :=
  match warp_decode body, wp_token x with
  | Ok w, Some token =>
      match bech32_encode (wp_hrp x) (w_recipient w) with
      | Ok recipient =>
          [mkWev ty [(s "recipient", recipient); (s "token", token); (s "amount", dec (w_amount w))]]
      | _ => []
      end
  | _, _ => []
  end.
(** warp/native/src/contract.rs:259-267 (no destination) *)
Definition wn_events (i : info) (m : emsg) (x : wp) : list wevent :=
  match m with
  | MHandle _ _ b => handle_events (s "hpl_warp_native::handle") b x
  | MTransferRemote _ r a h md =>
      [mkWev (s "hpl_warp_native::transfer-remote")
         [(s "sender", i_sender i); (s "recipient", hex_encode r); (s "token", or_empty (wp_token x));
          (s "amount", dec a); (s "hook", or_empty h); (s "metadata", hex_encode (or_empty md))]]
  | _ => wp_common_events i m
  end.
(** warp/cw20/src/contract.rs:245-254 *)
Definition wc_events (i : info) (m : emsg) (x : wp) : list wevent :=
  match m with
  | MHandle _ _ b => handle_events (s "hpl_warp_cw20::handle") b x
  | MTransferRemote d r a h md =>
      [mkWev (s "hpl_warp_cw20::transfer-remote")
         [(s "sender", i_sender i); (s "dest_domain", dec d); (s "recipient", hex_encode r);
          (s "token", or_empty (wp_token x)); (s "amount", dec a); (s "hook", or_empty h);
          (s "metadata", hex_encode (or_empty md))]]
  | _ => wp_common_events i m
  end.
(** warp/native/src/contract.rs:136-137, warp/cw20/src/contract.rs:132-133 *)
Definition reply_events (r : res reply_result) (st : cstate) : list wevent :=
  match st, r with
  | SWarpNative _, Ok (RrDenom d) => [mkWev (s "hpl_warp_native::reply-init") [(s "denom", d)]]
  | SWarpCw20 _, Ok (RrContract a) => [mkWev (s "hpl_warp_cw20::reply-init") [(s "new_token", a)]]
  | _, _ => []
  end.

(** ** All contracts *)
(** the [add_event] calls of /repo/contracts/*/*/src/{contract,lib}.rs *)
Definition c_events (Q : cstate -> querier) (e : env) (i : info) (m : emsg) (st : cstate)
  : list wevent :=
  match st with
  | SMailbox x => mb_events i m x
  | SVa _ => va_events i m
  | SMultisig _ => ms_events i m
  | SAggIsm _ => ag_events i m
  | SRoutingIsm _ => ri_events i m
  | SPausableIsm _ => pi_events i m
  | SMerkle x => mk_events m x
  | SAggHook _ => ah_events i m
  | SPausableHook _ => ph_events i m
  | SRoutingHook x => rh_events i m x
  | SCustomHook x => cu_events i m x
  | SFallbackHook x => fb_events i m x
  | SFeeHook x => fe_events i m x
  | SOracle _ => or_events i m
  | SIgp x => gp_events (Q st) e i m x
  | SWarpNative x => wn_events i m x
  | SWarpCw20 x => wc_events i m x
  | SCw20 _ => []
  end.
(** the events of a call met in state [st], if it is accepted (the [Ok] results of
    /repo/contracts/*/*/src/{contract,lib}.rs) *)
Definition call_events (ev : event) (st : cstate) : list wevent :=
  match ev with
  | EvExec e i m Q => c_events Q e i m st
  | EvReply _ r => reply_events r st
  end.
(** the events of a history, in order (the [add_event] calls of
    /repo/contracts/*/*/src/{contract,lib}.rs) *)
Definition emitted (A : api) (st : cstate) (h : list event) : list wevent :=
  flat_map (fun p => call_events (snd p) (fst p)) (accepted_calls A st h).
