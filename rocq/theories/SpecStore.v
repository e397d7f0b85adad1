(** * The raw database of a contract: what the theorems say about it.

    Everything here is about keys and values as the chain keeps them, so that
    whoever reads a contract's storage without asking the contract (a proof of
    storage, an indexer, a migration) knows what to expect. *)
From Coq Require Import List NArith Bool.
From Verif Require Import Base OMap Crypto Hex Merkle Chain Ownable Router Utils Mailbox Va Isms Hooks Igp Warp Contracts SpecWire Store.
Import ListNotations.

(** block heights are 64-bit numbers: /repo/contracts/core/mailbox/src/state.rs:50-53 *)
Definition timely (ev : event) : Prop :=
  match ev with EvExec e _ _ _ => e_height e < 2 ^ 64 | EvReply _ _ => True end.
(** a contract created from one of /repo/contracts/*/*/src/{contract,lib}.rs and called any number of times *)
Definition kept_by (A : api) (st : cstate) : Prop :=
  (exists q e i m r st0 h, c_instantiate A q e i m = Ok (st0, r) /\ Forall timely h /\ st = c_run A st0 h)
  /\ forall x, st <> SCw20 x.

(** ** Keys *)
(** the key of an entry of the map [name]: the length of the name in two bytes, the
    name, the key; e.g. /repo/contracts/core/mailbox/src/state.rs:65 *)
Definition entry (name : str) (k : bytes) : bytes := be 2 (N.of_nat (length name)) ++ name ++ k.
(** a domain as a key: four bytes; /repo/packages/router/src/lib.rs:28-33 *)
Definition domain (n : N) : bytes := be 4 n.
(** the key of a custom hook: the length of the domain, the domain, the recipient;
    /repo/contracts/hooks/routing-custom/src/lib.rs:49-50 *)
Definition custom (n : N) (recipient : bytes) : bytes := entry (s "custom_hooks") (be 2 4 ++ domain n ++ recipient).

(** ** What a message may write *)
(** the entries of the [state.rs] or [lib.rs] of each contract that handles the message: the lines listed at
    [Store.cells], e.g. /repo/contracts/core/mailbox/src/state.rs:55-65 *)
Definition writes (m : emsg) (k : bytes) : Prop :=
  match m with
  | MOwnable _ | MOracleOwnership _ => k = s "owner" \/ k = s "pending_owner"
  | MPausable _ => k = s "pause"
  | MRouter (SetRoute r) => k = entry (s "routes") (domain (rs_domain r))
  | MRouter (SetRoutes l) => exists r, In r l /\ k = entry (s "routes") (domain (rs_domain r))
  | MConnection (SetMailbox _) => k = s "conn::mailbox"
  | MConnection (SetHook _) => k = s "conn::hook"
  | MConnection (SetIsm _) => k = s "conn::ism"
  | MPostDispatch _ _ => k = s "message_tree"
  | MSetDefaultIsm _ | MSetDefaultHook _ | MSetRequiredHook _ => k = s "config"
  | MDispatch _ => k = s "nonce" \/ k = s "latest_dispatched_id"
  | MProcess _ raw => k = entry (s "deliveries") (keccak256_hash raw)
  | MAnnounce v _ loc =>
      k = entry (s "validators") v \/ k = entry (s "storage_locations") v \/
      k = entry (s "replay_protections") (keccak256_hash (v ++ loc))
  | MSetValidators d _ _ | MUnsetDomain d =>
      k = entry (s "validators") (domain d) \/ k = entry (s "threshold") (domain d)
  | MSetIsms _ _ => k = s "isms" \/ k = s "threshold"
  | MRoutingSet d _ => k = entry (s "modules") (domain d)
  | MRoutingUnset l => exists d, In d l /\ k = entry (s "modules") (domain d)
  | MSetHooks _ => k = s "hooks"
  | MSetFee _ => k = s "coin_fee"
  | MRegisterCustomHook h => exists r, hex_decode (ch_recipient h) = Ok r /\ k = custom (ch_dest h) r
  | MRegisterCustomHooks l => exists h r, In h l /\ hex_decode (ch_recipient h) = Ok r /\ k = custom (ch_dest h) r
  | MClearCustomHook d t => exists r, hex_decode t = Ok r /\ k = custom d r
  | MClearCustomHooks l => exists d t r, In (d, t) l /\ hex_decode t = Ok r /\ k = custom d r
  | MSetFallbackHook _ => k = s "fallback_hook"
  | MSetDefaultGas _ => k = s "default_gas_usage"
  | MSetGasForDomain l => exists d g, In (d, g) l /\ k = entry (s "gas_for_domain") (domain d)
  | MUnsetGasForDomain l => exists d, In d l /\ k = entry (s "gas_for_domain") (domain d)
  | MSetBeneficiary _ => k = s "beneficiary"
  | MSetRemoteGasDataConfigs l => exists c, In c l /\ k = entry (s "remote_gas_data") (domain (gc_domain c))
  | MSetRemoteGasData c => k = entry (s "remote_gas_data") (domain (gc_domain c))
  | MHandle _ _ _ | MFeeClaim _ | MPayForGas _ _ _ _ | MClaim | MTransferRemote _ _ _ _ _
  | MCw20Transfer _ _ | MCw20TransferFrom _ _ _ | MCw20Burn _ | MCw20Mint _ _ | MCw20IncreaseAllowance _ _
  | MCw20DecreaseAllowance _ _ | MCw20BurnFrom _ _ | MCw20UpdateMinter _ | MOther _ => False
  end.
(** the same of a call or of the answer to one, /repo/contracts/warp/native/src/contract.rs *)
Definition event_writes (ev : event) (k : bytes) : Prop :=
  match ev with EvExec _ _ m _ => writes m k | EvReply _ _ => k = s "token" end.

(** ** What a query reads *)
(** the contracts that keep routes (/repo/packages/router/src/lib.rs:28-33) *)
Definition routed (st : cstate) : bool :=
  match st with
  | SRoutingHook _ | SCustomHook _ | SFallbackHook _ | SIgp _ | SWarpNative _ | SWarpCw20 _ => true
  | _ => false
  end.
(** where the scan of a map begins, /repo/packages/router/src/lib.rs:173-183 *)
Definition section (name : str) : bytes := entry name [].
(** and that of the custom hooks of a domain, /repo/contracts/hooks/routing-custom/src/lib.rs:158 *)
Definition custom_section (n : N) : bytes := custom n [].

(** ** The entries, spelled out *)
(** bytes as numbers, /repo/contracts/core/mailbox/src/state.rs:62 *)
Definition octets (b : bytes) : str := brackets (map (fun c => dec (bN c)) b).
(** an entry that may be missing, e.g. /repo/packages/ownable/src/lib.rs:14-15 *)
Definition if_any {A} (k : bytes) (f : A -> str) (o : option A) : list (bytes * str) :=
  match o with Some a => [(k, f a)] | None => [] end.
(** the entries of a map, e.g. /repo/contracts/isms/multisig/src/state.rs:4-8 *)
Definition of_map {K A} (name : str) (key : K -> bytes) (f : A -> str) (m : list (K * A)) : list (bytes * str) :=
  map (fun p => (entry name (key (fst p)), f (snd p))) m.
(** /repo/packages/ownable/src/lib.rs:11-15 *)
Definition owner_entries (o : own) : list (bytes * str) :=
  (s "owner", quoted (o_owner o)) :: if_any (s "pending_owner") quoted (o_pending o).
(** /repo/packages/router/src/lib.rs:18, 28-33 *)
Definition route_entries (hx : bool) (r : routes) : list (bytes * str) :=
  of_map (s "routes") domain (or_null (if hx then hexed else quoted)) r.
(** everything a contract keeps; the lines are those listed at [Store.cells], e.g.
    /repo/contracts/core/mailbox/src/state.rs:55-65 *)
Definition dump (v : cw2) (st : cstate) : list (bytes * str) :=
  (s "contract_info", braces [is "contract" (quoted (cv_contract v)); is "version" (quoted (cv_version v))]) ::
  match st with
  | SMailbox x => owner_entries (mb_own x) ++
      [(s "config", braces [is "hrp" (quoted (mb_hrp x)); is "local_domain" (dec (mb_domain x));
          is "default_ism" (or_null quoted (mb_ism x)); is "default_hook" (or_null quoted (mb_hook x));
          is "required_hook" (or_null quoted (mb_required x))]);
       (s "nonce", dec (mb_nonce x))] ++ if_any (s "latest_dispatched_id") octets (mb_latest x) ++
      of_map (s "deliveries") (fun k => k)
        (fun d => braces [is "sender" (quoted (dl_sender d)); is "block_number" (dec (dl_height d))]) (mb_deliveries x)
  | SVa x =>
      [(s "mailbox", octets (va_mailbox x)); (s "local_domain", dec (va_domain x))] ++
      of_map (s "validators") (fun k => k) (fun _ => braces []) (va_validators x) ++
      of_map (s "storage_locations") (fun k => k) (fun l => brackets (map quoted l)) (va_locations x) ++
      of_map (s "replay_protections") (fun k => k) (fun _ => braces []) (va_replay x)
  | SMultisig x => owner_entries (ms_own x) ++
      of_map (s "validators") domain (fun l => brackets (map hexed l)) (ms_validators x) ++
      of_map (s "threshold") domain dec (ms_threshold x)
  | SAggIsm x => owner_entries (ag_own x) ++
      [(s "isms", brackets (map quoted (ag_isms x))); (s "threshold", dec (ag_threshold x))]
  | SRoutingIsm x => owner_entries (ri_own x) ++ of_map (s "modules") domain quoted (ri_modules x)
  | SPausableIsm x => owner_entries (pi_own x) ++ [(s "pause", truth (pi_paused x))]
  | SMerkle x =>
      [(s "mailbox", quoted (mk_mailbox x));
       (s "message_tree", braces [is "branch" (brackets (map hexed (mt_branch (mk_tree x)))); is "count" (big (mt_count (mk_tree x)))])]
  | SAggHook x => owner_entries (ah_own x) ++ [(s "hooks", brackets (map quoted (ah_hooks x)))]
  | SPausableHook x => owner_entries (ph_own x) ++ [(s "pause", truth (ph_paused x))]
  | SRoutingHook x => owner_entries (rh_own x) ++ route_entries false (rh_routes x)
  | SCustomHook x => owner_entries (cu_own x) ++ route_entries false (cu_routes x) ++
      map (fun p => (custom (fst (fst p)) (snd (fst p)), quoted (snd p))) (cu_hooks x)
  | SFallbackHook x => owner_entries (fb_own x) ++ route_entries false (fb_routes x) ++ if_any (s "fallback_hook") quoted (fb_fallback x)
  | SFeeHook x => owner_entries (fe_own x) ++ [(s "coin_fee", coin_text (fe_fee x))]
  | SOracle x => owner_entries (or_own x) ++
      of_map (s "remote_gas_data") domain
        (fun g => braces [is "token_exchange_rate" (big (gd_rate g)); is "gas_price" (big (gd_price g))]) (or_data x)
  | SIgp x => owner_entries (gp_own x) ++ route_entries false (gp_routes x) ++
      [(s "hrp", quoted (gp_hrp x)); (s "gas_token", quoted (gp_token x)); (s "default_gas_usage", big (gp_default_gas x))] ++
      of_map (s "gas_for_domain") domain big (gp_gas x) ++ [(s "beneficiary", quoted (gp_beneficiary x))]
  | SWarpNative x | SWarpCw20 x => owner_entries (wp_own x) ++ route_entries true (wp_routes x) ++
      if_any (s "conn::mailbox") quoted (cn_mailbox (wp_conn x)) ++ if_any (s "conn::ism") quoted (cn_ism (wp_conn x)) ++
      if_any (s "conn::hook") quoted (cn_hook (wp_conn x)) ++ if_any (s "token") quoted (wp_token x) ++
      [(s "mode", mode_text (wp_mode x)); (s "hrp", quoted (wp_hrp x)); (s "mailbox", quoted (wp_mailbox x))]
  | SCw20 _ => []
  end.
