(** * What a contract leaves behind when it is created: its event and its version
      record.

    Types of events as in Events.v. Attributes put on the response itself
    ([Response::add_attribute]) end up in an event of their own, of type "wasm";
    here it has the empty type. The cw20 token is not part of /repo. *)
From Coq Require Import List NArith Bool.
From Verif Require Import Base OMap Bech32 Coins Chain Ownable Router Mailbox Va Isms Hooks Igp Warp Contracts Events Utils.
Import ListNotations.

(** [Display] of /repo/packages/interface/src/warp/mod.rs:43-54 *)
Definition mode_text (m : token_mode) : str :=
  match m with Bridged => s "bridged" | Collateral => s "collateral" end.

(** the text the route computes itself: /repo/contracts/warp/native/src/contract.rs:69 *)
Definition init_denom (a d : str) : str := s "factory/" ++ a ++ s "/" ++ d.

(** an event telling who sent and who owns, and more
    (e.g. /repo/contracts/hooks/routing/src/lib.rs:57-61) *)
Definition init_event (ty : str) (i : info) (owner : str) (more : list (str * str)) : list wevent :=
  [mkWev ty ((s "sender", i_sender i) :: (s "owner", owner) :: more)].

(** the events of an accepted instantiation; [name] is the name asked for in a new
    cw20 token's own message, which [imsg] does not keep:
    - mailbox/src/event.rs:4-6 with mailbox/src/contract.rs:47
    - va/src/contract.rs:49-54
    - isms: multisig/src/contract.rs:37, aggregate/src/lib.rs:57-63,
      routing/src/contract.rs:39-41, pausable/src/lib.rs:52-56
    - hooks: merkle/src/lib.rs:70-74, aggregate/src/lib.rs:68-73,
      pausable/src/lib.rs:54-58, routing/src/lib.rs:57-61,
      routing-custom/src/lib.rs:69-73, routing-fallback/src/lib.rs:59-63 (with the
      routing hook's prefix, 42-44), fee/src/lib.rs:59-65
    - igps: oracle/src/contract.rs:32, core/src/contract.rs:51-57
    - warp/native/src/contract.rs:79-85, warp/cw20/src/contract.rs:75-81 *)
Definition i_events (q : querier) (e : env) (i : info) (name : str) (m : imsg) : list wevent :=
  match m with
  | IMailbox _ o _ => [mkWev (s "mailbox_instantiated") [(s "owner", o)]]
  | IVa mb =>
      [mkWev (s "init-validator-announce")
         [(s "creator", i_sender i); (s "mailbox", mb);
          (s "local-domain", match q_smart q mb QLocalDomain with Ok (RLocalDomain d) => dec d | _ => [] end)]]
  | IMultisig _ => [mkWev [] [(s "method", s "instantiate")]]
  | IAggIsm o l t =>
      init_event (s "hpl_ism_aggregate::instantiate") i o [(s "isms", commas l); (s "threshold", dec t)]
  | IRoutingIsm o _ => [mkWev [] [(s "method", s "instantiate"); (s "owner", o)]]
  | IPausableIsm o _ => init_event (s "hpl_ism_pausable::initialize") i o []
  | IMerkle mb => [mkWev (s "hpl_hook_merkle::initialize") [(s "sender", i_sender i); (s "mailbox", mb)]]
  | IAggHook o l => init_event (s "hpl_hook_aggregate::initialize") i o [(s "hooks", commas l)]
  | IPausableHook o _ => init_event (s "hpl_hook_pausable::initialize") i o []
  | IRoutingHook o | IFallbackHook o => init_event (s "hpl_hook_routing::initialize") i o []
  | ICustomHook o => init_event (s "hpl_hook_routing_custom::initialize") i o []
  | IFeeHook o c =>
      init_event (s "hpl_hook_fee::initialize") i o
        [(s "fee_denom", c_denom c); (s "fee_amount", dec (c_amount c))]
  | IOracle o => [mkWev (s "init-igp-gas-oracle") [(s "owner", o)]]
  | IIgp _ o _ b g =>
      init_event (s "hpl_igp_core::initialize") i o [(s "beneficiary", b); (s "default_gas", dec g)]
  | IWarpNative t _ o _ =>
      init_event (s "hpl_warp_native::instantiate") i o
        (match t with
         | NtBridged d _ => [(s "mode", mode_text Bridged); (s "denom", init_denom (e_contract e) d)]
         | NtCollateral d => [(s "mode", mode_text Collateral); (s "denom", d)]
         end)
  | IWarpCw20 t _ o _ =>
      init_event (s "hpl_warp_cw20::instantiate") i o
        (match t with
         | CtBridged _ => [(s "mode", mode_text Bridged); (s "denom", name)]
         | CtCollateral a => [(s "mode", mode_text Collateral); (s "denom", a)]
         end)
  | ICw20 _ _ => []
  end.

(** ** Version records *)
(** [CARGO_PKG_NAME]: line 2 of the Cargo.toml of each directory of
    /repo/contracts/{core,isms,hooks,igps,warp} *)
Definition code_name (m : imsg) : option str :=
  match m with
  | IMailbox _ _ _ => Some (s "hpl-mailbox")
  | IVa _ => Some (s "hpl-validator-announce")
  | IMultisig _ => Some (s "hpl-ism-multisig")
  | IAggIsm _ _ _ => Some (s "hpl-ism-aggregate")
  | IRoutingIsm _ _ => Some (s "hpl-ism-routing")
  | IPausableIsm _ _ => Some (s "hpl-ism-pausable")
  | IMerkle _ => Some (s "hpl-hook-merkle")
  | IAggHook _ _ => Some (s "hpl-hook-aggregate")
  | IPausableHook _ _ => Some (s "hpl-hook-pausable")
  | IRoutingHook _ => Some (s "hpl-hook-routing")
  | ICustomHook _ => Some (s "hpl-hook-routing-custom")
  | IFallbackHook _ => Some (s "hpl-hook-routing-fallback")
  | IFeeHook _ _ => Some (s "hpl-hook-fee")
  | IOracle _ => Some (s "hpl-igp-oracle")
  | IIgp _ _ _ _ _ => Some (s "hpl-igp")
  | IWarpNative _ _ _ _ => Some (s "hpl-warp-native")
  | IWarpCw20 _ _ _ _ => Some (s "hpl-warp-cw20")
  | ICw20 _ _ => None
  end.
(** [CARGO_PKG_VERSION]: the workspace's, /repo/Cargo.toml:30 *)
Definition code_version : str := s "0.0.7".
(** [cw2::set_contract_version] at the start of every [instantiate]
    (e.g. /repo/contracts/core/mailbox/src/contract.rs:24) *)
Definition version_record (m : imsg) : option cw2 :=
  option_map (fun n => mkCw2 n code_version) (code_name m).
(** [migrate] of the program that [m] instantiates, called on a contract whose
    record is [c] (e.g. /repo/contracts/core/mailbox/src/contract.rs:99-102) *)
Definition migrate_to (m : imsg) (c : cw2) : res cw2 :=
  match code_name m with Some n => migrate (Some c) n code_version | None => Err EMigration end.
