(** * What a deployer may ask for, and what they get.

    Stated with the contracts' own queries (Spec.v, SpecModules.v,
    SpecWorld.v), so that nothing here repeats an [instantiate] function. *)
From Coq Require Import List NArith Bool.
From Verif Require Import Base OMap Coins Message Bech32 Merkle Chain Ownable Router
  Mailbox Va Isms Hooks Igp Warp Cw20 Contracts Spec SpecModules World SpecWorld SpecBridge.
Import ListNotations.

(** every ASCII character is one of a..z
    (/repo/contracts/core/mailbox/src/contract.rs:26-32,
    /repo/contracts/igps/core/src/contract.rs:29-34; a non-ASCII prefix is let
    through by the model, see Mailbox.v) *)
Definition lower_case (h : str) : Prop :=
  Forall (fun b => (97 <= bN b /\ bN b <= 122) \/ 128 <= bN b) h.

(** the opening balances of a token that cw20-base accepts *)
Definition opening_ok (A : api) (l : list (addr * N)) : Prop :=
  Forall (fun p => valid A (fst p) /\ snd p < 2 ^ 128) l /\ NoDup (map fst l) /\
  initial_sum (ICw20 None l) < 2 ^ 128.

(** the instantiation messages that are accepted
    (/repo/contracts: core/mailbox/src/contract.rs:18-48,
    core/va/src/contract.rs:27-55, isms and hooks: the [instantiate] of each,
    igps/core/src/contract.rs:21-58, warp/native/src/contract.rs:30-90,
    warp/cw20/src/contract.rs:29-82) *)
Definition acceptable (A : api) (q : querier) (m : imsg) : Prop :=
  match m with
  | IMailbox hrp o d => lower_case hrp /\ valid A o /\ d < 2 ^ 32
  | IVa mb => valid A mb /\ (exists raw, bech32_decode mb = Ok raw) /\
      exists d, q_smart q mb QLocalDomain = Ok (RLocalDomain d) /\ d < 2 ^ 32
  | IAggIsm o l t => valid A o /\ Forall (valid A) l /\ t < 2 ^ 8
  | IRoutingIsm o l => valid A o /\ Forall (fun p => fst p < 2 ^ 32 /\ valid A (snd p)) l
  | IMerkle mb => valid A mb
  | IAggHook o l => valid A o /\ Forall (valid A) l
  | IFeeHook o c => valid A o /\ c_amount c < 2 ^ 128
  | IIgp hrp o _ b g => lower_case hrp /\ valid A o /\ valid A b /\ g < 2 ^ 128
  | IWarpNative t _ o mb => valid A o /\ valid A mb /\
      match t with
      | NtBridged _ (Some md) => Forall (fun u => du_exponent u < 2 ^ 32) (md_units md)
      | _ => True
      end
  | IWarpCw20 t _ o mb => valid A o /\ valid A mb /\
      match t with CtCollateral a => valid A a | CtBridged l => Forall (fun p => snd p < 2 ^ 128) l end
  | ICw20 _ l => opening_ok A l
  | IMultisig o | IPausableIsm o _ | IPausableHook o _ | IRoutingHook o | ICustomHook o
  | IFallbackHook o | IOracle o => valid A o
  end.

(** the account asked to own the contract *)
Definition asked_owner (m : imsg) : option addr :=
  match m with
  | IMailbox _ o _ | IMultisig o | IAggIsm o _ _ | IRoutingIsm o _ | IPausableIsm o _
  | IAggHook o _ | IPausableHook o _ | IRoutingHook o | ICustomHook o | IFallbackHook o
  | IFeeHook o _ | IOracle o | IIgp _ o _ _ _ | IWarpNative _ _ o _ | IWarpCw20 _ _ o _ => Some o
  | IVa _ | IMerkle _ | ICw20 _ _ => None
  end.

(** no route is set, where the contract has routes at all *)
Definition unrouted (st : cstate) : Prop := forall d, d < 2 ^ 32 -> reported_route st d = Some None.

(** a warp route before any configuration *)
Definition fresh_route (st : cstate) (hrp mb : str) : Prop :=
  unrouted st /\ warp_mailbox st = Some mb /\ warp_hrp st = hrp /\
  reported_conn st QConnMailbox = Some None /\ reported_conn st QConnHook = Some None /\
  reported_conn st QConnIsm = Some None.

(** the settings a newly created contract reports, and the messages its
    creation sends; [a] is the contract's own address *)
Definition starts_as (q : querier) (a : addr) (m : imsg) (st : cstate) (r : response) : Prop :=
  reported_owner st = asked_owner m /\ reported_pending st = None /\
  match m with
  | IMailbox hrp _ d =>
      reported_hrp st = Some hrp /\ reported_domain st = Some d /\ reported_nonce st = Some 0 /\
      reported_latest st = None /\ reported_default_ism st = None /\
      reported_default_hook st = None /\ reported_required_hook st = None /\
      (forall id, reported_delivered st id = Some false)
  | IVa mb =>
      (exists raw, bech32_decode mb = Ok raw /\ reported_va_mailbox st = Some raw) /\
      (exists d, q_smart q mb QLocalDomain = Ok (RLocalDomain d) /\ reported_va_domain st = Some d) /\
      reported_validators st = Some [] /\ (forall v, announced st v = Some [])
  | IMultisig _ => forall d, reported_enrolled st d = None
  | IAggIsm _ l t => reported_modules st = Some (l, t)
  | IRoutingIsm _ l =>
      forall raw m, msg_decode raw = Ok m -> reported_module_for st raw = last_entry (m_origin m) l
  | IPausableIsm _ p | IPausableHook _ p => reported_paused st = Some p
  | IMerkle mb => reported_hook_mailbox st = Some mb /\ reported_count st = Some 0
  | IAggHook _ l => reported_hooks st = Some l
  | IRoutingHook _ => unrouted st
  | ICustomHook _ => unrouted st /\ (forall d rcp, length rcp = 32%nat -> reported_custom st d rcp = None)
  | IFallbackHook _ => unrouted st /\ fallback_of st = None
  | IFeeHook _ c => reported_fee st = Some c
  | IOracle _ => forall d, reported_gas_data st d = None
  | IIgp hrp _ tk b g =>
      gas_hrp st = hrp /\ gas_token st = tk /\ reported_beneficiary st = Some b /\
      reported_default_gas st = Some g /\ (forall d, reported_gas st d = None) /\ unrouted st
  | IWarpNative (NtCollateral d) hrp _ mb =>
      fresh_route st hrp mb /\ reported_mode st = Some Collateral /\ reported_token st = Some d
  | IWarpNative (NtBridged _ _) hrp _ mb | IWarpCw20 (CtBridged _) hrp _ mb =>
      fresh_route st hrp mb /\ reported_mode st = Some Bridged /\ reported_token st = None
  | IWarpCw20 (CtCollateral t) hrp _ mb =>
      fresh_route st hrp mb /\ reported_mode st = Some Collateral /\ reported_token st = Some t
  | ICw20 _ l =>
      (forall x, cw_holding st x = initial_of x m) /\ cw_total st = initial_sum m
  end /\
  r = match m with
      | IWarpNative (NtBridged d md) _ _ _ =>
          mkResp (mkSub (CCreateDenom a d) (RpSuccess 0) ::
                  match md with Some x => [mkSub (CSetDenomMetadata a x) RpNever] | None => [] end) None
      | IWarpCw20 (CtBridged init) _ _ _ =>
          mkResp [mkSub (CInstantiateCw20 a init) (RpSuccess 0)] None
      | _ => mkResp [] None
      end.
