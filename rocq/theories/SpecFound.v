(** * What an observer knows who has seen all of a contract's events, from the
      first on; and which program a contract was created from (specification side). *)
From Coq Require Import List NArith Bool.
From Verif Require Import Base Coins Message Bech32 Chain Router Warp Contracts Utils Spec SpecModules SpecWorld SpecVersion
  Events SpecEvents SpecInit.
Import ListNotations.

(** what the first event of [l] says under key [k] *)
Definition said_first (k : str) (l : list wevent) : option str :=
  match l with w :: _ => attr k w | [] => None end.

(** [seen0] are the events of the creation, [seen] those since; [st] is the
    contract now *)
Definition knows (A : api) (m : imsg) (seen0 seen : list wevent) (st : cstate) : Prop :=
  let text0 k := said_first k seen0 in
  let last_text ty k x0 := fold_left (watch_text ty k) seen x0 in
  match m with
  | IMailbox _ _ _ =>
      reported_default_ism st = last_text (s "mailbox_default_ism_set") (s "new_default_ism") None /\
      reported_default_hook st = last_text (s "mailbox_default_hook_set") (s "new_default_hook") None /\
      reported_required_hook st = last_text (s "mailbox_required_hook_set") (s "new_required_hook") None
  | IVa _ =>
      (exists mb raw, text0 (s "mailbox") = Some mb /\ bech32_decode mb = Ok raw /\ reported_va_mailbox st = Some raw) /\
      reported_va_domain st = option_map decimal (text0 (s "local-domain"))
  | IMerkle _ => reported_hook_mailbox st = text0 (s "mailbox")
  | IAggHook _ _ =>
      plain_addresses A ->
      reported_hooks st
      = fold_left (watch_list (s "hpl_hook_aggregate::set_hooks") (s "hooks")) seen (option_map items (text0 (s "hooks")))
  | IFallbackHook _ => fallback_of st = last_text (s "hpl_hook_routing::set_fallback_hook") (s "fallback-hook") None
  | IFeeHook _ _ =>
      exists d a, text0 (s "fee_denom") = Some d /\ text0 (s "fee_amount") = Some a /\
      reported_fee st
      = fold_left (watch_coin (s "hpl_hook_fee::set_fee") (s "fee_denom") (s "fee_amount")) seen (Some (mkCoin d (decimal a)))
  | IIgp _ _ _ _ _ =>
      reported_beneficiary st = last_text (s "igp-core-set-beneficiary") (s "beneficiary") (text0 (s "beneficiary")) /\
      reported_default_gas st
      = fold_left (watch_number (s "igp-core-set-default-gas") (s "default-gas")) seen (option_map decimal (text0 (s "default_gas")))
  | IWarpNative _ _ _ _ =>
      (reported_mode st = Some Collateral /\ text0 (s "mode") = Some (s "collateral") /\
       reported_token st = last_text (s "hpl_warp_native::reply-init") (s "denom") (text0 (s "denom"))) \/
      (reported_mode st = Some Bridged /\ text0 (s "mode") = Some (s "bridged") /\
       reported_token st = last_text (s "hpl_warp_native::reply-init") (s "denom") None)
  | IWarpCw20 _ _ _ _ =>
      (reported_mode st = Some Collateral /\ text0 (s "mode") = Some (s "collateral") /\
       reported_token st = last_text (s "hpl_warp_cw20::reply-init") (s "new_token") (text0 (s "denom"))) \/
      (reported_mode st = Some Bridged /\ text0 (s "mode") = Some (s "bridged") /\
       reported_token st = last_text (s "hpl_warp_cw20::reply-init") (s "new_token") None)
  | _ => True
  end.

(** the contracts that have routes *)
Definition has_routes (m : imsg) : bool :=
  match m with
  | IRoutingHook _ | ICustomHook _ | IFallbackHook _ | IIgp _ _ _ _ _
  | IWarpNative _ _ _ _ | IWarpCw20 _ _ _ _ => true
  | _ => false
  end.

(** two messages for the same program *)
Definition same_program (m m' : imsg) : bool :=
  match m, m' with
  | IMailbox _ _ _, IMailbox _ _ _ | IVa _, IVa _ | IMultisig _, IMultisig _
  | IAggIsm _ _ _, IAggIsm _ _ _ | IRoutingIsm _ _, IRoutingIsm _ _ | IPausableIsm _ _, IPausableIsm _ _
  | IMerkle _, IMerkle _ | IAggHook _ _, IAggHook _ _ | IPausableHook _ _, IPausableHook _ _
  | IRoutingHook _, IRoutingHook _ | ICustomHook _, ICustomHook _ | IFallbackHook _, IFallbackHook _
  | IFeeHook _ _, IFeeHook _ _ | IOracle _, IOracle _ | IIgp _ _ _ _ _, IIgp _ _ _ _ _
  | IWarpNative _ _ _ _, IWarpNative _ _ _ _ | IWarpCw20 _ _ _ _, IWarpCw20 _ _ _ _
  | ICw20 _ _, ICw20 _ _ => true
  | _, _ => false
  end.
