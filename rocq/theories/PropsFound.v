(** * What a contract's creation tells (C70) and which program it is (C71). *)
From Coq Require Import List NArith Bool.
From Verif Require Import Base OMap Coins Message Bech32 Chain Ownable Router Mailbox Va Isms Hooks Igp Warp Cw20 Contracts Utils
  Spec SpecModules SpecWorld SpecVersion World Events SpecEvents SpecInit Found SpecFound MigrateFacts VersionFacts FoundFacts
  PropsAccess PropsIgp PropsWorld PropsEvents PropsRoute.
Import ListNotations.

(** ** C70: events from the first on tell the settings *)
(** the owner, for all but multisig modules *)
Theorem C70_owner_partial A q e i name m st0 r h o :
  c_instantiate A q e i m = Ok (st0, r) -> asked_owner m = Some o -> (forall x, m <> IMultisig x) ->
  said_first (s "owner") (i_events q e i name m) = Some o /\
  let seen := fold_left watch_owner (emitted A st0 h) (o, None) in
  reported_owner (c_run A st0 h) = Some (fst seen) /\ reported_pending (c_run A st0 h) = snd seen.
Proof. exact (owner_founded A q e i name m st0 r h o). Qed.
Print Assumptions C70_owner_partial.

(** mailbox modules, announced domain, hooks, fees, gas, modes and tokens, for
    any later history *)
Theorem C70_settings A q e i name m st0 r h :
  c_instantiate A q e i m = Ok (st0, r) -> knows A m (i_events q e i name m) (emitted A st0 h) (c_run A st0 h).
Proof. exact (everything_known A q e i name m st0 r h). Qed.
Print Assumptions C70_settings.

Theorem C70_routes A q e i m st0 r h us d :
  c_instantiate A q e i m = Ok (st0, r) -> has_routes m = true -> d < 2 ^ 32 ->
  Forall2 (route_event (hex_routes st0)) (filter about_routes (emitted A st0 h)) us ->
  Forall (Forall (fun r => rs_domain r < 2 ^ 32)) us ->
  reported_route (c_run A st0 h) d = Some (last_update d (concat us) None).
Proof. exact (routes_founded A q e i m st0 r h us d). Qed.
Print Assumptions C70_routes.

(** the modules and threshold an aggregate module starts with (C59: later
    thresholds are not told) *)
Theorem C70_modules A q e i name o l t st0 r :
  c_instantiate A q e i (IAggIsm o l t) = Ok (st0, r) -> plain_addresses A ->
  exists x y, said_first (s "isms") (i_events q e i name (IAggIsm o l t)) = Some x /\
    said_first (s "threshold") (i_events q e i name (IAggIsm o l t)) = Some y /\
    reported_modules st0 = Some (items x, decimal y).
Proof. exact (modules_founded A q e i name o l t st0 r). Qed.
Print Assumptions C70_modules.

(** on a chain, the denomination told is the one the route uses; a cw20 route
    that issues its token tells its address in a later event *)
Theorem C70_denomination C w a st name :
  chain_ok C -> reachable C w -> contract_at w a st -> is_warp st ->
  is_warp_native st \/ reported_mode st = Some Collateral ->
  exists e i q m r, births_at a (w_log w) = [(e, i, q, m, r)] /\
    said_first (s "denom") (i_events q e i name m) = reported_token st.
Proof. exact (denom_told C w a st name). Qed.
Print Assumptions C70_denomination.

(** Full statement: equal creation events mean equal settings.  False of
    the owner of a multisig module, ... *)
Definition indistinct {X} (m m' : imsg) (report : cstate -> X) : Prop :=
  exists A q e i name st r st' r',
    c_instantiate A q e i m = Ok (st, r) /\ c_instantiate A q e i m' = Ok (st', r') /\
    i_events q e i name m = i_events q e i name m' /\ report st <> report st'.
Ltac indistinct :=
  exists ex_api, no_querier, ex_env, (mkInfo (s "deployer") []), []; eexists; eexists; eexists; eexists;
  split; [vm_compute; reflexivity|]; split; [vm_compute; reflexivity|]; split; [vm_compute; reflexivity|];
  vm_compute; discriminate.

Theorem C70_multisig_owner_refuted : exists o o', indistinct (IMultisig o) (IMultisig o') reported_owner.
Proof. exists (s "alice"), (s "bob"). indistinct. Qed.
Print Assumptions C70_multisig_owner_refuted.

(** ... whether a module or hook starts paused, ... *)
Theorem C70_paused_refuted : exists o,
  indistinct (IPausableIsm o true) (IPausableIsm o false) reported_paused /\
  indistinct (IPausableHook o true) (IPausableHook o false) reported_paused.
Proof. exists (s "alice"). split; indistinct. Qed.
Print Assumptions C70_paused_refuted.

(** ... the domain and the address prefix of a mailbox, ... *)
Theorem C70_mailbox_refuted : exists h h' o d d',
  indistinct (IMailbox h o d) (IMailbox h o d') reported_domain /\
  indistinct (IMailbox h o d) (IMailbox h' o d) reported_hrp.
Proof. exists (s "osmo"), (s "neutron"), (s "alice"), 7, 9. split; indistinct. Qed.
Print Assumptions C70_mailbox_refuted.

(** ... the modules a routing module starts with, ... *)
Theorem C70_routing_refuted : exists o l l' raw,
  indistinct (IRoutingIsm o l) (IRoutingIsm o l') (fun st => reported_module_for st raw).
Proof.
  exists (s "alice"), [(0, s "strict")], [(0, s "lax")], (repeat x00 77). indistinct.
Qed.
Print Assumptions C70_routing_refuted.

(** ... the token and prefix of a gas paymaster, ... *)
Theorem C70_paymaster_refuted : exists h h' o t t' b g,
  indistinct (IIgp h o t b g) (IIgp h o t' b g) gas_token /\
  indistinct (IIgp h o t b g) (IIgp h' o t b g) gas_hrp.
Proof. exists (s "osmo"), (s "neutron"), (s "alice"), (s "uosmo"), (s "uatom"), (s "bob"), 5. split; indistinct. Qed.
Print Assumptions C70_paymaster_refuted.

(** ... and the mailbox and prefix of a warp route. *)
Theorem C70_warp_refuted : exists t h h' o b b',
  indistinct (IWarpNative t h o b) (IWarpNative t h o b') warp_mailbox /\
  indistinct (IWarpNative t h o b) (IWarpNative t h' o b) warp_hrp.
Proof. exists (NtCollateral (s "uosmo")), (s "osmo"), (s "neutron"), (s "alice"), (s "mailbox"), (s "rogue"). split; indistinct. Qed.
Print Assumptions C70_warp_refuted.

Definition founded_events (m : imsg) : list wevent :=
  i_events no_querier ex_env (mkInfo (s "deployer") []) (s "Wrapped") m.
Example C70_example :
  founded_events (IFeeHook (s "alice") (mkCoin (s "uosmo") 12))
  = [mkWev (s "hpl_hook_fee::initialize")
       [(s "sender", s "deployer"); (s "owner", s "alice"); (s "fee_denom", s "uosmo"); (s "fee_amount", s "12")]] /\
  said_first (s "denom") (founded_events (IWarpNative (NtBridged (s "sub") None) (s "osmo") (s "alice") (s "mailbox")))
  = Some (s "factory/contract/sub") /\
  said_first (s "denom") (founded_events (IWarpCw20 (CtBridged []) (s "osmo") (s "alice") (s "mailbox"))) = Some (s "Wrapped") /\
  (* the owner after a transfer, from events only *)
  fold_left watch_owner (emitted ex_api (born (IFeeHook (s "alice") (mkCoin (s "uosmo") 1)))
    (ex_transfer ++ [call "bob" (MOwnable ClaimOwnership)]))
    (match said_first (s "owner") (founded_events (IFeeHook (s "alice") (mkCoin (s "uosmo") 1))) with Some o => o | None => [] end, None)
  = (s "bob", None).
Proof. repeat split; vm_compute; reflexivity. Qed.

Example C70_chain_example :
  map (fun b => match b with (e, i, q, m, r) => said_first (s "denom") (i_events q e i [] m) end)
      (flat_map (fun k => births_at (at_ k) (w_log routes_world)) [1; 2; 3; 6])
  = map (fun k => match token_at routes_world (at_ k) with Some t => t | None => None end) [1; 2; 3; 6].
Proof. vm_compute. reflexivity. Qed.

(** ** C71: a contract stays the program it was created from *)
Theorem C71_names_apart m m' n : code_name m = Some n -> code_name m' = Some n -> same_program m m' = true.
Proof. exact (code_names m m' n). Qed.
Print Assumptions C71_names_apart.

(** whatever programs it is migrated to, its record keeps its program's name,
    and no program of this commit can ever be installed over it, its own included *)
Theorem C71_never_switched m m' c l d c' :
  version_record m = Some c -> In d (c :: migrations (Some c) l) ->
  code_name m = Some (cv_contract d) /\ migrate_to m' d <> Ok c'.
Proof. exact (never_switched m m' c l d c'). Qed.
Print Assumptions C71_never_switched.

(** contracts migrate to this commit exactly from older versions of the same
    program *)
Theorem C71_upgrade m c c' :
  migrate_to m c = Ok c' <->
  exists n, code_name m = Some n /\ cv_contract c = n /\ c' = mkCw2 n code_version /\ supersedes c' c.
Proof. exact (upgraded m c c'). Qed.
Print Assumptions C71_upgrade.

Example C71_example :
  let old n v := mkCw2 n v in
  let m := IMailbox (s "osmo") (s "alice") 7 in
  version_record m = Some (old (s "hpl-mailbox") (s "0.0.7")) /\
  migrate_to m (old (s "hpl-mailbox") (s "0.0.6-rc8")) = Ok (old (s "hpl-mailbox") (s "0.0.7")) /\
  is_ok (migrate_to m (old (s "hpl-mailbox") (s "0.0.7"))) = false /\
  is_ok (migrate_to m (old (s "hpl-igp") (s "0.0.6"))) = false /\
  map cv_version (migrations (version_record m) [(s "hpl-mailbox", s "0.0.7"); (s "hpl-igp", s "0.1.0"); (s "hpl-mailbox", s "0.1.0"); (s "hpl-mailbox", s "0.0.9")])
  = [s "0.1.0"].
Proof. repeat split; vm_compute; reflexivity. Qed.
