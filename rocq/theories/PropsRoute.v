(** * The tokens of warp routes (C63). *)
From Coq Require Import List NArith Bool.
From Verif Require Import Base OMap Coins Crypto Message Bech32 Chain Ownable Router Contracts Spec SpecModules
  Mailbox Va Isms Hooks Igp Warp Cw20 World SpecWorld SpecRoute WorldFacts WorldRoute WorldToken PropsAccess PropsWorld.
Import ListNotations.

(** ** C63 *)
(** whatever happens on the chain, between transactions every route has its
    token, and it is the one its deployment settled *)
Theorem C63_token_of_every_route C w a st :
  chain_ok C -> reachable C w -> contract_at w a st -> is_warp st ->
  exists e i q m r tk,
    births_at a (w_log w) = [(e, i, q, m, r)] /\ reported_token st = Some tk /\ own_token w a m tk.
Proof. exact (token_of_route C w a st). Qed.
Print Assumptions C63_token_of_every_route.

(** no later transaction changes it *)
Theorem C63_token_never_changes C w l a st st' :
  chain_ok C -> reachable C w -> contract_at w a st -> is_warp st ->
  contract_at (chain_run C w l) a st' -> is_warp st' /\ reported_token st' = reported_token st.
Proof. exact (token_stays C w l a st st'). Qed.
Print Assumptions C63_token_never_changes.

(** two routes never issue the same token *)
Theorem C63_issuers_apart C w a b st st' tk :
  chain_ok C -> reachable C w -> contract_at w a st -> contract_at w b st' ->
  (is_warp_native st /\ is_warp_native st') \/ (is_warp_cw20 st /\ is_warp_cw20 st') ->
  reported_mode st = Some Bridged -> reported_mode st' = Some Bridged ->
  reported_token st = Some tk -> reported_token st' = Some tk -> a = b.
Proof. exact (tokens_apart C w a b st st' tk). Qed.
Print Assumptions C63_issuers_apart.

(** the cw20 token made for a bridged route takes orders to mint, or to name
    another minter, from the route only, whatever happened before *)
Theorem C63_route_alone_mints C w a st tk A Q e i m tst p :
  chain_ok C -> reachable C w ->
  contract_at w a st -> is_warp_cw20 st -> reported_mode st = Some Bridged -> reported_token st = Some tk ->
  contract_at w tk tst ->
  match m with MCw20Mint _ _ | MCw20UpdateMinter _ => True | _ => False end ->
  c_execute A Q e i m tst = Ok p -> i_sender i = a.
Proof. exact (route_alone_mints C w a st tk A Q e i m tst p). Qed.
Print Assumptions C63_route_alone_mints.

(** four routes, of each kind, deployed one after the other;
    then the owner enrols a router and an outsider tries to mint, and to become
    the minter *)
Definition routes_txs : list (nat * tx) :=
  map (fun t => (30%nat, t))
    [TDeploy alice (IMailbox (s "osmo") alice 1) [];
     TDeploy alice (IWarpNative (NtCollateral (s "uosmo")) (s "osmo") alice (at_ 0)) [];
     TDeploy alice (IWarpNative (NtBridged (s "wosmo") None) (s "osmo") alice (at_ 0)) [];
     TDeploy alice (IWarpNative (NtBridged (s "wosmo") None) (s "osmo") alice (at_ 0)) [];
     TDeploy alice (IWarpCw20 (CtBridged []) (s "osmo") alice (at_ 0)) [];
     TDeploy alice (IWarpCw20 (CtCollateral (at_ 5)) (s "osmo") alice (at_ 0)) []].
Definition routes_world : world := chain_run ex_chain (genesis []) routes_txs.
Definition token_at (w : world) (a : addr) : option (option str) := read_at w a reported_token.

Example C63_example :
  map (token_at routes_world) [at_ 1; at_ 2; at_ 3; at_ 4; at_ 6]
  = [Some (Some (s "uosmo")); Some (Some (factory_denom (at_ 2) (s "wosmo")));
     Some (Some (factory_denom (at_ 3) (s "wosmo"))); Some (Some (at_ 5)); Some (Some (at_ 5))] /\
  map (fun b => snd (fst b)) (births_at (at_ 5) (w_log routes_world)) = [ICw20 (Some (at_ 4)) []] /\
  (let later := chain_run ex_chain routes_world
     (map (fun t => (30%nat, t))
       [TExec alice (at_ 4) (MRouter (SetRoute (mkRouteSet 9 (Some (be32 7))))) [];
        TExec relayer (at_ 5) (MCw20Mint relayer 5) [];
        TExec relayer (at_ 5) (MCw20UpdateMinter (Some relayer)) []]) in
   map (token_at later) [at_ 2; at_ 4] = map (token_at routes_world) [at_ 2; at_ 4] /\
   read_at later (at_ 5) (fun st => Ok st) = read_at routes_world (at_ 5) (fun st => Ok st) /\
   length (w_log routes_world) <> length (w_log later)) /\
  read_at routes_world (at_ 5)
    (fun st => map (fun c => match c_execute (ch_api ex_chain) (fun _ => mkQuerier (fun _ _ => Err EStd) (fun _ _ => 0) (fun _ => [])) (mkEnv (at_ 5) 1) (mkInfo (at_ 4) []) c st with
                             | Ok _ => true | _ => false end)
       [MCw20Mint alice 5; MCw20UpdateMinter (Some alice); MCw20UpdateMinter None]) = Some [true; true; true].
Proof. vm_compute. repeat split. discriminate. Qed.
