(** * All contracts as one type, and the histories of a contract.

    [cstate] is the sum of the contracts' storages; [c_instantiate],
    [c_execute], [c_query], [c_reply] dispatch to the entry points of the
    contract in question.  A history is any list of calls (from any senders,
    with any funds and any behaviour of the rest of the chain, given by the
    queriers) and replies. *)
From Coq Require Import List NArith Bool.
From Verif Require Import Base OMap Coins Message Chain Ownable Router
  Mailbox Va Isms Hooks Igp Warp Cw20.
Import ListNotations.

(** the storages declared in /repo/contracts/*/*/src/{lib,state}.rs *)
Inductive cstate :=
| SMailbox (x : mb) | SVa (x : va)
| SMultisig (x : ms) | SAggIsm (x : ag) | SRoutingIsm (x : ri) | SPausableIsm (x : pi)
| SMerkle (x : mk) | SAggHook (x : ah) | SPausableHook (x : ph) | SRoutingHook (x : rh)
| SCustomHook (x : cu) | SFallbackHook (x : fb) | SFeeHook (x : fe)
| SOracle (x : orc) | SIgp (x : gp)
| SWarpNative (x : wp) | SWarpCw20 (x : wp)
| SCw20 (x : cw).

(** InstantiateMsg of each contract: /repo/packages/interface/src/core/mailbox.rs:11-16,
    core/va.rs:4-8 (its hrp is unused), ism/multisig.rs:10-13, ism/aggregate.rs:7-12,
    ism/routing.rs:10-20, ism/pausable.rs:10-14, hook/merkle.rs:8-11,
    hook/aggregate.rs:9-13, hook/pausable.rs:10-14, hook/routing.rs:11-14,
    hook/routing_custom.rs:12-15, hook/routing_fallback.rs:11-14, hook/fee.rs:10-14,
    igp/oracle.rs:6-9, igp/core.rs:13-20, warp/native.rs:46-53, warp/cw20.rs *)
Inductive imsg :=
| IMailbox (hrp owner : str) (domain : N) | IVa (mailbox : str)
| IMultisig (owner : str) | IAggIsm (owner : str) (isms : list str) (threshold : N)
| IRoutingIsm (owner : str) (isms : list (N * str)) | IPausableIsm (owner : str) (paused : bool)
| IMerkle (mailbox : str) | IAggHook (owner : str) (hooks : list str)
| IPausableHook (owner : str) (paused : bool) | IRoutingHook (owner : str)
| ICustomHook (owner : str) | IFallbackHook (owner : str) | IFeeHook (owner : str) (fee : coin)
| IOracle (owner : str) | IIgp (hrp owner token beneficiary : str) (gas : N)
| IWarpNative (t : native_token) (hrp owner mailbox : str)
| IWarpCw20 (t : cw20_token) (hrp owner mailbox : str)
| ICw20 (minter : option addr) (initial : list (addr * N)).

(** serde's integer width checks; on the types of
    /repo/packages/interface/src/{core,hook,igp,ism,warp}/*.rs *)
Definition imsg_ok (m : imsg) : bool :=
  match m with
  | IMailbox _ _ d => u32_ok d
  | IAggIsm _ _ t => u8_ok t
  | IRoutingIsm _ l => forallb (fun p => u32_ok (fst p)) l
  | IFeeHook _ c => u128_ok (c_amount c)
  | IIgp _ _ _ _ g => u128_ok g
  | IWarpNative (NtBridged _ (Some md)) _ _ _ => forallb (fun u => u32_ok (du_exponent u)) (md_units md)
  | IWarpCw20 (CtBridged l) _ _ _ | ICw20 _ l => forallb (fun p => u128_ok (snd p)) l
  | _ => true
  end.

(** (plumbing between the entry points of /repo/contracts/*/*/src/{contract,lib}.rs) *)
Definition lift {X} (f : X -> cstate) (r : res (X * response)) : res (cstate * response) :=
  ' (x, o) <- r ;; Ok (f x, o).

(** the [instantiate] entry points; of /repo/contracts/*/*/src/{contract,lib}.rs *)
Definition c_instantiate (A : api) (q : querier) (e : env) (i : info) (m : imsg)
  : res (cstate * response) :=
  _ <- ensure (imsg_ok m) EParse ;;
  match m with
  | IMailbox h o d => lift SMailbox (mb_instantiate A h o d)
  | IVa m => lift SVa (va_instantiate A q m)
  | IMultisig o => lift SMultisig (ms_instantiate A o)
  | IAggIsm o l t => lift SAggIsm (ag_instantiate A o l t)
  | IRoutingIsm o l => lift SRoutingIsm (ri_instantiate A o l)
  | IPausableIsm o p => lift SPausableIsm (pi_instantiate A o p)
  | IMerkle m => lift SMerkle (mk_instantiate A m)
  | IAggHook o l => lift SAggHook (ah_instantiate A o l)
  | IPausableHook o p => lift SPausableHook (ph_instantiate A o p)
  | IRoutingHook o => lift SRoutingHook (rh_instantiate A o)
  | ICustomHook o => lift SCustomHook (cu_instantiate A o)
  | IFallbackHook o => lift SFallbackHook (fb_instantiate A o)
  | IFeeHook o c => lift SFeeHook (fe_instantiate A o c)
  | IOracle o => lift SOracle (or_instantiate A o)
  | IIgp h o t b g => lift SIgp (gp_instantiate A h o t b g)
  | IWarpNative t h o m => lift SWarpNative (wn_instantiate A e t h o m)
  | IWarpCw20 t h o m => lift SWarpCw20 (wc_instantiate A e t h o m)
  | ICw20 m l => x <- cw_instantiate A m l ;; Ok (SCw20 x, resp0)
  end.

(** the [execute] entry points; [Q st] is what the contract's queries see when its own
    storage is [st]; of /repo/contracts/*/*/src/{contract,lib}.rs *)
Definition c_execute (A : api) (Q : cstate -> querier) (e : env) (i : info) (m : emsg) (st : cstate)
  : res (cstate * response) :=
  _ <- ensure (emsg_ok m) EParse ;;
  let q := Q st in
  match st with
  | SMailbox x => lift SMailbox (mb_execute A (fun y => Q (SMailbox y)) e i m x)
  | SVa x => lift SVa (va_execute A m x)
  | SMultisig x => lift SMultisig (ms_execute A i m x)
  | SAggIsm x => lift SAggIsm (ag_execute A i m x)
  | SRoutingIsm x => lift SRoutingIsm (ri_execute A i m x)
  | SPausableIsm x => lift SPausableIsm (pi_execute A i m x)
  | SMerkle x => lift SMerkle (mk_execute q m x)
  | SAggHook x => lift SAggHook (ah_execute A q i m x)
  | SPausableHook x => lift SPausableHook (ph_execute A i m x)
  | SRoutingHook x => lift SRoutingHook (rh_execute A i m x)
  | SCustomHook x => lift SCustomHook (cu_execute A i m x)
  | SFallbackHook x => lift SFallbackHook (fb_execute A i m x)
  | SFeeHook x => lift SFeeHook (fe_execute A q e i m x)
  | SOracle x => lift SOracle (or_execute A i m x)
  | SIgp x => lift SIgp (gp_execute A q e i m x)
  | SWarpNative x => lift SWarpNative (wn_execute A e i m x)
  | SWarpCw20 x => lift SWarpCw20 (wc_execute A e i m x)
  | SCw20 x => lift SCw20 (cw_execute A i m x)
  end.

(** the [query] entry points; of /repo/contracts/*/*/src/{contract,lib}.rs *)
Definition c_query (A : api) (q : querier) (m : qmsg) (st : cstate) : res qres :=
  _ <- ensure (qmsg_ok m) EParse ;;
  match st with
  | SMailbox x => mb_query A q m x
  | SVa x => va_query m x
  | SMultisig x => ms_query A m x
  | SAggIsm x => ag_query q m x
  | SRoutingIsm x => ri_query q m x
  | SPausableIsm x => pi_query m x
  | SMerkle x => mk_query m x
  | SAggHook x => ah_query q m x
  | SPausableHook x => ph_query m x
  | SRoutingHook x => rh_query q m x
  | SCustomHook x => cu_query q m x
  | SFallbackHook x => fb_query q m x
  | SFeeHook x => fe_query m x
  | SOracle x => or_query m x
  | SIgp x => gp_query q m x
  | SWarpNative x => wn_query m x
  | SWarpCw20 x => wc_query m x
  | SCw20 x => cw_query m x
  end.

(** the [reply] entry points: only the warp routes have one
    (/repo/contracts/warp/native/src/contract.rs:122-144,
    /repo/contracts/warp/cw20/src/contract.rs:118-140) *)
Definition c_reply (A : api) (id : N) (r : res reply_result) (st : cstate)
  : res (cstate * response) :=
  match st with
  | SWarpNative x => lift SWarpNative (wn_reply id r x)
  | SWarpCw20 x => lift SWarpCw20 (wc_reply A id r x)
  | _ => Err EParse
  end.

(** ** Histories of one contract *)
(** a call of [execute] or [reply] in /repo/contracts/*/*/src/{contract,lib}.rs *)
Inductive event :=
| EvExec (e : env) (i : info) (m : emsg) (Q : cstate -> querier)
| EvReply (id : N) (r : res reply_result).

(** the entry point an event reaches in /repo/contracts/*/*/src/{contract,lib}.rs *)
Definition c_apply (A : api) (ev : event) (st : cstate) : res (cstate * response) :=
  match ev with
  | EvExec e i m Q => c_execute A Q e i m st
  | EvReply id r => c_reply A id r st
  end.

(** a rejected call leaves the storage as it was (errors of
    /repo/contracts/*/*/src/{contract,lib}.rs undo their writes) *)
Definition c_step (A : api) (st : cstate) (ev : event) : cstate :=
  match c_apply A ev st with Ok (st', _) => st' | _ => st end.

(** a history of calls to one contract of /repo/contracts/*/*/src/{contract,lib}.rs *)
Definition c_run (A : api) (st : cstate) (h : list event) : cstate := fold_left (c_step A) h st.

(** did the entry point of /repo/contracts/*/*/src/{contract,lib}.rs return [Ok]? *)
Definition accepted (A : api) (st : cstate) (ev : event) : bool := is_ok (c_apply A ev st).

(** the sender of a call ([info.sender], e.g.
    /repo/contracts/core/mailbox/src/contract.rs:51-56) *)
Definition ev_sender (ev : event) : option addr :=
  match ev with EvExec _ i _ _ => Some (i_sender i) | EvReply _ _ => None end.
(** the [msg] of a call, e.g. /repo/contracts/core/mailbox/src/contract.rs:51-56 *)
Definition ev_msg (ev : event) : option emsg :=
  match ev with EvExec _ _ m _ => Some m | EvReply _ _ => None end.

(** the accepted calls of a history, each with the state it met (entry points of
    /repo/contracts/*/*/src/{contract,lib}.rs) *)
Fixpoint accepted_calls (A : api) (st : cstate) (h : list event) : list (cstate * event) :=
  match h with
  | [] => []
  | ev :: h' =>
      (if accepted A st ev then [(st, ev)] else []) ++ accepted_calls A (c_step A st ev) h'
  end.

(** the ownership, pause, routing and connection requests among the calls (the oracle
    spells the ownership message differently):
    /repo/packages/ownable/src/lib.rs:31-60,
    /repo/contracts/igps/oracle/src/contract.rs:36-83 *)
Definition own_request (ev : event) : option ownable_msg :=
  match ev_msg ev with
  | Some (MOwnable m) | Some (MOracleOwnership m) => Some m
  | _ => None
  end.
(** /repo/packages/pausable/src/lib.rs:28-44 *)
Definition pause_request (ev : event) : option pausable_msg :=
  match ev_msg ev with Some (MPausable m) => Some m | _ => None end.
(** /repo/packages/router/src/lib.rs:35-64 *)
Definition route_updates (ev : event) : list route_set :=
  match ev_msg ev with
  | Some (MRouter (SetRoute r)) => [r]
  | Some (MRouter (SetRoutes l)) => l
  | _ => []
  end.
(** /repo/packages/connection/src/lib.rs:27-70 *)
Definition conn_request (ev : event) : option connection_msg :=
  match ev_msg ev with Some (MConnection m) => Some m | _ => None end.

(** ** What a contract answers to the shared queries *)
(** Answers nothing: for queries such as /repo/packages/ownable/src/lib.rs:120-133
    that ask nobody. *)
Definition no_querier : querier :=
  mkQuerier (fun _ _ => Err EStd) (fun _ _ => 0) (fun _ => []).
(** validates nothing; for queries such as /repo/packages/ownable/src/lib.rs:120-133 *)
Definition no_api : api := mkApi (fun _ => false) (fun _ _ _ => None).

(** the answers below do not depend on the rest of the chain, so any querier will do
    (/repo/packages/ownable/src/lib.rs:120-133) *)
Definition reported_owner (st : cstate) : option addr :=
  match c_query no_api no_querier QOwner st with Ok (ROwner a) => Some a | _ => None end.
(** /repo/packages/ownable/src/lib.rs:120-133 *)
Definition reported_pending (st : cstate) : option addr :=
  match c_query no_api no_querier QPendingOwner st with
  | Ok (RPendingOwner p) => p | _ => None end.
(** /repo/packages/pausable/src/lib.rs:66-76 *)
Definition reported_paused (st : cstate) : option bool :=
  match c_query no_api no_querier QPauseInfo st with Ok (RPaused b) => Some b | _ => None end.
(** /repo/packages/router/src/lib.rs:110-134 *)
Definition reported_route (st : cstate) (d : N) : option (option bytes) :=
  match c_query no_api no_querier (QGetRoute d) st with
  | Ok (RRoute r) => Some (rs_route r) | _ => None end.
(** /repo/packages/connection/src/lib.rs:72-88 *)
Definition reported_conn (st : cstate) (q : qmsg) : option (option addr) :=
  match c_query no_api no_querier q st with Ok (RConn a) => Some a | _ => None end.
