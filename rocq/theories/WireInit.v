(** * Instantiation messages as JSON.

    [InstantiateMsg] of every contract, member by member, and the message a cw20 warp
    route sends to create its token. *)
From Coq Require Import List NArith Bool.
From Verif Require Import Base OMap Coins Hex Json Chain Ownable Warp Contracts Wire WireQuery.
Import ListNotations.

(** ** cw20-base *)
(** [InstantiateMarketingInfo] of cw20-base 1.1.2 (/repo/Cargo.toml:55); of [Logo] only
    [Url]: pictures within the message are not modelled *)
Record marketing : Type := mkMarketing {
  mk_project : option str; mk_description : option str; mk_marketing : option str; mk_logo : option str }.
(** [InstantiateMsg] of cw20-base 1.1.2, /repo/packages/interface/src/warp/cw20.rs:14 *)
Record token_init : Type := mkTokenInit {
  ti_name : str; ti_symbol : str; ti_decimals : N; ti_balances : list (addr * N);
  ti_mint : option (addr * option N); ti_marketing : option marketing }.
(** /repo/packages/interface/src/warp/cw20.rs:27-36, in /repo/packages/interface/src/warp/mod.rs:22-26 *)
Inductive cw20_choice := ChNew (code : N) (x : token_init) | ChOld (token : addr).

(** ** What an instantiation message says *)
(** an [imsg] has all of the message, except for the validator announce's prefix, which
    it does not use (/repo/packages/interface/src/core/va.rs:5-8, /repo/contracts/core/va/src/contract.rs:27-55),
    and the token a cw20 warp route is to create (/repo/packages/interface/src/warp/cw20.rs:38-45) *)
Inductive birth :=
| BPlain (m : imsg)
| BVa (hrp mailbox : str)
| BWarp (t : cw20_choice) (hrp owner mailbox : str).
(** what Contracts.v has of it *)
Definition meant (b : birth) : imsg :=
  match b with
  | BPlain m => m
  | BVa _ mb => IVa mb
  | BWarp (ChNew _ x) h o mb => IWarpCw20 (CtBridged (ti_balances x)) h o mb
  | BWarp (ChOld a) h o mb => IWarpCw20 (CtCollateral a) h o mb
  end.

(** ** Types *)
(** [u64], /repo/packages/interface/src/warp/cw20.rs:29 *)
Definition u64_ok (n : N) : bool := n <? u64_max.
(** e.g. /repo/packages/interface/src/warp/cw20.rs:29 *)
Definition u64_c : codec N := int_c u64_ok.
(** [u32] through [as_str], /repo/packages/interface/src/warp/native.rs:17-21, 89-113 *)
Definition str32_c : codec N := big_c u32_ok.
(** /repo/packages/interface/src/warp/native.rs:14-23 *)
Definition unit_c : codec denom_unit :=
  as_c (fun '(d, (x, (l, _))) => mkUnit d x l) (fun u => (du_denom u, (du_exponent u, (du_aliases u, tt))))
    (struct (field (s "denom") string_c (field (s "exponent") str32_c (field (s "aliases") (list_c string_c) none)))).
(** /repo/packages/interface/src/warp/native.rs:25-33 *)
Definition metadata_c : codec denom_metadata :=
  as_c (fun '(d, (l, (b, (y, (n, (z, _)))))) => mkMetadata d l b y n z)
    (fun m => (md_description m, (md_units m, (md_base m, (md_display m, (md_name m, (md_symbol m, tt)))))))
    (struct (field (s "description") string_c (field (s "denom_units") (list_c unit_c) (field (s "base") string_c
      (field (s "display") string_c (field (s "name") string_c (field (s "symbol") string_c none))))))).
(** /repo/packages/interface/src/warp/native.rs:35-44, warp/mod.rs:22-26 *)
Definition native_token_c : codec native_token :=
  enum (fun t => match t with NtBridged _ (Some md) => fits metadata_c md | _ => true end)
    [on (s "bridged") (struct (field (s "denom") string_c (optional (s "metadata") metadata_c none)))
        (fun '(d, (m, _)) => NtBridged d m) (fun t => match t with NtBridged d m => Some (d, (m, tt)) | _ => None end);
     on (s "collateral") (struct (field (s "denom") string_c none))
        (fun '(d, _) => NtCollateral d) (fun t => match t with NtCollateral d => Some (d, tt) | _ => None end)].
(** [Cw20Coin] of cw20 1.1.2, used by /repo/packages/interface/src/warp/cw20.rs:14 *)
Definition balance_c : codec (addr * N) :=
  as_c (fun '(a, (n, _)) => (a, n)) (fun p => (fst p, (snd p, tt)))
    (struct (field (s "address") string_c (field (s "amount") u128_c none))).
(** [MinterResponse] of cw20 1.1.2, used at /repo/contracts/warp/cw20/src/contract.rs:51-54 *)
Definition minter_c : codec (addr * option N) :=
  as_c (fun '(a, (n, _)) => (a, n)) (fun p => (fst p, (snd p, tt)))
    (struct (field (s "minter") string_c (optional (s "cap") u128_c none))).
(** [Logo] of cw20 1.1.2 (/repo/Cargo.toml:54) *)
Definition logo_c : codec str := enum (fun _ => true) [on (s "url") string_c (fun x => x) (fun x => Some x)].
(** cw20-base 1.1.2 (/repo/Cargo.toml:55) *)
Definition marketing_c : codec marketing :=
  as_c (fun '(p, (d, (m, (l, _)))) => mkMarketing p d m l)
    (fun x => (mk_project x, (mk_description x, (mk_marketing x, (mk_logo x, tt)))))
    (struct (optional (s "project") string_c (optional (s "description") string_c (optional (s "marketing") string_c
      (optional (s "logo") logo_c none))))).
(** cw20-base 1.1.2 (/repo/packages/interface/src/warp/cw20.rs:14) *)
Definition token_init_c : codec token_init :=
  as_c (fun '(n, (y, (d, (l, (m, (k, _)))))) => mkTokenInit n y d l m k)
    (fun x => (ti_name x, (ti_symbol x, (ti_decimals x, (ti_balances x, (ti_mint x, (ti_marketing x, tt)))))))
    (struct (field (s "name") string_c (field (s "symbol") string_c (field (s "decimals") u8_c
      (field (s "initial_balances") (list_c balance_c) (optional (s "mint") minter_c (optional (s "marketing") marketing_c none))))))).
(** /repo/packages/interface/src/warp/cw20.rs:27-36, warp/mod.rs:22-26 *)
Definition cw20_choice_c : codec cw20_choice :=
  enum (fun t => match t with ChNew n x => (u64_ok n && fits token_init_c x)%bool | _ => true end)
    [on (s "bridged") (struct (field (s "code_id") u64_c (field (s "init_msg") token_init_c none)))
        (fun '(n, (x, _)) => ChNew n x) (fun t => match t with ChNew n x => Some (n, (x, tt)) | _ => None end);
     on (s "collateral") (struct (field (s "address") string_c none))
        (fun '(a, _) => ChOld a) (fun t => match t with ChOld a => Some (a, tt) | _ => None end)].
(** /repo/packages/interface/src/ism/routing.rs:11-15 *)
Definition ism_set_c : codec (N * str) :=
  as_c (fun '(d, (a, _)) => (d, a)) (fun p => (fst p, (snd p, tt)))
    (struct (field (s "domain") u32_c (field (s "address") string_c none))).

(** ** Messages; paths are under /repo/packages/interface/src *)
(** [{ owner }]: ism/multisig.rs:11-13, hook/routing.rs:12-14, routing_custom.rs:13-15,
    routing_fallback.rs:12-14, igp/oracle.rs:7-9 *)
Definition owned_c (f : str -> imsg) (g : imsg -> option str) : codec birth :=
  ans (struct (field (s "owner") string_c none)) (fun '(o, _) => BPlain (f o))
    (fun b => match b with BPlain m => option_map (fun o => (o, tt)) (g m) | _ => None end).
(** [{ owner, paused }]: ism/pausable.rs:11-14, hook/pausable.rs:11-14 *)
Definition pausing_c (f : str -> bool -> imsg) (g : imsg -> option (str * bool)) : codec birth :=
  ans (struct (field (s "owner") string_c (field (s "paused") bool_c none))) (fun '(o, (p, _)) => BPlain (f o p))
    (fun b => match b with BPlain m => option_map (fun q => (fst q, (snd q, tt))) (g m) | _ => None end).
(** [InstantiateMsg] of each contract: core/mailbox.rs:12-16, core/va.rs:5-8,
    ism/multisig.rs:11-13, ism/aggregate.rs:8-12, ism/routing.rs:17-20, ism/pausable.rs:11-14,
    hook/merkle.rs:9-11, hook/aggregate.rs:10-13, hook/pausable.rs:11-14, hook/routing.rs:12-14,
    hook/routing_custom.rs:13-15, hook/routing_fallback.rs:12-14, hook/fee.rs:11-14,
    igp/oracle.rs:7-9, igp/core.rs:14-20, warp/native.rs:46-53, warp/cw20.rs:38-45 *)
Definition init_c (p : program) : codec birth :=
  match p with
  | PMailbox =>
      ans (struct (field (s "hrp") string_c (field (s "owner") string_c (field (s "domain") u32_c none))))
        (fun '(h, (o, (d, _))) => BPlain (IMailbox h o d))
        (fun b => match b with BPlain (IMailbox h o d) => Some (h, (o, (d, tt))) | _ => None end)
  | PVa =>
      ans (struct (field (s "hrp") string_c (field (s "mailbox") string_c none)))
        (fun '(h, (m, _)) => BVa h m) (fun b => match b with BVa h m => Some (h, (m, tt)) | _ => None end)
  | PMultisig => owned_c IMultisig (fun m => match m with IMultisig o => Some o | _ => None end)
  | PAggIsm =>
      ans (struct (field (s "owner") string_c (field (s "isms") (list_c string_c) (field (s "threshold") u8_c none))))
        (fun '(o, (l, (t, _))) => BPlain (IAggIsm o l t))
        (fun b => match b with BPlain (IAggIsm o l t) => Some (o, (l, (t, tt))) | _ => None end)
  | PRoutingIsm =>
      ans (struct (field (s "owner") string_c (field (s "isms") (list_c ism_set_c) none)))
        (fun '(o, (l, _)) => BPlain (IRoutingIsm o l))
        (fun b => match b with BPlain (IRoutingIsm o l) => Some (o, (l, tt)) | _ => None end)
  | PPausableIsm => pausing_c IPausableIsm (fun m => match m with IPausableIsm o p => Some (o, p) | _ => None end)
  | PMerkle =>
      ans (struct (field (s "mailbox") string_c none)) (fun '(m, _) => BPlain (IMerkle m))
        (fun b => match b with BPlain (IMerkle m) => Some (m, tt) | _ => None end)
  | PAggHook =>
      ans (struct (field (s "owner") string_c (field (s "hooks") (list_c string_c) none)))
        (fun '(o, (l, _)) => BPlain (IAggHook o l))
        (fun b => match b with BPlain (IAggHook o l) => Some (o, (l, tt)) | _ => None end)
  | PPausableHook => pausing_c IPausableHook (fun m => match m with IPausableHook o p => Some (o, p) | _ => None end)
  | PRoutingHook => owned_c IRoutingHook (fun m => match m with IRoutingHook o => Some o | _ => None end)
  | PCustomHook => owned_c ICustomHook (fun m => match m with ICustomHook o => Some o | _ => None end)
  | PFallbackHook => owned_c IFallbackHook (fun m => match m with IFallbackHook o => Some o | _ => None end)
  | PFeeHook =>
      ans (struct (field (s "owner") string_c (field (s "fee") coin_c none)))
        (fun '(o, (c, _)) => BPlain (IFeeHook o c))
        (fun b => match b with BPlain (IFeeHook o c) => Some (o, (c, tt)) | _ => None end)
  | POracle => owned_c IOracle (fun m => match m with IOracle o => Some o | _ => None end)
  | PIgp =>
      ans (struct (field (s "hrp") string_c (field (s "owner") string_c (field (s "gas_token") string_c
            (field (s "beneficiary") string_c (field (s "default_gas_usage") u128_c none))))))
        (fun '(h, (o, (t, (b, (g, _))))) => BPlain (IIgp h o t b g))
        (fun b => match b with BPlain (IIgp h o t c g) => Some (h, (o, (t, (c, (g, tt))))) | _ => None end)
  | PWarpNative =>
      ans (struct (field (s "token") native_token_c (field (s "hrp") string_c (field (s "owner") string_c (field (s "mailbox") string_c none)))))
        (fun '(t, (h, (o, (m, _)))) => BPlain (IWarpNative t h o m))
        (fun b => match b with BPlain (IWarpNative t h o m) => Some (t, (h, (o, (m, tt)))) | _ => None end)
  | PWarpCw20 =>
      ans (struct (field (s "token") cw20_choice_c (field (s "hrp") string_c (field (s "owner") string_c (field (s "mailbox") string_c none)))))
        (fun '(t, (h, (o, (m, _)))) => BWarp t h o m)
        (fun b => match b with BWarp t h o m => Some (t, (h, (o, (m, tt)))) | _ => None end)
  | PCw20 => mkCodec (fun _ => JNull) (fun _ => None) (fun _ => false)
  end.
(** [from_json::<InstantiateMsg>] before /repo/contracts/*/*/src/{contract,lib}.rs's [instantiate];
    the token, which is not in /repo, has [read_token] *)
Definition read_init (p : program) (t : str) : option birth :=
  match parse t with Some j => read (init_c p) j | None => None end.
(** as the deployer's tools write it, /repo/packages/interface/src/*/*.rs *)
Definition write_init (p : program) (b : birth) : str := text (write (init_c p) b).

(** [instantiate] called with a text, /repo/contracts/*/*/src/{contract,lib}.rs; a text that cannot be read
    is refused *)
Definition init_json (A : api) (q : querier) (e : env) (i : info) (p : program) (t : str) : res (cstate * response) :=
  match read_init p t with Some b => c_instantiate A q e i (meant b) | None => Err EParse end.

(** ** The token of a cw20 warp route *)
(** [WasmMsg::Instantiate] without its funds, /repo/contracts/warp/cw20/src/contract.rs:57-63 *)
Record token_order : Type := mkOrder { od_admin : option addr; od_code : N; od_text : str; od_label : str }.
(** /repo/contracts/warp/cw20/src/contract.rs:48-66 *)
Definition order_token (e : env) (code : N) (x : token_init) : token_order :=
  let y := mkTokenInit (ti_name x) (ti_symbol x) (ti_decimals x) (ti_balances x) (Some (e_contract e, None)) (ti_marketing x) in
  mkOrder (Some (e_contract e)) code (text (write token_init_c y)) (s "token warp cw20").
(** [from_json::<InstantiateMsg>] of cw20-base 1.1.2, started by /repo/contracts/warp/cw20/src/contract.rs:57 *)
Definition read_token (t : str) : option token_init :=
  match parse t with Some j => read token_init_c j | None => None end.
(** what Cw20.v has of it; a cap on the supply, which no warp route sets
    (/repo/contracts/warp/cw20/src/contract.rs:53), is not modelled *)
Definition token_meant (x : token_init) : option imsg :=
  match ti_mint x with
  | Some (_, Some _) => None
  | Some (a, None) => Some (ICw20 (Some a) (ti_balances x))
  | None => Some (ICw20 None (ti_balances x))
  end.
