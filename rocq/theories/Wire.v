(** * Messages, queries and answers as JSON.

    What the [#[cw_serde]] attribute makes of the types of
    /repo/packages/interface/src: one key per variant of an enum in snake case,
    one member per field, unknown and repeated members refused, an [Option] field
    absent or [null] when it is [None].  [u8] and [u32] are JSON numbers; [u128]
    (serde-json-wasm), [Uint128] and [Uint256] are decimal strings; [HexBinary] is a
    hexadecimal string; tuples are arrays. *)
From Coq Require Import List NArith Bool.
From Verif Require Import Base OMap Coins Hex Json Chain Ownable Contracts.
Import ListNotations.

(** ** Writing and reading one type *)
(** [Serialize] and [Deserialize] of a type, and which values of the Coq type are
    values of the Rust type; /repo/packages/interface/src/lib.rs:4 *)
Record codec (A : Type) : Type := mkCodec {
  write : A -> json; read : json -> option A; fits : A -> bool }.
Arguments mkCodec {A}. Arguments write {A}. Arguments read {A}. Arguments fits {A}.

(** [String] and [Addr], e.g. /repo/packages/interface/src/core/mailbox.rs:86-94 *)
Definition string_c : codec str :=
  mkCodec JStr (fun j => match j with JStr t => Some t | _ => None end) (fun _ => true).
(** [bool], e.g. /repo/packages/interface/src/ism/mod.rs:72-75 *)
Definition bool_c : codec bool :=
  mkCodec JBool (fun j => match j with JBool b => Some b | _ => None end) (fun _ => true).
(** integers as wide as [ok] says *)
Definition int_c (ok : N -> bool) : codec N :=
  mkCodec JNum (fun j => match j with JNum n => if ok n then Some n else None | _ => None end) ok.
(** [u8] and [u32], e.g. /repo/packages/interface/src/ism/multisig.rs:24-28 *)
Definition u8_c : codec N := int_c u8_ok.
(** e.g. /repo/packages/interface/src/core/mailbox.rs:20 *)
Definition u32_c : codec N := int_c u32_ok.
(** [str::parse] of an unsigned integer: digits, a plus sign allowed before them *)
Definition parse_dec (t : str) : option N :=
  let t := match t with c :: t' => if bN c =? 43 then t' else t | [] => [] end in
  match t with
  | [] => None
  | _ => match digits 0 t with (n, []) => Some n | _ => None end
  end.
(** integers written as strings *)
Definition big_c (ok : N -> bool) : codec N :=
  mkCodec (fun n => JStr (dec n))
    (fun j => match j with
              | JStr t => match parse_dec t with Some n => if ok n then Some n else None | None => None end
              | _ => None
              end) ok.
(** [u128] and [Uint128], e.g. /repo/packages/interface/src/igp/core.rs:54 *)
Definition u128_c : codec N := big_c u128_ok.
(** [Uint256], e.g. /repo/packages/interface/src/igp/core.rs:70 *)
Definition u256_c : codec N := big_c u256_ok.
(** [HexBinary], e.g. /repo/packages/interface/src/core/mailbox.rs:21-22 *)
Definition hex_c : codec bytes :=
  mkCodec (fun b => JStr (hex_encode b))
    (fun j => match j with JStr t => match hex_decode t with Ok b => Some b | _ => None end | _ => None end)
    (fun _ => true).
(** all or nothing *)
Fixpoint all_read {A} (f : json -> option A) (l : list json) : option (list A) :=
  match l with
  | [] => Some []
  | j :: l' => match f j, all_read f l' with Some a, Some r => Some (a :: r) | _, _ => None end
  end.
(** [Vec], e.g. /repo/packages/interface/src/ism/multisig.rs:27 *)
Definition list_c {A} (c : codec A) : codec (list A) :=
  mkCodec (fun l => JArr (map (write c) l))
    (fun j => match j with JArr l => all_read (read c) l | _ => None end) (forallb (fits c)).
(** pairs, e.g. /repo/packages/interface/src/igp/core.rs:57 *)
Definition pair_c {A B} (c : codec A) (d : codec B) : codec (A * B) :=
  mkCodec (fun p => JArr [write c (fst p); write d (snd p)])
    (fun j => match j with
              | JArr [x; y] => match read c x, read d y with Some a, Some b => Some (a, b) | _, _ => None end
              | _ => None
              end) (fun p => fits c (fst p) && fits d (snd p))%bool.
(** nothing, in brackets: a variant without fields declared with parentheses,
    /repo/packages/interface/src/ism/mod.rs:53-57 *)
Definition empty_c : codec unit :=
  mkCodec (fun _ => JArr []) (fun j => match j with JArr [] => Some tt | _ => None end) (fun _ => true).
(** a value of another type, seen through [f] and [g] *)
Definition as_c {A B} (f : A -> B) (g : B -> A) (c : codec A) : codec B :=
  mkCodec (fun b => write c (g b)) (fun j => option_map f (read c j)) (fun b => fits c (g b)).

(** ** Structs *)
Record shape (A : Type) : Type := mkShape {
  names : list str; puts : A -> list (str * json); gets : (str -> option json) -> option A; sfits : A -> bool }.
Arguments mkShape {A}. Arguments names {A}. Arguments puts {A}. Arguments gets {A}. Arguments sfits {A}.
(** no (more) fields, e.g. /repo/packages/interface/src/ownable.rs:7 *)
Definition none : shape unit := mkShape [] (fun _ => []) (fun _ => Some tt) (fun _ => true).
(** a field, e.g. /repo/packages/interface/src/core/mailbox.rs:20 *)
Definition field {A B} (k : str) (c : codec A) (r : shape B) : shape (A * B) :=
  mkShape (k :: names r) (fun p => (k, write c (fst p)) :: puts r (snd p))
    (fun g => match g k with
              | Some j => match read c j, gets r g with Some a, Some b => Some (a, b) | _, _ => None end
              | None => None
              end) (fun p => fits c (fst p) && sfits r (snd p))%bool.
(** an [Option] field, e.g. /repo/packages/interface/src/core/mailbox.rs:23 *)
Definition optional {A B} (k : str) (c : codec A) (r : shape B) : shape (option A * B) :=
  mkShape (k :: names r)
    (fun p => (k, match fst p with Some a => write c a | None => JNull end) :: puts r (snd p))
    (fun g => match (match g k with
                     | None | Some JNull => Some None
                     | Some j => option_map Some (read c j)
                     end), gets r g with
              | Some a, Some b => Some (a, b)
              | _, _ => None
              end) (fun p => match fst p with Some a => fits c a | None => true end && sfits r (snd p))%bool.
(** the member called [k] *)
Fixpoint assoc {A} (k : str) (l : list (str * A)) : option A :=
  match l with [] => None | (k', a) :: l' => if bytes_eqb k k' then Some a else assoc k l' end.
(** no name twice *)
Fixpoint distinct (l : list str) : bool :=
  match l with [] => true | k :: l' => (negb (mem_bytes k l') && distinct l')%bool end.
(** [deny_unknown_fields] comes with [cw_serde]; [Coin] of cosmwasm-std is without
    it: its other members are skipped (here only if they are well-formed) *)
Definition struct_of {A} (strict : bool) (r : shape A) : codec A :=
  mkCodec (fun a => JObj (puts r a))
    (fun j => match j with
              | JObj l =>
                  let keys := map fst l in
                  if ((negb strict || forallb (fun k => mem_bytes k (names r)) keys) &&
                      distinct (filter (fun k => mem_bytes k (names r)) keys))%bool
                  then gets r (fun k => assoc k l) else None
              | _ => None
              end) (sfits r).
(** e.g. /repo/packages/interface/src/core/mailbox.rs:18-25 *)
Definition struct {A} (r : shape A) : codec A := struct_of true r.

(** ** Enums *)
Record case (A : Type) : Type := mkCase { tag : str; put : A -> option json; get : json -> option A }.
Arguments mkCase {A}. Arguments tag {A}. Arguments put {A}. Arguments get {A}.
(** a variant with what it carries, e.g. /repo/packages/interface/src/core/mailbox.rs:84 *)
Definition on {X A} (t : str) (c : codec X) (f : X -> A) (g : A -> option X) : case A :=
  mkCase t (fun a => option_map (write c) (g a)) (fun j => option_map f (read c j)).
(** an object with one member, named after the variant *)
Fixpoint write_case {A} (l : list (case A)) (a : A) : json :=
  match l with
  | [] => JNull
  | c :: l' => match put c a with Some j => JObj [(tag c, j)] | None => write_case l' a end
  end.
(** the variant called [t] *)
Fixpoint read_case {A} (l : list (case A)) (t : str) (j : json) : option A :=
  match l with [] => None | c :: l' => if bytes_eqb t (tag c) then get c j else read_case l' t j end.
(** one of [l]; of the values carried, [ok] *)
Definition enum {A} (ok : A -> bool) (l : list (case A)) : codec A :=
  mkCodec (write_case l)
    (fun j => match j with JObj [(t, b)] => read_case l t b | _ => None end)
    (fun a => existsb (fun c => match put c a with Some _ => true | None => false end) l && ok a)%bool.

(** [Coin] of cosmwasm-std, e.g. /repo/packages/interface/src/hook/fee.rs:23 *)
Definition coin_c : codec coin :=
  as_c (fun '(d, (a, _)) => mkCoin d a) (fun c => (c_denom c, (c_amount c, tt)))
    (struct_of false (field (s "denom") string_c (field (s "amount") u128_c none))).

(** ** Messages *)
(** /repo/packages/interface/src/ownable.rs:4-9 *)
Definition ownable_c : codec ownable_msg :=
  enum (fun _ => true)
    [on (s "init_ownership_transfer") (struct (field (s "next_owner") string_c none))
        (fun '(x, _) => InitOwnershipTransfer x)
        (fun m => match m with InitOwnershipTransfer x => Some (x, tt) | _ => None end);
     on (s "revoke_ownership_transfer") (struct none) (fun _ => RevokeOwnershipTransfer)
        (fun m => match m with RevokeOwnershipTransfer => Some tt | _ => None end);
     on (s "claim_ownership") (struct none) (fun _ => ClaimOwnership)
        (fun m => match m with ClaimOwnership => Some tt | _ => None end)].
(** /repo/packages/interface/src/pausable.rs:3-7 *)
Definition pausable_c : codec pausable_msg :=
  enum (fun _ => true)
    [on (s "pause") (struct none) (fun _ => Pause) (fun m => match m with Pause => Some tt | _ => None end);
     on (s "release") (struct none) (fun _ => Release) (fun m => match m with Release => Some tt | _ => None end)].
(** [T] of a router: [HexBinary] in the warp routes (/repo/packages/interface/src/warp/native.rs:58,
    warp/cw20.rs:50), [Addr] elsewhere (hook/routing.rs:20, igp/core.rs:50) *)
Definition route_c (h : bool) : codec bytes := if h then hex_c else string_c.
(** /repo/packages/interface/src/router.rs:7-11 *)
Definition route_set_c (h : bool) : codec route_set :=
  as_c (fun '(d, (r, _)) => mkRouteSet d r) (fun r => (rs_domain r, (rs_route r, tt)))
    (struct (field (s "domain") u32_c (optional (s "route") (route_c h) none))).
(** the domains of a router message; /repo/packages/interface/src/router.rs:8 *)
Definition router_fits (m : router_msg) : bool :=
  match m with SetRoute r => u32_ok (rs_domain r) | SetRoutes l => forallb (fun r => u32_ok (rs_domain r)) l end.
(** /repo/packages/interface/src/router.rs:13-17 *)
Definition router_c (h : bool) : codec router_msg :=
  enum router_fits
    [on (s "set_route") (struct (field (s "set") (route_set_c h) none)) (fun '(r, _) => SetRoute r)
        (fun m => match m with SetRoute r => Some (r, tt) | _ => None end);
     on (s "set_routes") (struct (field (s "set") (list_c (route_set_c h)) none)) (fun '(l, _) => SetRoutes l)
        (fun m => match m with SetRoutes l => Some (l, tt) | _ => None end)].
(** /repo/packages/interface/src/connection.rs:3-10 *)
Definition connection_c : codec connection_msg :=
  enum (fun _ => true)
    [on (s "set_mailbox") (struct (field (s "mailbox") string_c none)) (fun '(x, _) => SetMailbox x)
        (fun m => match m with SetMailbox x => Some (x, tt) | _ => None end);
     on (s "set_hook") (struct (field (s "hook") string_c none)) (fun '(x, _) => SetHook x)
        (fun m => match m with SetHook x => Some (x, tt) | _ => None end);
     on (s "set_ism") (struct (field (s "ism") string_c none)) (fun '(x, _) => SetIsm x)
        (fun m => match m with SetIsm x => Some (x, tt) | _ => None end)].
(** /repo/packages/interface/src/core/mailbox.rs:18-25 *)
Definition dispatch_c : codec dispatch_msg :=
  as_c (fun '(d, (r, (b, (h, (m, _))))) => mkDispatch d r b h m)
    (fun x => (d_dest x, (d_recipient x, (d_body x, (d_hook x, (d_metadata x, tt))))))
    (struct (field (s "dest_domain") u32_c (field (s "recipient_addr") hex_c (field (s "msg_body") hex_c
      (optional (s "hook") string_c (optional (s "metadata") hex_c none)))))).
(** [PostDispatchMsg], [QuoteDispatchMsg], [Process], [Verify]:
    /repo/packages/interface/src/hook/mod.rs:14-26, core/mailbox.rs:100-103, ism/mod.rs:28-31 *)
Definition meta_message_c : codec (bytes * (bytes * unit)) :=
  struct (field (s "metadata") hex_c (field (s "message") hex_c none)).
(** /repo/packages/interface/src/hook/routing_custom.rs:17-22 *)
Definition custom_hook_c : codec custom_hook :=
  as_c (fun '(d, (r, (h, _))) => mkCustomHook d r h) (fun x => (ch_dest x, (ch_recipient x, (ch_hook x, tt))))
    (struct (field (s "dest_domain") u32_c (field (s "recipient") string_c (field (s "hook") string_c none)))).
(** /repo/packages/interface/src/hook/routing_custom.rs:24-28 *)
Definition clear_hook_c : codec (N * str) :=
  as_c (fun '(d, (r, _)) => (d, r)) (fun p => (fst p, (snd p, tt)))
    (struct (field (s "dest_domain") u32_c (field (s "recipient") string_c none))).
(** /repo/packages/interface/src/igp/oracle.rs:11-16 *)
Definition gas_config_c : codec gas_config :=
  as_c (fun '(d, (r, (p, _))) => mkGasConfig d r p) (fun x => (gc_domain x, (gc_rate x, (gc_price x, tt))))
    (struct (field (s "remote_domain") u32_c (field (s "token_exchange_rate") u128_c (field (s "gas_price") u128_c none)))).

(** [Ownable(OwnableMsg)], e.g. /repo/packages/interface/src/core/mailbox.rs:84 *)
Definition e_ownable : case emsg :=
  on (s "ownable") ownable_c MOwnable (fun m => match m with MOwnable x => Some x | _ => None end).
(** [Pausable(PausableMsg)], e.g. /repo/packages/interface/src/ism/pausable.rs:19 *)
Definition e_pausable : case emsg :=
  on (s "pausable") pausable_c MPausable (fun m => match m with MPausable x => Some x | _ => None end).
(** [Router(RouterMsg<T>)], e.g. /repo/packages/interface/src/hook/routing.rs:20 *)
Definition e_router (h : bool) : case emsg :=
  on (s "router") (router_c h) MRouter (fun m => match m with MRouter x => Some x | _ => None end).
(** [Connection(ConnectionMsg)], e.g. /repo/packages/interface/src/warp/native.rs:59 *)
Definition e_connection : case emsg :=
  on (s "connection") connection_c MConnection (fun m => match m with MConnection x => Some x | _ => None end).
(** [PostDispatch(PostDispatchMsg)], /repo/packages/interface/src/hook/mod.rs:43-47 *)
Definition e_post_dispatch : case emsg :=
  on (s "post_dispatch") meta_message_c (fun '(a, (b, _)) => MPostDispatch a b)
    (fun m => match m with MPostDispatch a b => Some (a, (b, tt)) | _ => None end).
(** [Handle(HandleMsg)], /repo/packages/interface/src/core/mod.rs:7-24 *)
Definition e_handle : case emsg :=
  on (s "handle") (struct (field (s "origin") u32_c (field (s "sender") hex_c (field (s "body") hex_c none))))
    (fun '(a, (b, (c, _))) => MHandle a b c)
    (fun m => match m with MHandle a b c => Some (a, (b, (c, tt))) | _ => None end).

(** /repo/packages/interface/src/core/mailbox.rs:81-104 *)
Definition mailbox_cases : list (case emsg) :=
  [e_ownable;
   on (s "set_default_ism") (struct (field (s "ism") string_c none)) (fun '(x, _) => MSetDefaultIsm x)
     (fun m => match m with MSetDefaultIsm x => Some (x, tt) | _ => None end);
   on (s "set_default_hook") (struct (field (s "hook") string_c none)) (fun '(x, _) => MSetDefaultHook x)
     (fun m => match m with MSetDefaultHook x => Some (x, tt) | _ => None end);
   on (s "set_required_hook") (struct (field (s "hook") string_c none)) (fun '(x, _) => MSetRequiredHook x)
     (fun m => match m with MSetRequiredHook x => Some (x, tt) | _ => None end);
   on (s "dispatch") dispatch_c MDispatch (fun m => match m with MDispatch x => Some x | _ => None end);
   on (s "process") meta_message_c (fun '(a, (b, _)) => MProcess a b)
     (fun m => match m with MProcess a b => Some (a, (b, tt)) | _ => None end)].
(** /repo/packages/interface/src/core/va.rs:11-17 *)
Definition va_cases : list (case emsg) :=
  [on (s "announce")
     (struct (field (s "validator") hex_c (field (s "signature") hex_c (field (s "storage_location") string_c none))))
     (fun '(a, (b, (c, _))) => MAnnounce a b c)
     (fun m => match m with MAnnounce a b c => Some (a, (b, (c, tt))) | _ => None end)].
(** /repo/packages/interface/src/ism/multisig.rs:22-33 *)
Definition multisig_cases : list (case emsg) :=
  [e_ownable;
   on (s "set_validators")
     (struct (field (s "domain") u32_c (field (s "threshold") u8_c (field (s "validators") (list_c hex_c) none))))
     (fun '(a, (b, (c, _))) => MSetValidators a b c)
     (fun m => match m with MSetValidators a b c => Some (a, (b, (c, tt))) | _ => None end);
   on (s "unset_domain") (struct (field (s "domain") u32_c none)) (fun '(x, _) => MUnsetDomain x)
     (fun m => match m with MUnsetDomain x => Some (x, tt) | _ => None end)].
(** /repo/packages/interface/src/ism/aggregate.rs:15-19 *)
Definition agg_ism_cases : list (case emsg) :=
  [e_ownable;
   on (s "set_isms") (struct (field (s "isms") (list_c string_c) (field (s "threshold") u8_c none)))
     (fun '(a, (b, _)) => MSetIsms a b)
     (fun m => match m with MSetIsms a b => Some (a, (b, tt)) | _ => None end)].
(** /repo/packages/interface/src/ism/routing.rs:11-28 *)
Definition routing_ism_cases : list (case emsg) :=
  [e_ownable;
   on (s "set") (struct (field (s "ism") (struct (field (s "domain") u32_c (field (s "address") string_c none))) none))
     (fun '((a, (b, _)), _) => MRoutingSet a b)
     (fun m => match m with MRoutingSet a b => Some ((a, (b, tt)), tt) | _ => None end);
   on (s "unset") (struct (field (s "domains") (list_c u32_c) none)) (fun '(x, _) => MRoutingUnset x)
     (fun m => match m with MRoutingUnset x => Some (x, tt) | _ => None end)].
(** /repo/packages/interface/src/ism/pausable.rs:17-20 *)
Definition pausable_ism_cases : list (case emsg) := [e_ownable; e_pausable].
(** /repo/packages/interface/src/hook/merkle.rs:14-16 *)
Definition merkle_cases : list (case emsg) := [e_post_dispatch].
(** /repo/packages/interface/src/hook/aggregate.rs:16-20 *)
Definition agg_hook_cases : list (case emsg) :=
  [e_ownable; e_post_dispatch;
   on (s "set_hooks") (struct (field (s "hooks") (list_c string_c) none)) (fun '(x, _) => MSetHooks x)
     (fun m => match m with MSetHooks x => Some (x, tt) | _ => None end)].
(** /repo/packages/interface/src/hook/pausable.rs:17-21 *)
Definition pausable_hook_cases : list (case emsg) := [e_ownable; e_pausable; e_post_dispatch].
(** /repo/packages/interface/src/hook/routing.rs:17-21 *)
Definition routing_hook_cases : list (case emsg) := [e_ownable; e_post_dispatch; e_router false].
(** /repo/packages/interface/src/hook/routing_custom.rs:31-41 *)
Definition custom_hook_cases : list (case emsg) :=
  [e_ownable; e_post_dispatch; e_router false;
   on (s "register_custom_hook") custom_hook_c MRegisterCustomHook
     (fun m => match m with MRegisterCustomHook x => Some x | _ => None end);
   on (s "register_custom_hooks") (list_c custom_hook_c) MRegisterCustomHooks
     (fun m => match m with MRegisterCustomHooks x => Some x | _ => None end);
   on (s "clear_custom_hook") clear_hook_c (fun p => MClearCustomHook (fst p) (snd p))
     (fun m => match m with MClearCustomHook a b => Some (a, b) | _ => None end);
   on (s "clear_custom_hooks") (list_c clear_hook_c) MClearCustomHooks
     (fun m => match m with MClearCustomHooks x => Some x | _ => None end)].
(** /repo/packages/interface/src/hook/routing_fallback.rs:17-23 *)
Definition fallback_hook_cases : list (case emsg) :=
  [e_ownable; e_post_dispatch; e_router false;
   on (s "set_fallback_hook") (struct (field (s "hook") string_c none)) (fun '(x, _) => MSetFallbackHook x)
     (fun m => match m with MSetFallbackHook x => Some (x, tt) | _ => None end)].
(** /repo/packages/interface/src/hook/fee.rs:23-27; the two messages are told apart from
    others' by the tag around them *)
Definition fee_cases : list (case emsg) :=
  [on (s "set_fee") (struct (field (s "fee") coin_c none)) (fun '(x, _) => MSetFee x)
     (fun m => match m with MSetFee x => Some (x, tt) | _ => None end);
   on (s "claim") (struct (optional (s "recipient") string_c none)) (fun '(x, _) => MFeeClaim x)
     (fun m => match m with MFeeClaim x => Some (x, tt) | _ => None end)].
(** the cases under a tag; e.g. /repo/packages/interface/src/hook/fee.rs:20 *)
Definition under {A} (ok : A -> bool) (t : str) (l : list (case A)) : case A :=
  on t (enum ok l) (fun a => a)
    (fun a => if existsb (fun c => match put c a with Some _ => true | None => false end) l then Some a else None).
(** /repo/packages/interface/src/hook/fee.rs:17-21 *)
Definition fee_hook_cases : list (case emsg) :=
  [e_ownable; e_post_dispatch; under emsg_ok (s "fee_hook") fee_cases].
(** /repo/packages/interface/src/igp/oracle.rs:19-26 *)
Definition oracle_cases : list (case emsg) :=
  [on (s "ownership") ownable_c MOracleOwnership (fun m => match m with MOracleOwnership x => Some x | _ => None end);
   on (s "set_remote_gas_data_configs") (struct (field (s "configs") (list_c gas_config_c) none))
     (fun '(x, _) => MSetRemoteGasDataConfigs x)
     (fun m => match m with MSetRemoteGasDataConfigs x => Some (x, tt) | _ => None end);
   on (s "set_remote_gas_data") (struct (field (s "config") gas_config_c none)) (fun '(x, _) => MSetRemoteGasData x)
     (fun m => match m with MSetRemoteGasData x => Some (x, tt) | _ => None end)].
(** /repo/packages/interface/src/igp/core.rs:47-74 *)
Definition igp_cases : list (case emsg) :=
  [e_ownable; e_router false; e_post_dispatch;
   on (s "set_default_gas") (struct (field (s "gas") u128_c none)) (fun '(x, _) => MSetDefaultGas x)
     (fun m => match m with MSetDefaultGas x => Some (x, tt) | _ => None end);
   on (s "set_gas_for_domain") (struct (field (s "config") (list_c (pair_c u32_c u128_c)) none))
     (fun '(x, _) => MSetGasForDomain x)
     (fun m => match m with MSetGasForDomain x => Some (x, tt) | _ => None end);
   on (s "unset_gas_for_domain") (struct (field (s "domains") (list_c u32_c) none))
     (fun '(x, _) => MUnsetGasForDomain x)
     (fun m => match m with MUnsetGasForDomain x => Some (x, tt) | _ => None end);
   on (s "set_beneficiary") (struct (field (s "beneficiary") string_c none)) (fun '(x, _) => MSetBeneficiary x)
     (fun m => match m with MSetBeneficiary x => Some (x, tt) | _ => None end);
   on (s "pay_for_gas")
     (struct (field (s "message_id") hex_c (field (s "dest_domain") u32_c (field (s "gas_amount") u256_c
       (field (s "refund_address") string_c none)))))
     (fun '(a, (b, (c, (d, _)))) => MPayForGas a b c d)
     (fun m => match m with MPayForGas a b c d => Some (a, (b, (c, (d, tt)))) | _ => None end);
   on (s "claim") (struct none) (fun _ => MClaim) (fun m => match m with MClaim => Some tt | _ => None end)].
(** /repo/packages/interface/src/warp/native.rs:56-72, warp/cw20.rs:48-64 *)
Definition warp_cases : list (case emsg) :=
  [e_ownable; e_router true; e_connection; e_handle;
   on (s "transfer_remote")
     (struct (field (s "dest_domain") u32_c (field (s "recipient") hex_c (field (s "amount") u128_c
       (optional (s "hook") string_c (optional (s "metadata") hex_c none))))))
     (fun '(a, (b, (c, (d, (e, _))))) => MTransferRemote a b c d e)
     (fun m => match m with MTransferRemote a b c d e => Some (a, (b, (c, (d, (e, tt))))) | _ => None end)].
(** [Option<Expiration>] of cw20 1.1: only [null] is modelled (Cw20.v);
    the token of /repo/contracts/warp/cw20/src/contract.rs:52-66 *)
Definition never_c : codec unit := mkCodec (fun _ => JNull) (fun _ => None) (fun _ => false).
(** what Cw20.v has of [Cw20ExecuteMsg] of cw20 1.1, sent at
    /repo/contracts/warp/cw20/src/conv.rs:8-40 *)
Definition cw20_cases : list (case emsg) :=
  [on (s "transfer") (struct (field (s "recipient") string_c (field (s "amount") u128_c none)))
     (fun '(a, (b, _)) => MCw20Transfer a b)
     (fun m => match m with MCw20Transfer a b => Some (a, (b, tt)) | _ => None end);
   on (s "transfer_from")
     (struct (field (s "owner") string_c (field (s "recipient") string_c (field (s "amount") u128_c none))))
     (fun '(a, (b, (c, _))) => MCw20TransferFrom a b c)
     (fun m => match m with MCw20TransferFrom a b c => Some (a, (b, (c, tt))) | _ => None end);
   on (s "burn") (struct (field (s "amount") u128_c none)) (fun '(x, _) => MCw20Burn x)
     (fun m => match m with MCw20Burn x => Some (x, tt) | _ => None end);
   on (s "mint") (struct (field (s "recipient") string_c (field (s "amount") u128_c none)))
     (fun '(a, (b, _)) => MCw20Mint a b)
     (fun m => match m with MCw20Mint a b => Some (a, (b, tt)) | _ => None end);
   on (s "increase_allowance")
     (struct (field (s "spender") string_c (field (s "amount") u128_c (optional (s "expires") never_c none))))
     (fun '(a, (b, _)) => MCw20IncreaseAllowance a b)
     (fun m => match m with MCw20IncreaseAllowance a b => Some (a, (b, (None, tt))) | _ => None end);
   on (s "decrease_allowance")
     (struct (field (s "spender") string_c (field (s "amount") u128_c (optional (s "expires") never_c none))))
     (fun '(a, (b, _)) => MCw20DecreaseAllowance a b)
     (fun m => match m with MCw20DecreaseAllowance a b => Some (a, (b, (None, tt))) | _ => None end);
   on (s "burn_from") (struct (field (s "owner") string_c (field (s "amount") u128_c none)))
     (fun '(a, (b, _)) => MCw20BurnFrom a b)
     (fun m => match m with MCw20BurnFrom a b => Some (a, (b, tt)) | _ => None end);
   on (s "update_minter") (struct (optional (s "new_minter") string_c none))
     (fun '(a, _) => MCw20UpdateMinter a)
     (fun m => match m with MCw20UpdateMinter a => Some (a, tt) | _ => None end)].

(** the crates of /repo/contracts and cw20-base *)
Inductive program :=
| PMailbox | PVa | PMultisig | PAggIsm | PRoutingIsm | PPausableIsm | PMerkle | PAggHook | PPausableHook
| PRoutingHook | PCustomHook | PFallbackHook | PFeeHook | POracle | PIgp | PWarpNative | PWarpCw20 | PCw20.
(** which program a contract runs; /repo/contracts/*/*/src/contract.rs, lib.rs *)
Definition program_of (st : cstate) : program :=
  match st with
  | SMailbox _ => PMailbox | SVa _ => PVa | SMultisig _ => PMultisig | SAggIsm _ => PAggIsm
  | SRoutingIsm _ => PRoutingIsm | SPausableIsm _ => PPausableIsm | SMerkle _ => PMerkle | SAggHook _ => PAggHook
  | SPausableHook _ => PPausableHook | SRoutingHook _ => PRoutingHook | SCustomHook _ => PCustomHook
  | SFallbackHook _ => PFallbackHook | SFeeHook _ => PFeeHook | SOracle _ => POracle | SIgp _ => PIgp
  | SWarpNative _ => PWarpNative | SWarpCw20 _ => PWarpCw20 | SCw20 _ => PCw20
  end.
(** [ExecuteMsg] of each: the files above *)
Definition exec_cases (p : program) : list (case emsg) :=
  match p with
  | PMailbox => mailbox_cases | PVa => va_cases | PMultisig => multisig_cases | PAggIsm => agg_ism_cases
  | PRoutingIsm => routing_ism_cases | PPausableIsm => pausable_ism_cases | PMerkle => merkle_cases
  | PAggHook => agg_hook_cases | PPausableHook => pausable_hook_cases | PRoutingHook => routing_hook_cases
  | PCustomHook => custom_hook_cases | PFallbackHook => fallback_hook_cases | PFeeHook => fee_hook_cases
  | POracle => oracle_cases | PIgp => igp_cases | PWarpNative | PWarpCw20 => warp_cases | PCw20 => cw20_cases
  end.
(** [from_json::<ExecuteMsg>] before /repo/contracts/*/*/src/contract.rs's [execute] *)
Definition exec_c (p : program) : codec emsg := enum emsg_ok (exec_cases p).
(** a text sent to a contract *)
Definition read_exec (p : program) (t : str) : option emsg :=
  match parse t with Some j => read (exec_c p) j | None => None end.
(** [wasm_execute(.., &ExecuteMsg, ..)], e.g. /repo/packages/interface/src/core/mailbox.rs:115-127 *)
Definition write_exec (p : program) (m : emsg) : str := text (write (exec_c p) m).
