(** * The texts of instantiation messages, spelled out.

    As SpecWire.v, for what a deployer sends; nothing here uses the tables of WireInit.v. *)
From Coq Require Import List NArith Bool String.
From Verif Require Import Base Hex Coins Json Chain Ownable Warp Contracts SpecWire WireInit.
Import ListNotations.
Open Scope list_scope.
Open Scope N_scope.

(** warp/native.rs:14-23; the exponent is a number in quotes *)
Definition unit_text (u : denom_unit) : str :=
  braces [is "denom" (quoted (du_denom u)); is "exponent" (big (du_exponent u)); is "aliases" (brackets (map quoted (du_aliases u)))].
(** warp/native.rs:25-33 *)
Definition metadata_text (m : denom_metadata) : str :=
  braces [is "description" (quoted (md_description m)); is "denom_units" (brackets (map unit_text (md_units m)));
          is "base" (quoted (md_base m)); is "display" (quoted (md_display m)); is "name" (quoted (md_name m)); is "symbol" (quoted (md_symbol m))].
(** cw20 and cw20-base *)
Definition balance_text (p : addr * N) : str := braces [is "address" (quoted (fst p)); is "amount" (big (snd p))].
Definition minter_text (p : addr * option N) : str := braces [is "minter" (quoted (fst p)); is "cap" (or_null big (snd p))].
Definition marketing_text (x : marketing) : str :=
  braces [is "project" (or_null quoted (mk_project x)); is "description" (or_null quoted (mk_description x));
          is "marketing" (or_null quoted (mk_marketing x)); is "logo" (or_null (fun u => variant "url" (quoted u)) (mk_logo x))].
Definition token_init_text (x : token_init) : str :=
  braces [is "name" (quoted (ti_name x)); is "symbol" (quoted (ti_symbol x)); is "decimals" (dec (ti_decimals x));
          is "initial_balances" (brackets (map balance_text (ti_balances x))); is "mint" (or_null minter_text (ti_mint x));
          is "marketing" (or_null marketing_text (ti_marketing x))].

(** the four members of a warp route: warp/native.rs:46-53, warp/cw20.rs:38-45 *)
Definition route_init_text (t : str) (hrp owner mailbox : str) : str :=
  braces [is "token" t; is "hrp" (quoted hrp); is "owner" (quoted owner); is "mailbox" (quoted mailbox)].
(** the [InstantiateMsg] structs *)
Definition birth_text (b : birth) : str :=
  match b with
  | BPlain (IMailbox h o d) => braces [is "hrp" (quoted h); is "owner" (quoted o); is "domain" (dec d)]
  | BPlain (IMultisig o) | BPlain (IRoutingHook o) | BPlain (ICustomHook o) | BPlain (IFallbackHook o) | BPlain (IOracle o) =>
      braces [is "owner" (quoted o)]
  | BPlain (IAggIsm o l t) => braces [is "owner" (quoted o); is "isms" (brackets (map quoted l)); is "threshold" (dec t)]
  | BPlain (IRoutingIsm o l) =>
      braces [is "owner" (quoted o);
              is "isms" (brackets (map (fun p => braces [is "domain" (dec (fst p)); is "address" (quoted (snd p))]) l))]
  | BPlain (IPausableIsm o p) | BPlain (IPausableHook o p) => braces [is "owner" (quoted o); is "paused" (truth p)]
  | BPlain (IMerkle m) => braces [is "mailbox" (quoted m)]
  | BPlain (IAggHook o l) => braces [is "owner" (quoted o); is "hooks" (brackets (map quoted l))]
  | BPlain (IFeeHook o c) => braces [is "owner" (quoted o); is "fee" (coin_text c)]
  | BPlain (IIgp h o t c g) =>
      braces [is "hrp" (quoted h); is "owner" (quoted o); is "gas_token" (quoted t); is "beneficiary" (quoted c);
              is "default_gas_usage" (big g)]
  | BPlain (IWarpNative (NtBridged d md) h o m) =>
      route_init_text (variant "bridged" (braces [is "denom" (quoted d); is "metadata" (or_null metadata_text md)])) h o m
  | BPlain (IWarpNative (NtCollateral d) h o m) => route_init_text (variant "collateral" (braces [is "denom" (quoted d)])) h o m
  | BPlain _ => []
  | BVa h m => braces [is "hrp" (quoted h); is "mailbox" (quoted m)]
  | BWarp (ChNew n x) h o m =>
      route_init_text (variant "bridged" (braces [is "code_id" (dec n); is "init_msg" (token_init_text x)])) h o m
  | BWarp (ChOld a) h o m => route_init_text (variant "collateral" (braces [is "address" (quoted a)])) h o m
  end.

(** widths that Contracts.v does not know *)
Definition token_widths (x : token_init) : bool :=
  ((ti_decimals x <? 2 ^ 8) && forallb (fun p => snd p <? 2 ^ 128) (ti_balances x) &&
   match ti_mint x with Some (_, Some c) => c <? 2 ^ 128 | _ => true end)%bool.
(** a message of the types in /repo/packages/interface/src/*/*.rs: said in one way only, and its numbers fit *)
Definition proper (b : birth) : bool :=
  match b with
  | BPlain (IVa _) | BPlain (IWarpCw20 _ _ _ _) | BPlain (ICw20 _ _) => false
  | BWarp (ChNew n x) _ _ _ => ((n <? 2 ^ 64) && token_widths x)%bool
  | _ => imsg_ok (meant b)
  end.
