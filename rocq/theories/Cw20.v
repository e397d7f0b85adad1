(** * The token contract of cw20 warp routes: cw20-base 1.1.2.

    This code is a dependency and not in /repo; the model covers its messages
    without expirations, caps, marketing and logos.  [send] and [send_from] are
    left out: they move tokens and then call [receive] of the contract that got
    them, and as no contract of /repo has a message [receive] they fail on every
    chain of this model.  The token is part of the environment of the theorems
    about cw20 warp routes (DESIGN.md). *)
From Coq Require Import List NArith Bool.
From Verif Require Import Base OMap Coins Chain.
Import ListNotations.

(** crate cw20-base 1.1.2 (/repo/Cargo.toml:55), deployed by
    /repo/contracts/warp/cw20/src/contract.rs:47-66 *)
Record cw : Type := mkCw {
  cw_minter : option addr;
  cw_supply : N;
  cw_balances : omap addr N;
  cw_allowances : omap (addr * addr) N     (* (owner, spender) *)
}.

(** crate cw20-base 1.1.2 (/repo/Cargo.toml:55), balances moved by
    /repo/contracts/warp/cw20/src/conv.rs:8-40 *)
Definition cw_balance (x : cw) (a : addr) : N :=
  match om_get a (cw_balances x) with Some n => n | None => 0 end.

(** [BALANCES.update(a, |b| Ok(b.unwrap_or_default() + n))]: crate cw20-base 1.1.2
    (/repo/Cargo.toml:55), for /repo/contracts/warp/cw20/src/conv.rs:8-40 *)
Definition cw_credit (b : omap addr N) (a : addr) (n : N) : res (omap addr N) :=
  let old := match om_get a b with Some v => v | None => 0 end in
  _ <- need (old + n <? u128_max) ;; Ok (om_set a (old + n) b).
(** [BALANCES.update(a, |b| Ok(b.unwrap_or_default().checked_sub(n)?))]: crate
    cw20-base 1.1.2 (/repo/Cargo.toml:55), for
    /repo/contracts/warp/cw20/src/conv.rs:8-40 *)
Definition cw_debit (b : omap addr N) (a : addr) (n : N) : res (omap addr N) :=
  let old := match om_get a b with Some v => v | None => 0 end in
  _ <- ensure (n <=? old) EOverflow ;; Ok (om_set a (old - n) b).

(** [instantiate]: the initial balances make up the supply; a repeated account is an
    error: crate cw20-base 1.1.2 (/repo/Cargo.toml:55), called at
    /repo/contracts/warp/cw20/src/contract.rs:47-66 *)
Definition cw_instantiate (A : api) (minter : option addr) (init : list (addr * N)) : res cw :=
  b <- foldM (fun (m : omap addr N) p =>
         a <- addr_validate A (fst p) ;;
         _ <- ensure (snd p <? u128_max) EParse ;;
         match om_get a m with
         | Some _ => Err EInvalidConfig
         | None => Ok (om_set a (snd p) m)
         end) init [] ;;
  let total := fold_right (fun p acc => snd p + acc) 0 init in
  _ <- need (total <? u128_max) ;;
  Ok (mkCw minter total b []).

(** crate cw20-base 1.1.2 (/repo/Cargo.toml:55), [execute_transfer], called at
    /repo/contracts/warp/cw20/src/conv.rs:27-40 *)
Definition cw_move (b : omap addr N) (from to : addr) (n : N) : res (omap addr N) :=
  b1 <- cw_debit b from n ;; cw_credit b1 to n.

(** [execute]: crate cw20-base 1.1.2 (/repo/Cargo.toml:55), called at
    /repo/contracts/warp/cw20/src/conv.rs:8-40 and
    /repo/contracts/warp/cw20/src/contract.rs:211-222 *)
Definition cw_execute (A : api) (i : info) (m : emsg) (x : cw) : res (cw * response) :=
  match m with
  | MCw20Transfer to n =>
      to' <- addr_validate A to ;;
      b <- cw_move (cw_balances x) (i_sender i) to' n ;;
      Ok (mkCw (cw_minter x) (cw_supply x) b (cw_allowances x), resp0)
  | MCw20Burn n =>
      b <- cw_debit (cw_balances x) (i_sender i) n ;;
      _ <- ensure (n <=? cw_supply x) EOverflow ;;
      Ok (mkCw (cw_minter x) (cw_supply x - n) b (cw_allowances x), resp0)
  | MCw20Mint to n =>
      mt <- ok_or (cw_minter x) EUnauthorized ;;
      _ <- ensure (bytes_eqb mt (i_sender i)) EUnauthorized ;;
      _ <- need (cw_supply x + n <? u128_max) ;;
      to' <- addr_validate A to ;;
      b <- cw_credit (cw_balances x) to' n ;;
      Ok (mkCw (cw_minter x) (cw_supply x + n) b (cw_allowances x), resp0)
  | MCw20IncreaseAllowance spender n =>
      sp <- addr_validate A spender ;;
      _ <- ensure (negb (bytes_eqb sp (i_sender i))) EUnauthorized ;;
      let old := match om_get (i_sender i, sp) (cw_allowances x) with Some v => v | None => 0 end in
      _ <- need (old + n <? u128_max) ;;
      Ok (mkCw (cw_minter x) (cw_supply x) (cw_balances x)
            (om_set (i_sender i, sp) (old + n) (cw_allowances x)), resp0)
  | MCw20TransferFrom owner to n =>
      to' <- addr_validate A to ;;
      ow <- addr_validate A owner ;;
      al <- ok_or (om_get (ow, i_sender i) (cw_allowances x)) EUnauthorized ;;
      _ <- ensure (n <=? al) EOverflow ;;
      b <- cw_move (cw_balances x) ow to' n ;;
      Ok (mkCw (cw_minter x) (cw_supply x) b
            (om_set (ow, i_sender i) (al - n) (cw_allowances x)), resp0)
  | MCw20DecreaseAllowance spender n =>
      sp <- addr_validate A spender ;;
      _ <- ensure (negb (bytes_eqb sp (i_sender i))) EUnauthorized ;;
      al <- ok_or (om_get (i_sender i, sp) (cw_allowances x)) EStd ;;
      Ok (mkCw (cw_minter x) (cw_supply x) (cw_balances x)
            (if n <? al then om_set (i_sender i, sp) (al - n) (cw_allowances x)
             else om_del (i_sender i, sp) (cw_allowances x)), resp0)
  | MCw20BurnFrom owner n =>
      ow <- addr_validate A owner ;;
      al <- ok_or (om_get (ow, i_sender i) (cw_allowances x)) EUnauthorized ;;
      _ <- ensure (n <=? al) EOverflow ;;
      b <- cw_debit (cw_balances x) ow n ;;
      _ <- ensure (n <=? cw_supply x) EOverflow ;;
      Ok (mkCw (cw_minter x) (cw_supply x - n) b
            (om_set (ow, i_sender i) (al - n) (cw_allowances x)), resp0)
  | MCw20UpdateMinter new =>
      mt <- ok_or (cw_minter x) EUnauthorized ;;
      _ <- ensure (bytes_eqb mt (i_sender i)) EUnauthorized ;;
      new' <- match new with
              | Some a => a' <- addr_validate A a ;; Ok (Some a')
              | None => Ok None
              end ;;
      Ok (mkCw new' (cw_supply x) (cw_balances x) (cw_allowances x), resp0)
  | _ => Err EParse
  end.

(** [query]: crate cw20-base 1.1.2 (/repo/Cargo.toml:55), not queried by /repo; cf.
    /repo/contracts/warp/cw20/src/contract.rs:258-290 *)
Definition cw_query (m : qmsg) (x : cw) : res qres :=
  match m with
  | QCw20Balance a => Ok (RBalance (cw_balance x a))
  | QCw20TokenInfo => Ok (RTokenInfo (cw_supply x))
  | QCw20Allowance o sp =>
      Ok (RAllowance (match om_get (o, sp) (cw_allowances x) with Some v => v | None => 0 end))
  | _ => Err EParse
  end.
