(** * The token a warp route deals in.

    Stated from the message that deployed the route alone
    (/repo/contracts/warp/native/src/contract.rs:30-86,122-144,
    /repo/contracts/warp/cw20/src/contract.rs:31-83,118-140). *)
From Coq Require Import List NArith.
From Verif Require Import Base OMap Chain Warp Contracts World SpecWorld.
Import ListNotations.

(** the token of the route at [a] deployed by [m]: the one named by [m] if it
    locks a token that exists already; otherwise the one created for it, which
    nobody else created or may mint: the denomination [factory/a/...] of which
    [a] is the administrator, or a cw20 contract that [a] had instantiated, with
    the initial balances [m] asked for and [a] as its minter *)
Definition own_token (w : world) (a : addr) (m : imsg) (tk : str) : Prop :=
  match m with
  | IWarpNative (NtCollateral d) _ _ _ => tk = d
  | IWarpNative (NtBridged sub _) _ _ _ => tk = s "factory/" ++ a ++ s "/" ++ sub /\ om_get tk (w_admin w) = Some a
  | IWarpCw20 (CtCollateral t) _ _ _ => tk = t
  | IWarpCw20 (CtBridged ini) _ _ _ =>
      exists e q r, births_at tk (w_log w) = [(e, mkInfo a [], q, ICw20 (Some a) ini, r)]
  | _ => False
  end.

