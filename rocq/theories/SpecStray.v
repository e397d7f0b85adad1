(** * Coins at contracts that have no business with coins: the words used in C99. *)
From Coq Require Import List NArith Bool.
From Verif Require Import Base Coins Chain Contracts.

(** the calls that may pay something out, with the contract they are made to:
    /repo/contracts/core/mailbox/src/execute.rs:95-154,
    /repo/contracts/hooks/aggregate/src/lib.rs:85-112, /repo/contracts/hooks/fee/src/lib.rs:96-112,
    /repo/contracts/igps/core/src/execute.rs:90-183,
    /repo/contracts/warp/native/src/contract.rs:146-268, /repo/contracts/warp/cw20/src/contract.rs:185-256 *)
Definition paying (st : cstate) (m : emsg) : bool :=
  match st, m with
  | SMailbox _, MDispatch _ | SAggHook _, MPostDispatch _ _ | SFeeHook _, MFeeClaim _
  | SIgp _, (MClaim | MPayForGas _ _ _ _ | MPostDispatch _ _)
  | SWarpNative _, (MHandle _ _ _ | MTransferRemote _ _ _ _ _) | SWarpCw20 _, MTransferRemote _ _ _ _ _ => true
  | _, _ => false
  end.

(** the contracts that have none: security modules, routing and pausable hooks, the merkle hook, the oracle, the
    validator announce and the cw20 token; /repo/contracts/isms, /repo/contracts/hooks/{merkle,pausable,routing},
    /repo/contracts/hooks/{routing-custom,routing-fallback}, /repo/contracts/igps/oracle, /repo/contracts/core/va *)
Definition never_pays (st : cstate) : Prop :=
  match st with
  | SVa _ | SMultisig _ | SAggIsm _ | SRoutingIsm _ | SPausableIsm _ | SMerkle _ | SPausableHook _ | SRoutingHook _
  | SCustomHook _ | SFallbackHook _ | SOracle _ | SCw20 _ => True
  | _ => False
  end.

(** the coins that came to [a] with a dispatch, in a list of calls: caller, contract, message, funds;
    /repo/contracts/core/mailbox/src/execute.rs:95-154 *)
Definition paid_dispatch (a : addr) (d : str) (x : addr * addr * emsg * list coin) : N :=
  match x with (_, b, MDispatch _, f) => if bytes_eqb a b then amount_of d f else 0 | _ => 0 end.
