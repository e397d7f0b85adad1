(** * The chain with raw databases: what the theorems say. *)
From Coq Require Import List NArith Bool.
From Verif Require Import Base OMap Chain Utils Contracts World Wire Store RawWorld.
Import ListNotations.

(** what the host keeps for a contract of /repo/contracts/*/*/src/*.rs *)
Definition spread_inst (ver : addr -> program -> cw2) (a : addr) (x : inst) : rinst :=
  match x with
  | IC (SCw20 x) => RT x
  | IC st => RC (program_of st) (storage (ver a (program_of st)) st)
  | IX st => RX st
  end.
(** the chain of World.v with each record of /repo/contracts/*/*/src/*.rs laid out as its database *)
Definition spread (ver : addr -> program -> cw2) (w : world) : rworld :=
  mkRaw (map (fun p => (fst p, spread_inst ver (fst p) (snd p))) (w_inst w)) (w_bank w) (w_admin w) (w_height w) (w_next w).

(** two queriers that answer alike, for a contract that can only ask them, e.g.
    /repo/packages/interface/src/ism/mod.rs:93-117 *)
Definition alike (q1 q2 : querier) : Prop :=
  (forall a m, q_smart q1 a m = q_smart q2 a m) /\
  (forall a d, q_balance q1 a d = q_balance q2 a d) /\ (forall a, q_all_balances q1 a = q_all_balances q2 a).
(** the programs that are not in /repo/contracts/*/*/src/*.rs learn about the chain by asking it only *)
Definition asks_only (X : ext) : Prop :=
  (forall e i m q1 q2 st, alike q1 q2 -> x_exec X e i m q1 st = x_exec X e i m q2 st) /\
  (forall e n r q1 q2 st, alike q1 q2 -> x_reply X e n r q1 st = x_reply X e n r q2 st) /\
  (forall e m q1 q2 st, alike q1 q2 -> x_query X e m q1 st = x_query X e m q2 st).
(** block heights are 64-bit numbers: /repo/contracts/core/mailbox/src/state.rs:50-53 *)
Definition tx_timely (t : nat * tx) : Prop :=
  match snd t with TBlock h => h < 2 ^ 64 | _ => True end.

(** the outcome of a transaction, with each record of /repo/contracts/*/*/src/*.rs laid out as its database *)
Definition laid (ver : addr -> program -> cw2) (r : res world) : res rworld :=
  match r with Ok w => Ok (spread ver w) | Err e => Err e | Panic => Panic end.
(** after any history of calls to /repo/contracts/*/*/src/{contract,lib}.rs at 64-bit heights *)
Definition timely_reachable (C : chain) (w : world) : Prop :=
  exists bank l, Forall tx_timely l /\ w = chain_run C (genesis bank) l.
