(** * Collected fees: the words used in C100. *)
From Coq Require Import List NArith Bool.
From Verif Require Import Base OMap Coins Chain Contracts World Spec SpecModules SpecWorld.
Import ListNotations.

(** claims: /repo/contracts/hooks/fee/src/lib.rs:96-112, /repo/contracts/igps/core/src/execute.rs:90-108 *)
Definition is_claim (ev : event) : bool :=
  match ev_msg ev with Some (MFeeClaim _) | Some MClaim => true | _ => false end.
(** payments for gas: /repo/contracts/igps/core/src/execute.rs:110-183 *)
Definition is_gas_call (m : emsg) : bool :=
  match m with MPayForGas _ _ _ _ | MPostDispatch _ _ => true | _ => false end.

(** what the answers in a history send off, for the events chosen *)
Definition sent_in (p : event -> bool) (d : str) (h : list (event * response)) : N :=
  total (fun x => if p (fst x) then total (msg_out d) (map sm_msg (r_msgs (snd x))) else 0) h.
(** what claims at [a] took: /repo/contracts/hooks/fee/src/lib.rs:96-112,
    /repo/contracts/igps/core/src/execute.rs:90-108 *)
Definition claimed (a : addr) (d : str) (l : list entry) : N := sent_in is_claim d (answers_at a l).
(** what gas payments at [a] gave back: /repo/contracts/igps/core/src/execute.rs:143-183 *)
Definition refunded (a : addr) (d : str) (l : list entry) : N :=
  sent_in (fun ev => match ev_msg ev with Some m => is_gas_call m | None => false end) d (answers_at a l).
(** what came to [a] with gas payments: caller, contract, message, funds;
    /repo/contracts/igps/core/src/execute.rs:143-183 *)
Definition gas_funds (a : addr) (d : str) (l : list entry) : N :=
  total (fun x => match x with (_, b, m, f) => if (bytes_eqb a b && is_gas_call m)%bool then amount_of d f else 0 end) (calls_sent l).

(** who may collect: the owner of a fee hook, the beneficiary of a gas paymaster;
    /repo/contracts/hooks/fee/src/lib.rs:96-98, /repo/contracts/igps/core/src/execute.rs:90-96 *)
Definition collector (st : cstate) : option addr :=
  match st with SFeeHook _ => reported_owner st | SIgp _ => reported_beneficiary st | _ => None end.

(** the coins chosen by [p] went from [a] to [b] and nothing else moved, nor did any contract change *)
Definition emptied (w w' : world) (a b : addr) (p : str -> bool) : Prop :=
  (forall d, p d = true -> balance w' a d = 0 /\ balance w' b d = balance w b d + balance w a d) /\
  (forall c d, c <> a /\ c <> b \/ p d = false -> balance w' c d = balance w c d) /\
  (forall c : addr, om_get c (w_inst w') = om_get c (w_inst w)).
