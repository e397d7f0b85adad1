(** * Deployment (C62). *)
From Coq Require Import List NArith Bool.
From Verif Require Import Base OMap Coins Message Bech32 Merkle Chain Ownable Router
  Mailbox Va Isms Hooks Igp Warp Cw20 Contracts Spec SpecModules World SpecWorld SpecBridge SpecInit
  InitFacts PropsAccess.
Import ListNotations.

(** ** C62: new contracts start exactly as configured *)
Theorem C62_accepted A q e i m :
  (exists st r, c_instantiate A q e i m = Ok (st, r)) <-> acceptable A q m.
Proof. exact (accepted A q e i m). Qed.
Print Assumptions C62_accepted.

Theorem C62_starts A q e i m st r :
  c_instantiate A q e i m = Ok (st, r) -> starts_as q (e_contract e) m st r.
Proof. exact (starts A q e i m st r). Qed.
Print Assumptions C62_starts.

Example C62_example :
  let make m := is_ok (c_instantiate ex_api no_querier ex_env (mkInfo (s "deployer") []) m) in
  make (IMailbox (s "osmo") (s "owner") 7) = true /\
  make (IMailbox (s "Osmo") (s "owner") 7) = false /\
  make (IMailbox (s "osmo") (s "owner") (2 ^ 32)) = false /\
  make (IIgp (s "osmo") (s "owner") (s "uosmo") (s "owner") 1000) = true /\
  make (IIgp (s "osmo1") (s "owner") (s "uosmo") (s "owner") 1000) = false /\
  make (ICw20 None [(s "alice", 3); (s "bob", 4)]) = true /\
  make (ICw20 None [(s "alice", 3); (s "alice", 4)]) = false /\
  make (IVa (s "mailbox")) = false.
Proof. vm_compute. auto 10. Qed.

Example C62_starts_example :
  exists st r,
    c_instantiate ex_api no_querier ex_env (mkInfo (s "deployer") [])
      (IWarpNative (NtBridged (s "sub") None) (s "osmo") (s "owner") (s "mailbox")) = Ok (st, r) /\
    reported_owner st = Some (s "owner") /\ reported_mode st = Some Bridged /\ reported_token st = None /\
    map sm_msg (r_msgs r) = [CCreateDenom (s "contract") (s "sub")].
Proof. eexists. eexists. vm_compute. auto. Qed.
