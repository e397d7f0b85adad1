(** * Vocabulary for "a remote transfer that pays its quote succeeds".

    Stated from what the contracts report and the balances alone
    (/repo/contracts/warp/native/src/contract.rs:198-268,
    /repo/contracts/warp/cw20/src/contract.rs:185-255). *)
From Coq Require Import List NArith Bool.
From Verif Require Import Base OMap Bech32 Message Coins Chain Contracts Spec SpecModules MailboxConfFacts World
  SpecWorld SpecBridge SpecLive SpecSend.
Import ListNotations.

(** what a token contract reports about allowances *)
Definition cw_allowed (st : cstate) (owner spender : addr) : N :=
  match c_query no_api no_querier (QCw20Allowance owner spender) st with Ok (RAllowance n) => n | _ => 0 end.

(** [x] is the denomination of a native route in state [st] *)
Definition own_denom (st : cstate) (x : str) : bool :=
  match c_query no_api no_querier QTokenType st with Ok (RTokenDenom d) => bytes_eqb x d | _ => false end.

(** the mailbox's part: the route at [route] has a counterpart at domain [dest], and
    the mailbox takes the transfer message [raw] from it for [fees] *)
Definition transferable (C : chain) (n : nat) (w : world) (mb route : addr) (st : cstate) (dest : N) (recipient : bytes)
    (amount : N) (hook : option str) (md : option bytes) (raw : bytes) (fees : list coin) (pays : list (addr * coin))
    (marks : list addr) : Prop :=
  contract_at w route st /\ is_warp st /\ warp_mailbox st = Some mb /\
  amount <> 0 /\ amount < 2 ^ 128 /\
  exists router, reported_route st dest = Some (Some router) /\
    dispatchable C n w mb route
      (mkDispatch dest router (recipient ++ be 32 amount)
         (match hook with Some h => Some h | None => reported_conn_hook st end) md) raw fees pays marks.

(** the coins sent along are the fees and, for a native route, the amount *)
Definition pays_for (st : cstate) (amount : N) (fees funds : list coin) : Prop :=
  forall x, amount_of x funds = amount_of x fees + (if own_denom st x then amount else 0) /\ amount_of x funds < 2 ^ 128.

(** [caller] has them; for a cw20 route it holds the amount and allowed the route to take it *)
Definition affords (C : chain) (w : world) (route : addr) (st : cstate) (caller : addr) (amount : N) (funds : list coin) : Prop :=
  (forall x, amount_of x funds <= balance w caller x) /\
  (is_warp_native st -> reported_token st <> None) /\
  (is_warp_cw20 st -> api_valid (ch_api C) caller = true /\ api_valid (ch_api C) route = true /\
     exists tk tst, reported_token st = Some tk /\ contract_at w tk tst /\ is_cw20 tst /\
       amount <= cw_holding tst caller /\ amount <= cw_allowed tst caller route).

(** what the coins did: the caller's fees went to [pays]; the amount of a native
    route's token left the caller, to be kept by the route if it locks the token *)
Definition coins_moved (w w' : world) (route : addr) (st : cstate) (caller : addr) (amount : N) (fees : list coin)
    (pays : list (addr * coin)) : Prop :=
  forall a x,
    balance w' a x + (if bytes_eqb a caller then amount_of x fees + (if own_denom st x then amount else 0) else 0)
    = balance w a x + gets a x pays
      + (if (bytes_eqb a route && own_denom st x && mode_eqb (reported_mode st) Collateral)%bool then amount else 0).

(** what a cw20 route's token did: the amount left the caller, to be kept by the
    route if it locks the token, and out of the supply otherwise; so much of the
    caller's allowance is used up, and nobody else's *)
Definition tokens_moved (w w' : world) (route : addr) (st : cstate) (caller : addr) (amount : N) : Prop :=
  is_warp_cw20 st -> forall tk tst, reported_token st = Some tk -> contract_at w tk tst ->
  exists tst', contract_at w' tk tst' /\ is_cw20 tst' /\
    (forall a, cw_holding tst' a + (if bytes_eqb a caller then amount else 0)
       = cw_holding tst a + (if (bytes_eqb a route && mode_eqb (reported_mode st) Collateral)%bool then amount else 0)) /\
    cw_total tst' + (if mode_eqb (reported_mode st) Bridged then amount else 0) = cw_total tst /\
    (forall o p, cw_allowed tst' o p + (if (bytes_eqb o caller && bytes_eqb p route)%bool then amount else 0) = cw_allowed tst o p).

(** nothing but the mailbox, the recording hooks and a cw20 route's token changed *)
Definition rest_same (w w' : world) (mb : addr) (st : cstate) (marks : list addr) : Prop :=
  (forall a : addr, a <> mb -> occ a marks = 0 -> (is_warp_cw20 st -> reported_token st <> Some a) ->
     om_get a (w_inst w') = om_get a (w_inst w)) /\
  w_admin w' = w_admin w /\ w_height w' = w_height w /\ w_next w' = w_next w.
