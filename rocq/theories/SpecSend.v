(** * Vocabulary for "a dispatch that pays its quote succeeds".

    [takes] says what each hook of /repo/contracts/hooks, the gas paymaster of
    /repo/contracts/igps/core and hooks of others need in order to accept a message, read off their
    queries in a world [w]; it uses neither the executor nor the contracts' code. *)
From Coq Require Import List NArith Bool.
From Verif Require Import Base OMap Crypto Bech32 Message Coins Chain Contracts Spec SpecModules World SpecWorld.
Import ListNotations.

(** how often [a] occurs in [l] *)
Definition occ (a : addr) (l : list addr) : N := N.of_nat (length (filter (bytes_eqb a) l)).

(** what [a] gets of denomination [d] in a list of payments *)
Definition gets (a : addr) (d : str) (l : list (addr * coin)) : N :=
  amount_of d (map snd (filter (fun p => bytes_eqb a (fst p)) l)).

(** a program of others that quotes [fees] for message [raw] and accepts them from
    anybody, changing nothing and sending nothing on *)
Definition takes_quietly (X : ext) (h : addr) (b md raw : bytes) (fees : list coin) : Prop :=
  forall e q, e_contract e = h ->
    x_query X e (QHookQuote md raw) q b = Ok (RFees fees) /\
    forall c, exists r, x_exec X e (mkInfo c fees) (MPostDispatch md raw) q b = Ok (b, r) /\ r_msgs r = [].

(** [takes n h fees pays marks]: called with metadata [md] for message [raw] of the
    mailbox at [mb], the hook at [h] asks for [fees] and accepts them; they go to
    [pays], and [marks] are the merkle hooks that record the message. [n] bounds
    the depth of the calls. *)
Inductive takes (C : chain) (w : world) (mb : addr) (md raw : bytes) :
  nat -> addr -> list coin -> list (addr * coin) -> list addr -> Prop :=
| takes_merkle n h st :
    contract_at w h st -> is_merkle_hook st -> reported_hook_mailbox st = Some mb ->
    (2 <= n)%nat -> takes C w mb md raw n h [] [] [h]
| takes_pausable n h st :
    contract_at w h st -> is_pausable_hook st -> reported_paused st = Some false ->
    (2 <= n)%nat -> takes C w mb md raw n h [] [] []
| takes_fee n h st fee :
    contract_at w h st -> reported_fee st = Some fee -> c_amount fee <> 0 -> c_amount fee < 2 ^ 128 ->
    (2 <= n)%nat -> takes C w mb md raw n h [fee] [(h, fee)] []
| takes_gas n h st m gas refund oracle ost price rate :
    contract_at w h st -> is_igp st ->
    msg_decode raw = Ok m -> requested_gas st md m gas -> requested_refund st md m refund ->
    reported_route st (m_dest m) = Some (Some oracle) ->
    contract_at w oracle ost -> reported_gas_data ost (m_dest m) = Some (price, rate) ->
    price < 2 ^ 128 -> rate < 2 ^ 128 -> fits gas price rate ->
    gas_cost gas price rate <> 0 -> gas_cost gas price rate < 2 ^ 128 ->
    (2 <= n)%nat ->
    takes C w mb md raw n h [mkCoin (gas_token st) (gas_cost gas price rate)]
      [(h, mkCoin (gas_token st) (gas_cost gas price rate))] []
| takes_outside n h b fees :
    om_get h (w_inst w) = Some (IX b) -> takes_quietly (ch_ext C) h b md raw fees ->
    norm_coins fees = fees -> (forall d, amount_of d fees < 2 ^ 128) ->
    (2 <= n)%nat -> takes C w mb md raw n h fees (map (fun c => (h, c)) fees) []
| takes_router n n' h st m x pays marks :
    contract_at w h st -> is_router_hook st -> (is_fallback_hook st -> fallback_of st <> None) ->
    msg_decode raw = Ok m -> selected_hook st m = Some x ->
    takes C w mb md raw n x [] pays marks ->
    (n + 2 <= n')%nat -> takes C w mb md raw n' h [] pays marks
| takes_aggregate n n' h st m hooks fees pays marks :
    contract_at w h st -> reported_hooks st = Some hooks -> msg_decode raw = Ok m ->
    take_all C w mb md raw n hooks fees pays marks ->
    (forall d, amount_of d (concat fees) < 2 ^ 128) ->
    (n + length hooks + 1 <= n')%nat ->
    takes C w mb md raw n' h (norm_coins (concat fees)) pays marks
with take_all (C : chain) (w : world) (mb : addr) (md raw : bytes) :
  nat -> list addr -> list (list coin) -> list (addr * coin) -> list addr -> Prop :=
| take_none n : take_all C w mb md raw n [] [] [] []
| take_more n h f p k hooks fees pays marks :
    takes C w mb md raw n h f p k -> take_all C w mb md raw n hooks fees pays marks ->
    take_all C w mb md raw n (h :: hooks) (f :: fees) (p ++ pays) (k ++ marks).

(** the merkle hooks have room *)
Definition room (w : world) (marks : list addr) : Prop :=
  forall a st c, contract_at w a st -> reported_count st = Some c -> c + occ a marks <= 2 ^ 32 - 1.

(** request [d] of [caller] to the mailbox at [mb] stands for the message [raw],
    costs [fees], paid to [pays], and is recorded by [marks] *)
Definition dispatchable (C : chain) (n : nat) (w : world) (mb caller : addr) (d : dispatch_msg) (raw : bytes)
    (fees : list coin) (pays : list (addr * coin)) (marks : list addr) : Prop :=
  exists mbst nonce domain sender required hook f1 p1 k1 f2 p2 k2,
    contract_at w mb mbst /\ reported_nonce mbst = Some nonce /\ reported_domain mbst = Some domain /\
    nonce + 1 < 2 ^ 32 /\ domain < 2 ^ 32 /\ d_dest d < 2 ^ 32 /\ length (d_recipient d) = 32%nat /\
    bech32_to_h256 caller = Ok sender /\
    raw = msg_encode (mkMessage 3 nonce domain sender (d_dest d) (d_recipient d) (d_body d)) /\
    reported_required_hook mbst = Some required /\ chosen_hook (ch_api C) mbst d hook /\
    takes C w mb (request_metadata d) raw n required f1 p1 k1 /\
    takes C w mb (request_metadata d) raw n hook f2 p2 k2 /\
    (forall x, amount_of x (f1 ++ f2) < 2 ^ 128) /\
    fees = norm_coins (f1 ++ f2) /\ pays = p1 ++ p2 /\ marks = k1 ++ k2 /\ room w marks.

(** [caller] paid [fees], which went to [pays]; nobody else's balance changed *)
Definition fees_paid (w w' : world) (caller : addr) (fees : list coin) (pays : list (addr * coin)) : Prop :=
  forall a x, balance w' a x + (if bytes_eqb a caller then amount_of x fees else 0) = balance w a x + gets a x pays.

(** the mailbox at [mb] dispatched [raw] and nothing else *)
Definition dispatched_one (w w' : world) (mb : addr) (raw : bytes) : Prop :=
  dispatched_at mb (w_log w') = dispatched_at mb (w_log w) ++ [raw] /\
  processed_at mb (w_log w') = processed_at mb (w_log w) /\
  exists st st' nonce, contract_at w mb st /\ contract_at w' mb st' /\
    reported_nonce st = Some nonce /\ reported_nonce st' = Some (nonce + 1) /\
    reported_latest st' = Some (keccak256_hash raw).

(** the merkle hooks of [marks] recorded [raw], each as often as it occurs *)
Definition recorded (w w' : world) (raw : bytes) (marks : list addr) : Prop :=
  forall a st c, contract_at w a st -> is_merkle_hook st -> reported_count st = Some c ->
    exists st', contract_at w' a st' /\ is_merkle_hook st' /\ reported_hook_mailbox st' = reported_hook_mailbox st /\
      reported_count st' = Some (c + occ a marks) /\
      posted_at a (w_log w') = posted_at a (w_log w) ++ repeat raw (N.to_nat (occ a marks)).

(** nothing but the mailbox and those hooks changed *)
Definition others_same (w w' : world) (mb : addr) (marks : list addr) : Prop :=
  (forall a : addr, a <> mb -> occ a marks = 0 -> om_get a (w_inst w') = om_get a (w_inst w)) /\
  w_admin w' = w_admin w /\ w_height w' = w_height w /\ w_next w' = w_next w.
