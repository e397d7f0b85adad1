(** * Whole chains: money, messages, mailboxes (C50, and C17, C18, C21 on a chain). *)
From Coq Require Import List NArith Bool Lia Permutation.
From Verif Require Import Base OMap Coins CoinsFacts Crypto Message Bech32 Chain Ownable Contracts Spec
  Mailbox Va Isms Hooks Igp Warp Cw20 StepFacts MailboxConfFacts World SpecWorld WorldFacts WorldMailbox
  PropsAccess.
Import ListNotations.

(** ** C50 *)
(** one transaction from any state: [new] is what it committed *)
Theorem C50_transaction_conserves C k t w w' :
  om_sorted (w_bank w) -> tx_run C k t w = Ok w' ->
  exists new, w_log w' = w_log w ++ new /\
    forall d, supply w' d + burned d new = supply w d + minted d new.
Proof. exact (tx_money C k t w w'). Qed.
Print Assumptions C50_transaction_conserves.

Theorem C50_failure_changes_nothing C w t :
  (forall w', tx_run C (fst t) (snd t) w <> Ok w') -> tx_step C w t = w.
Proof. exact (failed_tx C w t). Qed.
Print Assumptions C50_failure_changes_nothing.

(** a whole history: supplies, and every address's balance *)
Theorem C50_history_conserves C bank l :
  om_sorted bank ->
  let w := chain_run C (genesis bank) l in
  (forall d, supply w d + burned d (w_log w) = supply_of d bank + minted d (w_log w)) /\
  (forall a d, balance w a d + outflow a d (w_log w) = bal bank a d + inflow a d (w_log w)).
Proof. exact (history_money C bank l). Qed.
Print Assumptions C50_history_conserves.

(** mint and burn messages are obeyed only when sent by the denomination's creator *)
Theorem C50_only_creators_mint C w c x n d :
  reachable C w ->
  In (LDo c (CMint x n d)) (w_log w) \/ In (LDo c (CBurn x n d)) (w_log w) ->
  x = c /\ n <> 0 /\ exists sub, d = s "factory/" ++ c ++ s "/" ++ sub.
Proof. exact (only_creators C w c x n d). Qed.
Print Assumptions C50_only_creators_mint.

(** everything a contract of this repository asks for is carried out, once, or
    the transaction fails; its coins move no other way *)
Theorem C50_messages_settled C w a st :
  chain_ok C -> reachable C w -> contract_at w a st ->
  Permutation (done_for a (w_log w)) (asked_by a (w_log w)).
Proof. exact (messages_settled C w a st). Qed.
Print Assumptions C50_messages_settled.

Theorem C50_contract_coins C bank l w a st d :
  chain_ok C -> om_sorted bank -> w = chain_run C (genesis bank) l -> contract_at w a st ->
  balance w a d + total (msg_out d) (asked_by a (w_log w)) = bal bank a d + inflow a d (w_log w).
Proof. exact (contract_money C bank l w a st d). Qed.
Print Assumptions C50_contract_coins.

(** every contract's state is the one its own accepted calls produce: the
    statements about single contracts apply to contracts on a chain *)
Theorem C50_histories_are_histories C w a st :
  reachable C w -> contract_at w a st ->
  exists e i q m r st0,
    births_at a (w_log w) = [(e, i, q, m, r)] /\ e_contract e = a /\
    c_instantiate (ch_api C) q e i m = Ok (st0, r) /\
    lives (ch_api C) st0 (answers_at a (w_log w)) st /\
    st = c_run (ch_api C) st0 (events_at a (w_log w)).
Proof. exact (chain_history C w a st). Qed.
Print Assumptions C50_histories_are_histories.

(** ** An example chain *)
Definition enc (raw : bytes) : addr :=
  match bech32_encode (s "osmo") raw with Ok a => a | _ => [] end.
Definition alice : addr := enc (repeat x0a 20).
Definition relayer : addr := enc (repeat x0c 20).
Definition ex_account (a : addr) : bool := bytes_eqb a alice || bytes_eqb a relayer.
(** contract addresses are 32 bytes, account addresses 20 *)
Definition at_ (n : N) : addr := if ex_account (enc (be32 n)) then [] else enc (be32 n).
(** a recipient that, when handed a message, tries to have it delivered once
    more (guessing its nonce) and ignores the failure; it remembers the bodies *)
Definition ex_ext : ext :=
  mkExt
    (fun e i m q st =>
       match m with
       | MHandle o sd bd =>
           Ok (st ++ bd, mkResp [mkSub (CExec (i_sender i)
             (MProcess [] (msg_encode (mkMessage 3 0 o sd 7 (be32 4) bd))) []) (RpError 1)] None)
       | _ => Err EParse
       end)
    (fun e id rr q st => Ok (st, resp0))
    (fun e m q st => match m with QIsmSpecifier => Ok (RIsm None) | _ => Err EParse end).
Definition ex_chain : chain := mkChain ex_api ex_ext at_ ex_account.
Lemma ex_chain_ok : chain_ok ex_chain.
Proof.
  intros n. cbn [ch_account ch_addr ex_chain]. unfold at_.
  destruct (ex_account (enc (be32 n))) eqn:E; [vm_compute; reflexivity | exact E].
Qed.

Definition ex_bank : omap (addr * str) N :=
  om_set (alice, s "uosmo") 100 (om_set (alice, s "uatom") 5 []).
Lemma ex_bank_sorted : om_sorted ex_bank.
Proof. unfold ex_bank. apply om_sorted_set, om_sorted_set. exact I. Qed.
(** 0 mailbox, 1 merkle hook (required), 2 fee hook (default), 3 security module,
    4 the recipient *)
Definition ex_deploy : list (nat * tx) :=
  map (fun t => (20%nat, t))
  [TDeploy alice (IMailbox (s "osmo") alice 7) [];
   TDeploy alice (IMerkle (at_ 0)) [];
   TDeploy alice (IFeeHook alice (mkCoin (s "uosmo") 4)) [];
   TDeploy alice (IPausableIsm alice false) [];
   TDeployExt alice [] [];
   TExec alice (at_ 0) (MSetRequiredHook (at_ 1)) [];
   TExec alice (at_ 0) (MSetDefaultHook (at_ 2)) [];
   TExec alice (at_ 0) (MSetDefaultIsm (at_ 3)) []].
Definition ex_send (body : string) (n : N) : nat * tx :=
  (20%nat, TExec alice (at_ 0) (MDispatch (mkDispatch 9 (repeat x01 32) (s body) None None))
             [mkCoin (s "uosmo") n]).
Definition ex_arriving : bytes := msg_encode (mkMessage 3 0 9 (repeat x02 32) 7 (be32 4) (s "hi")).
Definition ex_relay : nat * tx := (20%nat, TExec relayer (at_ 0) (MProcess [] ex_arriving) []).
(** a dispatch that pays the fee, one that does not, another that does, one
    delivery (with the recipient's attempt at a second) and one more *)
Definition ex_life : list (nat * tx) :=
  ex_deploy ++ [ex_send "one" 4; ex_send "none" 3; ex_send "two" 4; ex_relay; ex_relay].
Definition ex_world : world := chain_run ex_chain (genesis ex_bank) ex_life.

(** what [f] says of the contract at [a] *)
Definition read_at {X} (w : world) (a : addr) (f : cstate -> X) : option X :=
  match om_get a (w_inst w) with Some (IC st) => Some (f st) | _ => None end.
Lemma read_at_some {X} w a (f : cstate -> X) v :
  read_at w a f = Some v -> exists st, contract_at w a st /\ f st = v.
Proof.
  unfold read_at, contract_at.
  destruct (om_get a (w_inst w)) as [[st | st] |]; try discriminate.
  intros H. injection H as <-. eauto.
Qed.

Lemma ex_reachable : reachable ex_chain ex_world.
Proof. exists ex_bank, ex_life. split; [exact ex_bank_sorted | reflexivity]. Qed.
Lemma ex_mailbox_there : exists st, contract_at ex_world (at_ 0) st /\ is_mailbox st /\
  reported_nonce st = Some 2 /\ reported_delivered st (keccak256_hash ex_arriving) = Some true.
Proof.
  destruct (read_at_some ex_world (at_ 0)
    (fun st => (kind st, reported_nonce st, reported_delivered st (keccak256_hash ex_arriving)))
    (0, Some 2, Some true)) as (st & Hc & H); [vm_compute; reflexivity |].
  exists st. split; [exact Hc |]. injection H as H1 H2 H3. auto.
Qed.

Example C50_example :
  (balance ex_world alice (s "uosmo"), balance ex_world (at_ 2) (s "uosmo"),
   balance ex_world (at_ 0) (s "uosmo"), supply ex_world (s "uosmo"),
   minted (s "uosmo") (w_log ex_world), supply ex_world (s "uatom"))
  = (92, 8, 0, 100, 0, 5).
Proof. vm_compute. reflexivity. Qed.
(** the underpaid dispatch fails *)
Example C50_failure_example :
  match tx_run ex_chain 20 (snd (ex_send "none" 3)) ex_world with Ok _ => false | _ => true end = true.
Proof. vm_compute. reflexivity. Qed.

(** ** C17 on a chain *)
Theorem C17_chain C w a st :
  reachable C w -> contract_at w a st -> is_mailbox st ->
  let ds := dispatched_at a (w_log w) in
  reported_nonce st = Some (N.of_nat (length ds)) /\
  N.of_nat (length ds) < u32_max /\
  reported_latest st = option_map keccak256_hash (nth_error (rev ds) 0) /\
  (exists dom, reported_domain st = Some dom /\
   forall k raw, nth_error ds k = Some raw ->
     exists m, msg_decode raw = Ok m /\ m_version m = 3 /\
               m_nonce m = N.of_nat k /\ m_origin m = dom) /\
  NoDup ds.
Proof. exact (chain_nonces C w a st). Qed.
Print Assumptions C17_chain.

Example C17_chain_example :
  reachable ex_chain ex_world /\
  (exists st, contract_at ex_world (at_ 0) st /\ is_mailbox st /\ reported_nonce st = Some 2) /\
  map (fun raw => match msg_decode raw with Ok m => (m_nonce m, m_body m) | _ => (0, []) end)
    (dispatched_at (at_ 0) (w_log ex_world)) = [(0, s "one"); (1, s "two")].
Proof.
  split; [exact ex_reachable |]. split.
  - destruct ex_mailbox_there as (st & H1 & H2 & H3 & _). eauto.
  - vm_compute. reflexivity.
Qed.

(** ** C18 on a chain: the coins of dispatches pass through, the rest stays *)
Theorem C18_chain C bank l w a st d :
  chain_ok C -> om_sorted bank -> w = chain_run C (genesis bank) l ->
  contract_at w a st -> is_mailbox st ->
  balance w a d + dispatch_funds a d (w_log w) = bal bank a d + inflow a d (w_log w).
Proof. exact (chain_dispatch_funds C bank l w a st d). Qed.
Print Assumptions C18_chain.

Example C18_chain_example :
  (balance ex_world (at_ 0) (s "uosmo"), dispatch_funds (at_ 0) (s "uosmo") (w_log ex_world),
   inflow (at_ 0) (s "uosmo") (w_log ex_world)) = (0, 8, 8).
Proof. vm_compute. reflexivity. Qed.

(** ** C21 on a chain: recipients hear of each processed message exactly once *)
Theorem C21_chain C w a st :
  chain_ok C -> reachable C w -> contract_at w a st -> is_mailbox st ->
  NoDup (map keccak256_hash (processed_at a (w_log w))) /\
  (forall id, reported_delivered st id = Some true <->
     exists raw, In raw (processed_at a (w_log w)) /\ keccak256_hash raw = id) /\
  exists hrp l, reported_hrp st = Some hrp /\
    Forall2 (delivers hrp) (processed_at a (w_log w)) l /\
    Permutation (deliveries_by a (w_log w)) l.
Proof. exact (chain_deliveries C w a st). Qed.
Print Assumptions C21_chain.

(** the recipient asked for a second delivery and a relayer for a third *)
Example C21_chain_example :
  processed_at (at_ 0) (w_log ex_world) = [ex_arriving] /\
  deliveries_by (at_ 0) (w_log ex_world) = [(at_ 4, (9, repeat x02 32, s "hi"))] /\
  length (filter (fun x => match x with LCall _ (EvReply 1 (Err _)) _ => true | _ => false end)
    (w_log ex_world)) = 1%nat.
Proof. vm_compute. repeat split; reflexivity. Qed.
