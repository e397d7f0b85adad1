(** * Coins at contracts that have no business with coins (C99). *)
From Coq Require Import List NArith Bool.
From Verif Require Import Base BaseFacts OMap Hex Coins Crypto Message Bech32 Chain Ownable Isms Contracts StepFacts MailboxConfFacts World SpecWorld
  SpecStray StrayFacts PropsAccess PropsWorld PropsBridge.
Import ListNotations.

(** only the calls named in [paying] send coins anywhere; no reply does, and no deployment *)
Theorem C99_only_paying A st st' r d :
  (forall Q e i m, c_execute A Q e i m st = Ok (st', r) -> paying st m = false ->
     total (msg_out d) (map sm_msg (r_msgs r)) = 0) /\
  (forall id rr, c_reply A id rr st = Ok (st', r) -> total (msg_out d) (map sm_msg (r_msgs r)) = 0) /\
  (forall q e i m, c_instantiate A q e i m = Ok (st', r) -> total (msg_out d) (map sm_msg (r_msgs r)) = 0).
Proof. exact (only_paying A st st' r d). Qed.
Print Assumptions C99_only_paying.

(** the contracts without such calls do not notice what is sent along *)
Theorem C99_unnoticed A Q e sender f f' m st : never_pays st ->
  c_execute A Q e (mkInfo sender f) m st = c_execute A Q e (mkInfo sender f') m st.
Proof. exact (funds_unnoticed A Q e sender f f' m st). Qed.
Print Assumptions C99_unnoticed.

(** on any chain, what they hold is everything they were ever given *)
Theorem C99_kept C bank l w a st d :
  chain_ok C -> om_sorted bank -> w = chain_run C (genesis bank) l -> contract_at w a st -> never_pays st ->
  balance w a d = bal bank a d + inflow a d (w_log w).
Proof. exact (coins_stay C bank l w a st d). Qed.
Print Assumptions C99_kept.

(** and no transactions will ever get any of it out *)
Theorem C99_lost C w txs a st d :
  chain_ok C -> reachable C w -> contract_at w a st -> never_pays st ->
  exists new, w_log (chain_run C w txs) = w_log w ++ new /\
    balance (chain_run C w txs) a d = balance w a d + inflow a d new.
Proof. exact (coins_grow C w txs a st d). Qed.
Print Assumptions C99_lost.

(** the mailbox passes on what came with dispatches and nothing else: what is sent with any other call,
    or with the deployment, stays *)
Theorem C99_mailbox C w txs a st d :
  chain_ok C -> reachable C w -> contract_at w a st -> is_mailbox st ->
  exists new, w_log (chain_run C w txs) = w_log w ++ new /\
    total (paid_dispatch a d) (calls_sent new) <= inflow a d new /\
    balance (chain_run C w txs) a d + total (paid_dispatch a d) (calls_sent new) = balance w a d + inflow a d new.
Proof. exact (mailbox_coins C w txs a st d). Qed.
Print Assumptions C99_mailbox.

(** ** A chain on which alice is careless *)
(** three coins with the validators, four with the mailbox's settings, five with the deployment *)
Definition stray_txs : list (nat * tx) :=
  both [TDeploy alice (IMailbox (s "osmo") alice 7) [mkCoin (s "uosmo") 5]; TDeploy alice (IMultisig alice) [];
        TExec alice (at_ 1) (MSetValidators 9 1 [repeat x01 20]) [mkCoin (s "uosmo") 3];
        TExec alice (at_ 0) (MSetDefaultIsm (at_ 1)) [mkCoin (s "uosmo") 4]].
Definition stray_bank : omap (addr * str) N := om_set (alice, s "uosmo") 100 [].
Definition stray_world : world := chain_run ex_chain (genesis stray_bank) stray_txs.

Lemma stray_seen :
  (read_at stray_world (at_ 0) kind, read_at stray_world (at_ 1) kind, balance stray_world alice (s "uosmo"),
   balance stray_world (at_ 0) (s "uosmo"), balance stray_world (at_ 1) (s "uosmo"), length (w_log stray_world))
  = (Some 0, Some 2, 88, 9, 3, 6%nat).
Proof. vm_compute. reflexivity. Qed.

Example C99_example :
  chain_ok ex_chain /\ om_sorted stray_bank /\ reachable ex_chain stray_world /\
  (exists st, contract_at stray_world (at_ 0) st /\ is_mailbox st) /\
  (exists st, contract_at stray_world (at_ 1) st /\ never_pays st) /\
  balance stray_world (at_ 0) (s "uosmo") = 9 /\ balance stray_world (at_ 1) (s "uosmo") = 3.
Proof.
  pose proof stray_seen as H. apply pair_equal_spec in H as [H _]. apply pair_equal_spec in H as [H B1].
  apply pair_equal_spec in H as [H B0]. apply pair_equal_spec in H as [H _]. apply pair_equal_spec in H as [K0 K1].
  split; [exact ex_chain_ok |]. split; [apply om_sorted_set; exact I |].
  split; [exists stray_bank, stray_txs; split; [apply om_sorted_set; exact I | unfold stray_world; reflexivity] |].
  split.
  { apply read_at_some in K0 as (st & Hc & K). exists st. split; [exact Hc | exact K]. }
  split; [| split; [exact B0 | exact B1]].
  apply read_at_some in K1 as (st & Hc & K). exists st. split; [exact Hc |]. destruct st; try discriminate K; exact I.
Qed.
(** a call that the multisig accepts, with and without coins *)
Example C99_example_call :
  exists st r, c_execute ex_api (fun _ => no_querier) (mkEnv (at_ 1) 5) (mkInfo alice [mkCoin (s "uosmo") 3])
      (MSetValidators 9 1 [repeat x01 20]) (SMultisig (mkMs (own_init alice) [] [])) = Ok (st, r) /\ never_pays st /\ paying st (MSetValidators 9 1 [repeat x01 20]) = false.
Proof. eexists. eexists. split; [vm_compute; reflexivity | split; [exact I | reflexivity]]. Qed.
