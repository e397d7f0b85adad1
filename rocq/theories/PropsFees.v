(** * Collected fees (C100). *)
From Coq Require Import List NArith Bool.
From Verif Require Import Base BaseFacts OMap Hex Coins CoinsFacts Crypto Message Bech32 Chain Ownable Isms Contracts Spec SpecModules StepFacts World SpecWorld
  SpecFees FeesFacts PropsAccess PropsWorld PropsBridge.
Import ListNotations.

(** a fee hook keeps every coin it is given until a claim *)
Theorem C100_fee_hook C w txs a st d :
  chain_ok C -> reachable C w -> contract_at w a st -> is_fee_hook st ->
  exists new, w_log (chain_run C w txs) = w_log w ++ new /\
    balance (chain_run C w txs) a d + claimed a d new = balance w a d + inflow a d new.
Proof. exact (fee_money C w txs a st d). Qed.
Print Assumptions C100_fee_hook.

(** so does a gas paymaster, but for the change it gives, which never exceeds what was paid *)
Theorem C100_paymaster C w txs a st d :
  chain_ok C -> reachable C w -> contract_at w a st -> is_igp st ->
  exists new, w_log (chain_run C w txs) = w_log w ++ new /\
    balance (chain_run C w txs) a d + claimed a d new + refunded a d new = balance w a d + inflow a d new /\
    refunded a d new <= gas_funds a d new /\ gas_funds a d new <= inflow a d new.
Proof. exact (gas_money C w txs a st d). Qed.
Print Assumptions C100_paymaster.

(** claims are made by the one entitled at that moment *)
Theorem C100_entitled C w txs a st :
  chain_ok C -> reachable C w -> contract_at w a st -> is_fee_hook st \/ is_igp st ->
  exists new, w_log (chain_run C w txs) = w_log w ++ new /\
    forall h1 ev r h2, answers_at a new = h1 ++ (ev, r) :: h2 -> is_claim ev = true ->
      ev_sender ev = collector (c_run (ch_api C) st (map fst h1)).
Proof. exact (claims_entitled C w txs a st). Qed.
Print Assumptions C100_entitled.

(** the owner of a fee hook can at any time have everything in it sent anywhere *)
Theorem C100_fee_collected C k w a st who to :
  reachable C w -> contract_at w a st -> is_fee_hook st -> collector st = Some who -> ch_account C who = true ->
  api_valid (ch_api C) to = true -> to <> a -> (forall d, balance w a d < 2 ^ 128) -> (exists d, balance w a d <> 0) -> (2 <= k)%nat ->
  exists w', tx_run C k (TExec who a (MFeeClaim (Some to)) []) w = Ok w' /\ emptied w w' a to (fun _ => true).
Proof. exact (fee_collected C k w a st who to). Qed.
Print Assumptions C100_fee_collected.

(** the beneficiary of a gas paymaster can at any time have all of the gas token in it *)
Theorem C100_gas_collected C k w a st who :
  chain_ok C -> reachable C w -> contract_at w a st -> is_igp st -> collector st = Some who -> ch_account C who = true ->
  api_valid (ch_api C) who = true -> balance w a (gas_token st) < 2 ^ 128 -> balance w a (gas_token st) <> 0 -> (2 <= k)%nat ->
  exists w', tx_run C k (TExec who a MClaim []) w = Ok w' /\ emptied w w' a who (fun d => bytes_eqb d (gas_token st)).
Proof. exact (gas_collected C k w a st who). Qed.
Print Assumptions C100_gas_collected.

(** coins of any other denomination are lost there *)
Theorem C100_gas_foreign C w txs a st d :
  chain_ok C -> reachable C w -> contract_at w a st -> is_igp st -> d <> gas_token st ->
  exists new, w_log (chain_run C w txs) = w_log w ++ new /\
    balance (chain_run C w txs) a d = balance w a d + inflow a d new.
Proof. exact (gas_foreign C w txs a st d). Qed.
Print Assumptions C100_gas_foreign.

(** an aggregate hook looks neither at who posts nor at what is paid *)
Theorem C100_aggregate_blind A Q e sender f sender' f' md raw st : is_aggregate_hook st ->
  c_execute A Q e (mkInfo sender f) (MPostDispatch md raw) st = c_execute A Q e (mkInfo sender' f') (MPostDispatch md raw) st.
Proof. exact (aggregate_blind A Q e sender f sender' f' md raw st). Qed.
Print Assumptions C100_aggregate_blind.

(** ** A chain with fees *)
(** 0 fee hook, 1 oracle, 2 gas paymaster, 3 aggregate hook; the fee hook gets five coins; the paymaster eight for
    gas worth six, and by mistake another token; the aggregate hook ten by mistake *)
Definition fees_txs : list (nat * tx) :=
  both [TDeploy alice (IFeeHook alice (mkCoin (s "uosmo") 4)) []; TDeploy alice (IOracle alice) [];
        TDeploy alice (IIgp (s "osmo") alice (s "uosmo") relayer 100) []; TDeploy alice (IAggHook alice [at_ 0]) [];
        TExec alice (at_ 1) (MSetRemoteGasData (mkGasConfig 9 10000000000 2)) [];
        TExec alice (at_ 2) (MRouter (SetRoute (mkRouteSet 9 (Some (at_ 1))))) [mkCoin (s "uatom") 1];
        TExec relayer (at_ 0) (MPostDispatch [] []) [mkCoin (s "uosmo") 5];
        TExec alice (at_ 2) (MPayForGas (repeat x00 32) 9 3 alice) [mkCoin (s "uosmo") 8];
        TExec alice (at_ 3) (MSetHooks [at_ 0]) [mkCoin (s "uosmo") 10]].
Definition fees_bank : omap (addr * str) N :=
  om_set (alice, s "uosmo") 100 (om_set (alice, s "uatom") 5 (om_set (relayer, s "uosmo") 50 [])).
Lemma fees_bank_sorted : om_sorted fees_bank.
Proof. unfold fees_bank. apply om_sorted_set, om_sorted_set, om_sorted_set. exact I. Qed.
Definition fees_world : world := chain_run ex_chain (genesis fees_bank) fees_txs.
(** the relayer has a message posted without paying *)
Definition free_post : emsg := MPostDispatch [] (msg_encode (mkMessage 3 8 5 (repeat x0a 32) 9 (repeat x01 32) (s "hi"))).
Definition freeload : list (nat * tx) := [(40%nat, TExec relayer (at_ 3) free_post [])].

Lemma fees_seen :
  (read_at fees_world (at_ 0) (fun st => (kind st, collector st)), read_at fees_world (at_ 2) (fun st => (kind st, collector st, gas_token st)),
   read_at fees_world (at_ 3) (fun st => (kind st, reported_owner st)), all_balances fees_world (at_ 0),
   (balance fees_world (at_ 0) (s "uosmo"), balance fees_world (at_ 2) (s "uosmo"), balance fees_world (at_ 2) (s "uatom")),
   (balance fees_world (at_ 3) (s "uosmo"), balance fees_world relayer (s "uosmo"),
    balance (chain_run ex_chain fees_world freeload) (at_ 3) (s "uosmo"), balance (chain_run ex_chain fees_world freeload) relayer (s "uosmo"),
    balance (chain_run ex_chain fees_world freeload) (at_ 0) (s "uosmo")))
  = (Some (12, Some alice), Some (14, Some relayer, s "uosmo"), Some (7, Some alice), [mkCoin (s "uosmo") 5], (5, 6, 1), (10, 45, 6, 45, 9)).
Proof. vm_compute. reflexivity. Qed.

Lemma fees_reachable : reachable ex_chain fees_world.
Proof. exists fees_bank, fees_txs. split; [exact fees_bank_sorted | unfold fees_world; reflexivity]. Qed.

(** a fee hook and a gas paymaster with something to collect, as the theorems ask for *)
Example C100_example :
  chain_ok ex_chain /\ reachable ex_chain fees_world /\ ch_account ex_chain alice = true /\ ch_account ex_chain relayer = true /\
  api_valid ex_api relayer = true /\ relayer <> at_ 0 /\
  (exists st, contract_at fees_world (at_ 0) st /\ is_fee_hook st /\ collector st = Some alice) /\
  (exists st, contract_at fees_world (at_ 2) st /\ is_igp st /\ collector st = Some relayer /\ s "uatom" <> gas_token st /\
     balance fees_world (at_ 2) (gas_token st) = 6) /\
  (forall d, balance fees_world (at_ 0) d < 2 ^ 128) /\ balance fees_world (at_ 0) (s "uosmo") = 5 /\
  balance fees_world (at_ 2) (s "uatom") = 1.
Proof.
  pose proof fees_seen as H. apply pair_equal_spec in H as [H _]. apply pair_equal_spec in H as [H B]. apply pair_equal_spec in H as [H L].
  apply pair_equal_spec in H as [H _]. apply pair_equal_spec in H as [H0 H2]. apply pair_equal_spec in B as [B U]. apply pair_equal_spec in B as [B0 B2].
  split; [exact ex_chain_ok |]. split; [exact fees_reachable |]. split; [vm_compute; reflexivity |]. split; [vm_compute; reflexivity |].
  split; [reflexivity |]. split; [vm_compute; discriminate |].
  split. { apply read_at_some in H0 as (st & Hc & H0). apply pair_equal_spec in H0 as [K O]. exists st. split; [exact Hc |].
    split; [destruct st; try discriminate K; exact I | exact O]. }
  split. { apply read_at_some in H2 as (st & Hc & H2). apply pair_equal_spec in H2 as [H2 T]. apply pair_equal_spec in H2 as [K O]. exists st. split; [exact Hc |].
    split; [destruct st; try discriminate K; exact I |]. split; [exact O |]. rewrite T. split; [vm_compute; discriminate | exact B2]. }
  split; [| split; [exact B0 | exact U]].
  intros d. rewrite <- (all_balances_amount ex_chain fees_world (at_ 0) d fees_reachable), L.
  rewrite amount_of_cons. cbn [c_denom c_amount amount_of fold_right]. destruct (bytes_eqb d (s "uosmo")); reflexivity.
Qed.

Lemma freeload_works :
  exists C w a st who k m d,
    chain_ok C /\ reachable C w /\ contract_at w a st /\ is_aggregate_hook st /\ reported_owner st <> Some who /\
    balance (chain_run C w [(k, TExec who a m [])]) a d < balance w a d /\
    balance (chain_run C w [(k, TExec who a m [])]) who d = balance w who d.
Proof.
  pose proof fees_seen as H. apply pair_equal_spec in H as [H F]. apply pair_equal_spec in H as [H _]. apply pair_equal_spec in H as [H _].
  apply pair_equal_spec in H as [_ K]. apply pair_equal_spec in F as [F _]. apply pair_equal_spec in F as [F F4]. apply pair_equal_spec in F as [F F3].
  apply pair_equal_spec in F as [B3 R].
  apply read_at_some in K as (st & Hc & K). apply pair_equal_spec in K as [K O].
  exists ex_chain, fees_world, (at_ 3), st, relayer, 40%nat, free_post, (s "uosmo").
  split; [exact ex_chain_ok |]. split; [exact fees_reachable |]. split; [exact Hc |]. split; [destruct st; try discriminate K; exact I |].
  split; [rewrite O; vm_compute; discriminate |]. fold freeload. rewrite F3, F4, B3, R. split; reflexivity.
Qed.

(** Full statement: what somebody left at an aggregate hook is not spent by others.  False: somebody who neither owns
    the hook nor pays anything has its coins spent on the fees of a message of their choice. *)
Theorem C100_aggregate_keeps_refuted :
  exists C w a st who k m d,
    chain_ok C /\ reachable C w /\ contract_at w a st /\ is_aggregate_hook st /\ reported_owner st <> Some who /\
    balance (chain_run C w [(k, TExec who a m [])]) a d < balance w a d /\
    balance (chain_run C w [(k, TExec who a m [])]) who d = balance w who d.
Proof. exact freeload_works. Qed.
Print Assumptions C100_aggregate_keeps_refuted.
