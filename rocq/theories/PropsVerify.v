(** * Deliveries on a chain are vouched for (C64). *)
From Coq Require Import List NArith Bool.
From Verif Require Import Base OMap Coins Crypto Message Bech32 Chain Ownable Router Contracts Spec SpecModules
  Mailbox Va Isms Hooks Igp Warp Cw20 StepFacts MailboxConfFacts World SpecWorld SpecVerify WorldFacts WorldVerify
  PropsAccess PropsIsm PropsWorld PropsBridge.
Import ListNotations.

(** ** C64 *)
(** every message a mailbox on a chain accepted was, in the state of the chain
    at that moment, vouched for by the module its recipient names, or else by the
    mailbox's default module *)
Theorem C64_processed_was_vouched C w mb mbst e i md raw Q r :
  reachable C w -> contract_at w mb mbst -> is_mailbox mbst ->
  In (EvExec e i (MProcess md raw) Q, r) (answers_at mb (w_log w)) ->
  exists pre post st1 hrp m rcp o dflt,
    w_log w = pre ++ LCall mb (EvExec e i (MProcess md raw) Q) r :: post /\
    as_of C pre mb st1 /\ reported_hrp st1 = Some hrp /\ reported_domain st1 = Some (m_dest m) /\
    msg_decode raw = Ok m /\ m_version m = 3 /\ bech32_encode hrp (m_recipient m) = Ok rcp /\
    (outside (w_log w) rcp \/ exists st, as_of C pre rcp st /\ reported_conn st QConnIsm = Some o) /\
    reported_default_ism st1 = Some dflt /\
    reported_delivered st1 (keccak256_hash raw) = Some false /\
    vouched (ch_api C) (as_of C pre) (outside pre) (match o with Some x => x | None => dflt end) md raw.
Proof. exact (processed_vouched C w mb mbst e i md raw Q r). Qed.
Print Assumptions C64_processed_was_vouched.

(** a warp route never hands out tokens for anything else *)
Theorem C64_release_was_vouched C w mb mbst route st e i o sd bd Q r :
  chain_ok C -> reachable C w -> contract_at w mb mbst -> is_mailbox mbst ->
  contract_at w route st -> is_warp st -> warp_mailbox st = Some mb ->
  In (EvExec e i (MHandle o sd bd) Q, r) (answers_at route (w_log w)) ->
  exists pre post e' i' md raw Q' r' m st1 mb1 dflt,
    w_log w = pre ++ LCall mb (EvExec e' i' (MProcess md raw) Q') r' :: post /\
    msg_decode raw = Ok m /\ m_origin m = o /\ m_sender m = sd /\ m_body m = bd /\
    as_of C pre mb mb1 /\ reported_default_ism mb1 = Some dflt /\ as_of C pre route st1 /\
    vouched (ch_api C) (as_of C pre) (outside pre)
      (match reported_conn st1 QConnIsm with Some (Some x) => x | _ => dflt end) md raw.
Proof. exact (release_vouched C w mb mbst route st e i o sd bd Q r). Qed.
Print Assumptions C64_release_was_vouched.

(** 0 mailbox, 1 multisig (two of three), 2 pausable, 3 both of them, 4 routing
    by origin (the default module), 5 a warp route; four deliveries are tried:
    one signature, two signatures of the same validator, two validators, and the
    last again *)
Definition signed_chain : chain := mkChain ex_recover ex_ext at_ ex_account.
Lemma signed_chain_ok : chain_ok signed_chain.
Proof.
  intros n. cbn [ch_account ch_addr signed_chain]. unfold at_.
  destruct (ex_account (enc (be32 n))) eqn:E; [vm_compute; reflexivity | exact E].
Qed.
Definition signed_setup : list tx :=
  [TDeploy alice (IMailbox (s "osmo") alice 7) [];
   TDeploy alice (IMultisig alice) [];
   TDeploy alice (IPausableIsm alice false) [];
   TDeploy alice (IAggIsm alice [at_ 1; at_ 2] 2) [];
   TDeploy alice (IRoutingIsm alice [(5, at_ 3)]) [];
   TDeploy alice (IWarpNative (NtBridged (s "wosmo") None) (s "osmo") alice (at_ 0)) [];
   TExec alice (at_ 1) (MSetValidators 5 2 [ex_val x01; ex_val x02; ex_val x03]) [];
   TExec alice (at_ 0) (MSetDefaultIsm (at_ 4)) [];
   TExec alice (at_ 5) (MRouter (SetRoute (mkRouteSet 5 (Some (be32 9))))) []].
Definition signed_raw : bytes :=
  msg_encode (mkMessage 3 0 5 (be32 9) 7 (be32 5) (to_alice ++ be 32 30)).
Definition signed_md (sigs : list bytes) : bytes :=
  let md := ex_md sigs in let n := 16 + N.of_nat (length md) in
  be 4 16 ++ be 4 n ++ be 4 n ++ be 4 n ++ md.
Definition signed_tries : list tx :=
  map (fun sigs => TExec relayer (at_ 0) (MProcess (signed_md sigs) signed_raw) [])
    [[ex_sig x01]; [ex_sig x01; ex_sig x01]; [ex_sig x03; ex_sig x01]; [ex_sig x03; ex_sig x01]].
Definition signed_world : world :=
  chain_run signed_chain (genesis []) (both (signed_setup ++ signed_tries)).

Example C64_example :
  chain_ok signed_chain /\ reachable signed_chain signed_world /\
  (processed_at (at_ 0) (w_log signed_world), balance signed_world alice (factory_denom (at_ 5) (s "wosmo")),
   read_at signed_world (at_ 0) kind, read_at signed_world (at_ 5) warp_mailbox,
   flat_map (fun p => match p with (EvExec _ _ (MHandle o _ _) _, _) => [o] | _ => [] end)
     (answers_at (at_ 5) (w_log signed_world)))
  = ([signed_raw], 30, Some 0, Some (Some (at_ 0)), [5]).
Proof.
  split; [exact signed_chain_ok |].
  split; [exists [], (both (signed_setup ++ signed_tries)); split; [exact I | reflexivity] |].
  vm_compute. reflexivity.
Qed.
