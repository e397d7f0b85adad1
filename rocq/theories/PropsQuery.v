(** * Interfaces, and queries about others (C67). *)
From Coq Require Import List NArith Bool.
From Verif Require Import Base OMap Coins Message Bech32 Chain Ownable Router Contracts Spec SpecModules SpecWorld SpecQuery
  Mailbox Isms Hooks Igp MailboxConfFacts QueryFacts InfoFacts PropsAccess PropsMailbox PropsIgp PropsWarp.
Import ListNotations.

(** ** C67 *)
(** a contract does nothing for a message outside its own interface *)
Theorem C67_executes_only_its_interface A Q e i m st :
  understands st m = false -> c_execute A Q e i m st = Err EParse.
Proof. exact (not_understood A Q e i m st). Qed.
Print Assumptions C67_executes_only_its_interface.

Theorem C67_answers_only_its_interface A q m st : answers_to st m = false -> c_query A q m st = Err EParse.
Proof. exact (not_answered A q m st). Qed.
Print Assumptions C67_answers_only_its_interface.

(** a security module declares what it is *)
Theorem C67_module_type A q st t : c_query A q QModuleType st = Ok (RModuleType t) <-> declared_type st = Some t.
Proof. exact (module_type A q st t). Qed.
Print Assumptions C67_module_type.

(** the mailbox a hook names never changes *)
Theorem C67_hook_mailbox A st h : reported_hook_mailbox (c_run A st h) = reported_hook_mailbox st.
Proof. exact (hook_mailbox_fixed A st h). Qed.
Print Assumptions C67_hook_mailbox.

(** the mailbox reports a recipient's own module, or else its default ... *)
Theorem C67_recipient_module A q st r x : is_mailbox st ->
  (c_query A q (QRecipientIsm r) st = Ok (RRecipientIsm x) <->
   exists o dflt, api_valid A r = true /\ q_smart q r QIsmSpecifier = Ok (RIsm o) /\
     reported_default_ism st = Some dflt /\ x = match o with Some y => y | None => dflt end).
Proof. exact (recipient_module A q st r x). Qed.
Print Assumptions C67_recipient_module.

(** ... which is the one that has to approve a delivery *)
Theorem C67_reported_module_approves A Q e i md raw st st' r hrp dom :
  reported_hrp st = Some hrp -> reported_domain st = Some dom ->
  c_execute A Q e i (MProcess md raw) st = Ok (st', r) ->
  exists m recipient,
    msg_decode raw = Ok m /\ bech32_encode hrp (m_recipient m) = Ok recipient /\
    (api_valid A recipient = true ->
     exists x, c_query A (Q st) (QRecipientIsm recipient) st = Ok (RRecipientIsm x) /\
       q_smart (Q st') x (QVerify md raw) = Ok (RVerified true)).
Proof. exact (consulted_module A Q e i md raw st st' r hrp dom). Qed.
Print Assumptions C67_reported_module_approves.

(** the paymaster passes on the terms of the oracle it would charge by *)
Theorem C67_gas_terms A q st d price rate : is_igp st -> d < 2 ^ 32 ->
  (c_query A q (QOracle d) st = Ok (ROracle price rate) <-> gas_terms q st d price rate).
Proof. exact (oracle_answer A q st d price rate). Qed.
Print Assumptions C67_gas_terms.

(** a warp route says which kind of token it stands for *)
Theorem C67_token_kind A q st :
  (forall d, c_query A q QTokenType st = Ok (RTokenDenom d) <-> is_warp_native st /\ reported_token st = Some d) /\
  (forall a, c_query A q QTokenType st = Ok (RTokenCw20 a) <-> is_warp_cw20 st /\ reported_token st = Some a).
Proof. exact (token_kind A q st). Qed.
Print Assumptions C67_token_kind.

Example C67_example :
  is_mailbox ex_mailbox /\
  c_query ex_api ex_hooks (QRecipientIsm (s "plain")) ex_mailbox = Ok (RRecipientIsm (s "ism")) /\
  c_query ex_api ex_hooks (QRecipientIsm (s "other")) ex_mailbox = Ok (RRecipientIsm (s "own-ism")) /\
  c_query ex_api ex_oracle_chain (QOracle 7) ex_igp = Ok (ROracle 21 15000000000) /\
  c_query ex_api ex_oracle_chain (QOracle 8) ex_igp = Err EGasOracleNotFound /\
  c_query ex_api ex_hooks QModuleType (born (IMultisig (s "alice"))) = Ok (RModuleType TMessageIdMultisig) /\
  reported_hook_mailbox (born (IMerkle (s "mailbox"))) = Some (s "mailbox") /\
  reported_hook_mailbox ex_igp = Some (s "unrestricted") /\
  understands ex_igp (MSetFee (mkCoin (s "uosmo") 1)) = false /\ answers_to ex_igp QFee = false /\
  c_query ex_api no_querier QTokenType ex_native = Ok (RTokenDenom (s "uosmo")) /\
  c_query ex_api no_querier QTokenType (ex_cw20 true) = Ok (RTokenCw20 (s "token")).
Proof. repeat split; vm_compute; reflexivity. Qed.
