(** * When a contract aborts (C78). *)
From Coq Require Import List NArith Bool Lia.
From Verif Require Import Base BaseFacts Hex Coins Crypto Message Bech32 Metadata Chain Ownable Router Contracts
  Spec SpecModules SpecWire Mailbox Isms Hooks Igp Warp SpecAbort AbortFacts
  PropsAccess PropsMailbox PropsIsm PropsHooks PropsVa PropsWarp PropsIgp.
Import ListNotations.

(** A contract that was created and called in any way aborts on a message only
    for the reasons listed in [execute_aborts]. *)
Theorem C78_execute A Q e i m st : deployed A st -> c_execute A Q e i m st = Panic -> execute_aborts A (Q st) i m st.
Proof. exact (execute_abort A Q e i m st). Qed.
Print Assumptions C78_execute.

(** None of the reasons is ever overcome: the message is not accepted. *)
Theorem C78_refused A Q e i m st v : ~ empty_key A -> (forall t, st <> SCw20 t) ->
  execute_aborts A (Q st) i m st -> c_execute A Q e i m st <> Ok v.
Proof. exact (execute_refused A Q e i m st v). Qed.
Print Assumptions C78_refused.

Theorem C78_query A q m st : deployed A st -> c_query A q m st = Panic -> query_aborts A q m st.
Proof. exact (query_abort A q m st). Qed.
Print Assumptions C78_query.

(** creation (but for the token contract, whose supply may overflow) and the
    processing of replies never abort *)
Theorem C78_create A q e i m : (forall mt l, m <> ICw20 mt l) -> c_instantiate A q e i m <> Panic.
Proof. exact (instantiate_abort A q e i m). Qed.
Print Assumptions C78_create.
Theorem C78_reply A id r st : c_reply A id r st <> Panic.
Proof. exact (reply_abort A id r st). Qed.
Print Assumptions C78_reply.

Lemma ex_deployed m h st r : c_instantiate ex_api no_querier ex_env (mkInfo (s "creator") []) m = Ok (st, r) ->
  deployed ex_api (c_run ex_api st h).
Proof. intros H. do 7 eexists. split; [exact H|reflexivity]. Qed.

(** The reasons are real: each of these aborts. *)
Example C78_example :
  let short := firstn 76 ex_raw in
  let run st ev := match ev with
    | EvExec e i m Q => match c_execute ex_api Q e i m st with Panic => true | _ => false end
    | _ => false end in
  let ask st m := match c_query ex_recover ex_modules m st with Panic => true | _ => false end in
  (exists st, deployed ex_api st /\ st = born (IMailbox (s "osmo") (s "owner") 5) /\
     run st (ex_dispatch ex_funds) = true) /\
  run ex_full (ex_dispatch ex_funds) = true /\
  run ex_mailbox (call "relayer" (MProcess [] short)) = true /\
  run (born (IMailbox (s "osmo") (s "owner") 7)) (call "relayer" (MProcess [] short)) = true /\
  run ex_va (call "v" (MAnnounce (repeat x01 20) (repeat x01 64) (s "here"))) = true /\
  run ex_va (call "v" (MAnnounce (repeat x01 20) (repeat x01 64 ++ [x1a]) (s "here"))) = true /\
  run ex_routing (call "mailbox" (MPostDispatch [] short)) = true /\
  run ex_igp (call "mailbox" (MPostDispatch (be 32 1 ++ zeros 20) (ex_hook_raw 7 x01))) = true /\
  run ex_native (call "bob" (MTransferRemote 9 (repeat x0a 32) 5 None None)) = true /\
  run ex_native (call "bob" (MTransferRemote 7 (repeat x0a 32) 5 None None)) = true /\
  run (ex_cw20 true) (call "bob" (MTransferRemote 9 (repeat x0a 32) 5 None None)) = true /\
  ask ex_multisig (QVerify (firstn 67 (ex_md [ex_sig x01])) ex_raw) = true /\
  ask ex_multisig (QVerify (ex_md [repeat x01 64 ++ [x00]]) ex_raw) = true /\
  ask ex_multisig (QVerifyInfo short) = true /\
  ask (ex_aggregate ["yes"; "no"]%string 1) (QVerify [] ex_raw) = true /\
  ask (born (IPausableIsm (s "owner") false)) (QVerifyInfo ex_raw) = true /\
  ask ex_igp (QHookQuote [] short) = true.
Proof.
  cbv zeta. split.
  - eexists. split; [|split; [reflexivity|vm_compute; reflexivity]].
    exact (ex_deployed (IMailbox (s "osmo") (s "owner") 5) [] _ _ eq_refl).
  - vm_compute. repeat split.
Qed.
