(** * When a contract aborts (specification vocabulary for C78).

    An abort is a Rust panic: an index out of range, an [unwrap] of nothing, an
    overflow.  The reasons are written in terms of the bytes received, the
    settings reported and the answers of others. *)
From Coq Require Import List NArith Bool.
From Verif Require Import Base Bech32 Coins Message Chain Contracts Spec SpecModules
  Mailbox Va Isms Hooks Igp Warp Cw20.
Import ListNotations.

(** fewer bytes than the fixed part of a message *)
Definition short_message (raw : bytes) : Prop := (length raw < 77)%nat.
(** a signature without recovery byte, or with one below 27 *)
Definition bad_signature (sg : bytes) : Prop :=
  (length sg < 65)%nat \/ exists v, nth_error sg 64 = Some v /\ bN v < 27.
(** the chain's signature recovery answers with no bytes at all *)
Definition empty_key (A : api) : Prop := exists h rs v, api_recover A h rs v = Some [].
(** an address text that stands for more than 32 bytes *)
Definition long_address (a : str) : Prop := exists b, bech32_decode a = Ok b /\ (32 < length b)%nat.
(** a price whose product leaves 256 bits *)
Definition price_overflow (q : querier) (st : cstate) (d gas : N) : Prop :=
  exists price rate, gas_terms q st d price rate /\ ~ fits gas price rate.
(** a refund field of 20 or 32 bytes beginning with sixteen zeros *)
Definition blank_refund (md : bytes) : Prop :=
  (length md = 52%nat \/ length md = 64%nat) /\ firstn 16 (skipn 32 md) = zeros 16.
(** no router is enrolled for a domain *)
Definition no_route (st : cstate) (d : N) : Prop := reported_route st d = Some None.
(** the price of the gas a message asks for leaves 256 bits *)
Definition message_overflow (q : querier) (st : cstate) (md raw : bytes) : Prop :=
  exists m gas, msg_decode raw = Ok m /\ requested_gas st md m gas /\ price_overflow q st (m_dest m) gas.

(** why [execute] may abort; the token contract, which is not in /repo, is left out *)
Definition execute_aborts (A : api) (q : querier) (i : info) (m : emsg) (st : cstate) : Prop :=
  match st, m with
  | SMailbox _, MDispatch d =>
      reported_default_hook st = None \/ reported_required_hook st = None \/
      (exists n, reported_nonce st = Some n /\ 2 ^ 32 <= n + 1) \/ long_address (i_sender i)
  | SMailbox _, MProcess _ raw => short_message raw \/ reported_default_ism st = None
  | SVa _, MAnnounce _ sg _ =>
      bad_signature sg \/ empty_key A \/ (exists mb, reported_va_mailbox st = Some mb /\ (32 < length mb)%nat)
  | (SMerkle _ | SAggHook _ | SRoutingHook _ | SCustomHook _ | SFallbackHook _), MPostDispatch _ raw => short_message raw
  | SIgp _, MPostDispatch md raw =>
      short_message raw \/ blank_refund md \/ message_overflow q st md raw
  | SIgp _, MPayForGas _ d gas _ => price_overflow q st d gas
  | (SWarpNative _ | SWarpCw20 _), MHandle origin _ body =>
      warp_mailbox st = Some (i_sender i) /\ (no_route st origin \/ (length body < 64)%nat)
  | SWarpNative _, MTransferRemote d _ _ _ _ =>
      no_route st d \/
      exists token, reported_token st = Some token /\ Forall (fun c => c_denom c <> token) (i_funds i)
  | SWarpCw20 _, MTransferRemote d _ _ _ _ => no_route st d
  | SCw20 _, _ => True
  | _, _ => False
  end.

(** a table of offsets that does not describe the metadata *)
Definition bad_table (md : bytes) (isms : list addr) : Prop :=
  exists k a, nth_error isms k = Some a /\ forall part, ~ module_slice md k part.

(** why [query] may abort *)
Definition query_aborts (A : api) (q : querier) (m : qmsg) (st : cstate) : Prop :=
  match st, m with
  | SMailbox _, QMailboxQuote sender _ =>
      reported_default_hook st = None \/ reported_required_hook st = None \/ long_address sender
  | SMailbox _, (QDefaultIsm | QRecipientIsm _) => reported_default_ism st = None
  | SMailbox _, QDefaultHook => reported_default_hook st = None
  | SMailbox _, QRequiredHook => reported_required_hook st = None
  | SMultisig _, QVerify md raw =>
      (length md < 68)%nat \/ short_message raw \/ empty_key A \/
      exists tree root index sigs sg, multisig_metadata md tree root index sigs /\ In sg sigs /\ bad_signature sg
  | SMultisig _, QVerifyInfo raw => short_message raw
  | SAggIsm _, QVerify md _ =>
      exists isms t, reported_modules st = Some (isms, t) /\ (t = 0 \/ bad_table md isms)
  | SRoutingIsm _, (QVerify _ raw | QVerifyInfo raw | QRoute raw) => short_message raw
  | SPausableIsm _, QVerifyInfo _ => True
  | (SRoutingHook _ | SCustomHook _ | SFallbackHook _), QHookQuote _ raw => short_message raw
  | SIgp _, QHookQuote md raw =>
      short_message raw \/ message_overflow q st md raw
  | SIgp _, QQuoteGasPayment d gas => price_overflow q st d gas
  | _, _ => False
  end.
