(** * When security modules must answer.

    The converse of SpecVerify.v: what has to be put before the modules for a
    message to be accepted.  Stated from what contracts report, the metadata and
    the signatures alone. *)
From Coq Require Import List NArith Bool.
From Verif Require Import Base OMap Crypto Bech32 Message Coins Chain Contracts Spec SpecModules MailboxConfFacts World
  SpecWorld SpecBridge.
Import ListNotations.

Section Answers.
  Variable A : api.
  Variable St : addr -> cstate -> Prop.
  Variable O : nat -> addr -> bytes -> bytes -> bool -> Prop.
  (** the module at an address answers for message [raw] with metadata [md]: yes
      if the last argument is [true], yes or no (rather than failing) if it is
      [false]; the first argument counts modules asking modules.
      - multisig (/repo/contracts/isms/multisig/src/query.rs:21-68): every
        signature up to the one that completes the threshold belongs to somebody,
        and enough of them to different enrolled validators (else all of them
        belong to somebody);
      - aggregate (/repo/contracts/isms/aggregate/src/lib.rs:136-160): every
        module of the list answers on its slice of the metadata, enough say yes;
      - routing (/repo/contracts/isms/routing/src/contract.rs:112-124): the module
        set for the origin answers;
      - pausable (/repo/contracts/isms/pausable/src/lib.rs:81-90): not paused;
      - contracts of others: [O] says what they answer *)
  Inductive answers : nat -> addr -> bytes -> bytes -> bool -> Prop :=
  | answers_multisig n x st md raw m tree root index pre suf vs t signers :
      St x st -> is_multisig st -> msg_decode raw = Ok m ->
      multisig_metadata md tree root index (pre ++ suf) ->
      reported_enrolled st (m_origin m) = Some (vs, t) -> 0 < t ->
      Forall (fun sg => exists a,
        signed_by A (checkpoint_digest (m_origin m) tree root index (keccak256_hash raw)) sg a) pre ->
      NoDup signers -> t <= N.of_nat (length signers) ->
      Forall (fun a => In a vs /\ exists sg, In sg pre /\
        signed_by A (checkpoint_digest (m_origin m) tree root index (keccak256_hash raw)) sg a) signers ->
      answers (S n) x md raw true
  | answers_multisig_any n x st md raw m tree root index sigs vs t :
      St x st -> is_multisig st -> msg_decode raw = Ok m ->
      multisig_metadata md tree root index sigs ->
      reported_enrolled st (m_origin m) = Some (vs, t) -> 0 < t ->
      Forall (fun sg => exists a,
        signed_by A (checkpoint_digest (m_origin m) tree root index (keccak256_hash raw)) sg a) sigs ->
      answers (S n) x md raw false
  | answers_aggregate n x st md raw isms t ok :
      St x st -> reported_modules st = Some (isms, t) -> 0 < t -> NoDup isms ->
      NoDup ok -> incl ok isms -> t <= N.of_nat (length ok) ->
      (forall k y, nth_error isms k = Some y -> exists md',
         module_slice md k md' /\ answers n y md' raw (existsb (bytes_eqb y) ok)) ->
      answers (S n) x md raw true
  | answers_routing n x st md raw y b :
      St x st -> is_routing_ism st -> reported_module_for st raw = Some y ->
      answers n y md raw b -> answers (S n) x md raw b
  | answers_pausable n x st md raw :
      St x st -> is_pausable_ism st -> reported_paused st = Some false -> answers (S n) x md raw true
  | answers_outside n x md raw b : O n x md raw b -> answers n x md raw b.
End Answers.

(** what programs of others answer, whatever the mailbox at [mb] has delivered *)
Definition others_answer (C : chain) (w : world) (mb : addr) (n : nat) (x : addr) (md raw : bytes) (b : bool) : Prop :=
  forall k mbst, (n <= k)%nat -> reported_domain mbst <> None ->
    exists b', q_smart (wq C k (set_inst mb (IC mbst) w)) x (QVerify md raw) = Ok (RVerified b') /\
      (b = true -> b' = true).

(** the module a mailbox consults for a message to a contract in state [st] *)
Definition consulted (st mbst : cstate) (x : addr) : Prop :=
  exists o d, reported_conn st QConnIsm = Some o /\ reported_default_ism mbst = Some d /\
    x = match o with Some y => y | None => d end.

(** message [raw] (read as [m]) is for the contract at [route], in state [st], and
    was not delivered; its module answers yes to metadata [md] *)
Definition deliverable (C : chain) (n : nat) (w : world) (mb route : addr) (mbst st : cstate) (md raw : bytes)
    (m : message) : Prop :=
  contract_at w mb mbst /\ is_mailbox mbst /\ contract_at w route st /\
  msg_decode raw = Ok m /\ m_version m = 3 /\ reported_domain mbst = Some (m_dest m) /\
  (exists hrp, reported_hrp mbst = Some hrp /\ bech32_encode hrp (m_recipient m) = Ok route) /\
  reported_delivered mbst (keccak256_hash raw) = Some false /\
  exists x, consulted st mbst x /\ answers (ch_api C) (contract_at w) (others_answer C w mb) n x md raw true.

(** what delivering changes outside the accounts: the mailbox remembers it, and answers all other questions as before *)
Definition only_delivered (w w' : world) (mb : addr) (raw : bytes) : Prop :=
  w_admin w' = w_admin w /\ w_height w' = w_height w /\
  exists mbst, contract_at w' mb mbst /\ is_mailbox mbst /\ reported_delivered mbst (keccak256_hash raw) = Some true /\
    forall st, contract_at w mb st ->
    forall A q m, m <> QDelivered (keccak256_hash raw) -> c_query A q m mbst = c_query A q m st.

(** account [a] holds [n] of the token of a warp route in state [st] *)
Definition holds (w : world) (st : cstate) (a : addr) (n : N) : Prop :=
  exists tk, reported_token st = Some tk /\
    ((is_warp_native st /\ n = balance w a tk) \/
     (is_warp_cw20 st /\ exists tst, contract_at w tk tst /\ is_cw20 tst /\ n = cw_holding tst a)).

(** the token contract of a cw20 route that issues its token can issue [n] more *)
Definition can_issue (w : world) (st : cstate) (n : N) : Prop :=
  is_warp_cw20 st -> reported_mode st = Some Bridged ->
  forall tk tst, reported_token st = Some tk -> contract_at w tk tst -> cw_total tst + n < 2 ^ 128.

(** [amount] of the route's token went to [recipient], out of what the route held
    if it locks the token, newly issued otherwise; nothing else moved *)
Definition paid_out (w w' : world) (mb route : addr) (st : cstate) (recipient : addr) (amount : N) : Prop :=
  (forall a n, holds w st a n -> exists n', holds w' st a n' /\
     n' + (if (mode_eqb (reported_mode st) Collateral && bytes_eqb a route)%bool then amount else 0)
     = n + (if bytes_eqb a recipient then amount else 0)) /\
  (forall a d, is_warp_cw20 st \/ reported_token st <> Some d -> balance w' a d = balance w a d) /\
  (is_warp_cw20 st -> forall tk tst, reported_token st = Some tk -> contract_at w tk tst -> exists tst',
     contract_at w' tk tst' /\ cw_total tst' = cw_total tst + (if mode_eqb (reported_mode st) Collateral then 0 else amount)) /\
  (forall a : addr, a <> mb -> (is_warp_cw20 st -> reported_token st <> Some a) -> om_get a (w_inst w') = om_get a (w_inst w)).
