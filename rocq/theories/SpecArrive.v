(** * Vocabulary for "what is sent on one chain can be received on the other".

    Joins SpecTransfer.v (sending) and SpecLive.v (receiving)
    (/repo/contracts/warp/native/src/contract.rs:198-268,
    /repo/contracts/warp/cw20/src/contract.rs:185-255,
    /repo/contracts/core/mailbox/src/execute.rs:201-303). *)
From Coq Require Import List NArith Bool.
From Verif Require Import Base OMap Crypto Bech32 Message Coins Chain Contracts Spec SpecModules MailboxConfFacts World
  SpecWorld SpecBridge SpecLive.
Import ListNotations.

(** the same chain, mailbox and route after more transactions *)
Definition later (S : side) (w : world) (l : list (nat * tx)) : side :=
  mkSide (sd_chain S) (chain_run (sd_chain S) w l) (sd_domain S) (sd_mailbox S) (sd_route S) (sd_name S).

(** the route of [T], in state [st], takes messages from the route of [S]; the 32
    bytes [rcp] are the account [to] there; the module the mailbox of [T] consults
    answers yes to message [raw] with metadata [md] *)
Definition awaits (S T : side) (n : nat) (mbst st : cstate) (md raw rcp : bytes) (to : addr) : Prop :=
  contract_at (sd_world T) (sd_mailbox T) mbst /\ contract_at (sd_world T) (sd_route T) st /\
  reported_route st (sd_domain S) = Some (Some (sd_name S)) /\
  bech32_encode (warp_hrp st) rcp = Ok to /\ api_valid (ch_api (sd_chain T)) to = true /\
  exists x, consulted st mbst x /\
    answers (ch_api (sd_chain T)) (contract_at (sd_world T)) (others_answer (sd_chain T) (sd_world T) (sd_mailbox T))
      n x md raw true.

(** [T]'s route issues its token and can issue [amount] more, or it locks a token
    of which nothing was ever issued but by [S]'s route *)
Definition can_pay (S T : side) (st : cstate) (amount : N) : Prop :=
  (reported_mode st = Some Bridged /\ (exists held, holds (sd_world T) st (sd_route T) held) /\
   can_issue (sd_world T) st amount) \/
  (exists held base out, custody T held base /\ issued S out 0).

(** no processed message has the same identifier as [raw] without being [raw] *)
Definition no_clash (T : side) (raw : bytes) : Prop :=
  forall raw', In raw' (processed_at (sd_mailbox T) (sd_log T)) -> keccak256_hash raw' = keccak256_hash raw -> raw' = raw.
