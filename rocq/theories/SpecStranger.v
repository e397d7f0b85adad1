(** * Vocabulary: what people who own nothing can change.

    Independent of the proofs: who is in charge of a contract, what of a contract is not mere
    traffic, and histories in which those in charge do nothing. *)
From Coq Require Import List NArith Bool.
From Verif Require Import Base OMap Crypto Bech32 Message Chain Mailbox Contracts Spec SpecModules MailboxConfFacts World SpecWorld SpecBridge SpecLive.
Import ListNotations.

(** the owner, and the one the ownership is offered to: /repo/packages/ownable/src/lib.rs:11-15 *)
Definition in_charge (st : cstate) (u : addr) : Prop := reported_owner st = Some u \/ reported_pending st = Some u.

(** a mailbox without its traffic, /repo/contracts/core/mailbox/src/state.rs:55-65; the other contracts with an owner
    (/repo/contracts/*/*/src/state.rs) keep nothing but settings *)
Definition at_rest (st : cstate) : cstate :=
  match st with
  | SMailbox x => SMailbox (mkMb (mb_own x) (mb_hrp x) (mb_domain x) (mb_ism x) (mb_hook x) (mb_required x) 0 None [])
  | _ => st
  end.

(** the account that signs a transaction to /repo/contracts/*/*/src/{contract,lib}.rs *)
Definition signer (t : tx) : option addr :=
  match t with
  | TExec s _ _ _ | TSend s _ _ | TDeploy s _ _ | TDeployExt s _ _ => Some s
  | TBlock _ => None
  end.
(** the account [u] signs nothing in a history of calls to /repo/contracts/*/*/src/{contract,lib}.rs *)
Definition idle (l : list (nat * tx)) (u : addr) : Prop := forall t, In t l -> signer (snd t) <> Some u.

(** the contract at [a] has an owner (/repo/packages/ownable/src/lib.rs:11-15); those in charge of it hold accounts,
    and sign nothing in [l] *)
Definition left_alone (C : chain) (w : world) (l : list (nat * tx)) (a : addr) : Prop :=
  forall st, contract_at w a st -> reported_owner st <> None /\
    forall u, in_charge st u -> ch_account C u = true /\ idle l u.

(** message [raw] can be delivered ([deliverable] of SpecLive.v), by modules of
    /repo/contracts/isms/*/src/*.rs only, and all contracts it takes are left alone in [l] *)
Definition deliverable_alone (C : chain) (n : nat) (w : world) (l : list (nat * tx)) (mb route : addr) (mbst st : cstate)
    (md raw : bytes) (m : message) : Prop :=
  contract_at w mb mbst /\ is_mailbox mbst /\ contract_at w route st /\
  msg_decode raw = Ok m /\ m_version m = 3 /\ reported_domain mbst = Some (m_dest m) /\
  (exists hrp, reported_hrp mbst = Some hrp /\ bech32_encode hrp (m_recipient m) = Ok route) /\
  reported_delivered mbst (keccak256_hash raw) = Some false /\
  left_alone C w l mb /\ left_alone C w l route /\
  exists x, consulted st mbst x /\
    answers (ch_api C) (fun y yst => contract_at w y yst /\ left_alone C w l y) (fun _ _ _ _ _ => False) n x md raw true.
