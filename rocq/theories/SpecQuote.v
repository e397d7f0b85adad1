(** * Vocabulary: what a quote or a verdict depends on.

    Independent of the proofs: questions that are not about traffic, what of a contract is fixed unless its owner acts,
    and the chain reduced to a few contracts. *)
From Coq Require Import List NArith Bool.
From Verif Require Import Base OMap Crypto Bech32 Message Merkle Coins Chain Ownable Mailbox Va Hooks Contracts Spec SpecModules World SpecWorld SpecStranger.
Import ListNotations.

(** questions about what passed through a contract, not about how it is set up:
    /repo/packages/interface/src/core/mailbox.rs:140-190, core/va.rs:19-33, hook/merkle.rs:26-43 *)
Definition lasting (m : qmsg) : bool :=
  match m with
  | QDelivered _ | QNonce | QLatestDispatchId
  | QMerkleCount | QMerkleRoot | QMerkleBranch | QMerkleTree | QMerkleCheckPoint
  | QLocations _ | QValidators => false
  | _ => true
  end.

(** a contract without its traffic: messages of a mailbox (/repo/contracts/core/mailbox/src/state.rs:55-65), leaves of a
    merkle hook (/repo/contracts/hooks/merkle/src/lib.rs:46-50), announcements (/repo/contracts/core/va/src/state.rs:4-17) *)
Definition set_up (st : cstate) : cstate :=
  match st with
  | SMerkle x => SMerkle (mkMk (mk_mailbox x) mt_default)
  | SVa x => SVa (mkVa (va_mailbox x) (va_domain x) [] [] [])
  | _ => at_rest st
  end.

(** the contract at [a], if any, is one of /repo/contracts/*/*/src/*.rs, and either nobody can set it up anew, or those who can
    hold accounts and sign nothing in [l] *)
Definition undisturbed (C : chain) (w : world) (l : list (nat * tx)) (a : addr) : Prop :=
  match om_get a (w_inst w) with
  | None => True
  | Some (IX _) => False
  | Some (IC (SMerkle _)) | Some (IC (SVa _)) => True
  | Some (IC _) => left_alone C w l a
  end.

(** the chain with no other contracts than those at addresses in [P]; queries to others fail,
    e.g. in /repo/packages/interface/src/hook/mod.rs:93-107 *)
Definition keep (P : addr -> bool) (w : world) : world :=
  mkWorld (filter (fun x => P (fst x)) (w_inst w)) (w_bank w) (w_admin w) (w_height w) (w_next w) (w_log w).

(** two messages that differ in their number only: bytes 1 to 4 of /repo/packages/interface/src/types/message.rs:30-45 *)
Definition renumbered (raw raw' : bytes) : Prop :=
  exists v n n' rest, raw = v ++ n ++ rest /\ raw' = v ++ n' ++ rest /\ length v = 1%nat /\ length n = 4%nat /\ length n' = 4%nat.

(** the same question, about messages that may differ in their number; as
    /repo/contracts/core/mailbox/src/query.rs:88-132 asks hooks *)
Definition asks_alike (m m' : qmsg) : Prop :=
  (m' = m /\ lasting m = true) \/
  exists md raw raw', m = QHookQuote md raw /\ m' = QHookQuote md raw' /\ renumbered raw raw'.
