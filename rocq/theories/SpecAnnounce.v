(** * Announcements on a chain: the words used in C98. *)
From Coq Require Import List NArith Bool.
From Verif Require Import Base OMap Message Crypto Coins Chain Contracts World Spec SpecModules SpecWorld.
Import ListNotations.

(** what the contract at [a] was told and accepted, oldest first:
    /repo/contracts/core/va/src/contract.rs:153-216 *)
Definition announced_at (a : addr) (l : list entry) : list (bytes * str) :=
  flat_map (fun ev => match ev_msg ev with Some (MAnnounce v _ loc) => [(v, loc)] | _ => [] end) (events_at a l).

(** [(v, loc)] was not announced before, nor anything with the same hash:
    /repo/contracts/core/va/src/contract.rs:166-171 *)
Definition unheard (w : world) (a : addr) (v : bytes) (loc : str) : Prop :=
  forall v' loc', In (v', loc') (announced_at a (w_log w)) -> keccak256_hash (v' ++ loc') <> keccak256_hash (v ++ loc).

(** from [w] to [w'] one announcement was entered at [a], and nothing else happened:
    /repo/contracts/core/va/src/contract.rs:198-216 *)
Definition entered (w w' : world) (a : addr) (v : bytes) (loc : str) : Prop :=
  announced_at a (w_log w') = announced_at a (w_log w) ++ [(v, loc)] /\
  (forall b : addr, b <> a -> om_get b (w_inst w') = om_get b (w_inst w)) /\
  w_bank w' = w_bank w /\ w_admin w' = w_admin w /\ w_height w' = w_height w /\ w_next w' = w_next w.
