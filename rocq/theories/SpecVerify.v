(** * Who vouched for a message.

    Stated from what contracts report, the metadata and the signatures alone; no
    model function that verifies is used. *)
From Coq Require Import List NArith.
From Verif Require Import Base OMap Crypto Message Coins Chain Contracts Spec SpecModules World SpecWorld.
Import ListNotations.

(** the state of the contract at [a] when the log was [l]: as it was
    instantiated, after the calls it had accepted *)
Definition as_of (C : chain) (l : list entry) (a : addr) (st : cstate) : Prop :=
  exists e i q m r st0,
    births_at a l = [(e, i, q, m, r)] /\ c_instantiate (ch_api C) q e i m = Ok (st0, r) /\
    st = c_run (ch_api C) st0 (events_at a l).
(** [a] was not one of this repository's contracts *)
Definition outside (l : list entry) (a : addr) : Prop := births_at a l = [].

Section Vouched.
  Variable A : api.
  Variable S : addr -> cstate -> Prop.
  Variable E : addr -> Prop.
  (** the module at an address vouches for message [raw] on the strength of
      metadata [md]:
      - multisig (/repo/contracts/isms/multisig/src/query.rs:21-68): as many
        different enrolled validators of the origin as its positive threshold
        signed a checkpoint that names this very message;
      - aggregate (/repo/contracts/isms/aggregate/src/lib.rs:136-160): as many
        different modules of its list as its threshold vouch, each on its slice of
        the metadata (a threshold of zero can only be set when instantiating: C28);
      - routing (/repo/contracts/isms/routing/src/contract.rs:112-124): the module
        set for the origin vouches;
      - pausable (/repo/contracts/isms/pausable/src/lib.rs:81-90): not paused;
      - contracts of others: they alone know *)
  Inductive vouched : addr -> bytes -> bytes -> Prop :=
  | vouched_multisig x st md raw m tree root index sigs vs t signers :
      S x st -> is_multisig st -> msg_decode raw = Ok m ->
      multisig_metadata md tree root index sigs ->
      reported_enrolled st (m_origin m) = Some (vs, t) -> 0 < t ->
      NoDup signers -> N.of_nat (length signers) = t ->
      Forall (fun a => In a vs /\ exists sg, In sg sigs /\
        signed_by A (checkpoint_digest (m_origin m) tree root index (keccak256_hash raw)) sg a) signers ->
      vouched x md raw
  | vouched_aggregate x st md raw isms t ok :
      S x st -> reported_modules st = Some (isms, t) ->
      NoDup ok -> N.of_nat (length ok) = t ->
      (forall y, In y ok -> exists k md',
         nth_error isms k = Some y /\ module_slice md k md' /\ vouched y md' raw) ->
      vouched x md raw
  | vouched_routing x st md raw y :
      S x st -> is_routing_ism st -> reported_module_for st raw = Some y ->
      vouched y md raw -> vouched x md raw
  | vouched_pausable x st md raw :
      S x st -> is_pausable_ism st -> reported_paused st = Some false -> vouched x md raw
  | vouched_outside x md raw : E x -> vouched x md raw.
End Vouched.
