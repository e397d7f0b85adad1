(** * Vocabulary: deliveries that cannot be had without an honest validator.

    Two chains: on the origin a mailbox and a merkle hook of it; at the destination a mailbox
    and its security modules. What validators sign is what
    /repo/contracts/isms/multisig/src/query.rs:21-68 checks. *)
From Coq Require Import List NArith.
From Verif Require Import Base OMap Crypto Message Bech32 Chain Contracts Spec SpecModules World SpecWorld SpecVerify SpecBridge.
Import ListNotations.

(** ** What honest validators do *)
(** root, index and message id: what a checkpoint says, as checked at
    /repo/contracts/isms/multisig/src/query.rs:29-38 *)
Definition checkpoint : Type := bytes * N * bytes.

(** the checkpoints name ids among [leaves], e.g. those of the tree of
    /repo/contracts/hooks/merkle/src/lib.rs:78-122 *)
Definition observed (leaves : list bytes) (l : list checkpoint) : Prop :=
  forall root index id, In (root, index, id) l -> length root = 32%nat /\ index < 2 ^ 32 /\ In id leaves.

(** [md'] is a contiguous part of [md], as the slices of
    /repo/packages/interface/src/types/metadata.rs:156-178 are *)
Definition part (md' md : bytes) : Prop := exists p q, md = p ++ md' ++ q.

(** metadata and message of the deliveries mailbox [mb] accepted:
    /repo/contracts/core/mailbox/src/execute.rs:156-245 *)
Definition shown_at (mb : addr) (l : list entry) : list (bytes * bytes) :=
  flat_map (fun p => match p with
                     | (EvExec _ _ (MProcess md raw) _, _) => [(md, raw)]
                     | _ => [] end) (answers_at mb l).

Section Honest.
  (** the destination's signature recovery, the origin's domain and tree address, the
      checkpoints honest validators signed, and what was shown to the destination *)
  Variables (A : api) (o : N) (tree : bytes) (signed : list checkpoint) (shown : list (bytes * bytes)).

  (** a signature that was shown for a message of the origin, and is [v]'s, is one [v] made,
      on a checkpoint of the origin's tree *)
  Definition truthful (v : bytes) : Prop :=
    forall md raw m md' t root index sigs sg,
      In (md, raw) shown -> msg_decode raw = Ok m -> m_origin m = o ->
      part md' md -> multisig_metadata md' t root index sigs -> In sg sigs ->
      signed_by A (checkpoint_digest o t root index (keccak256_hash raw)) sg v ->
      exists root' index' id', In (root', index', id') signed /\
        checkpoint_digest o t root index (keccak256_hash raw) = checkpoint_digest o tree root' index' id'.

  (** the checkpoints that were signed, and those the destination hashed to check signatures *)
  Definition hashed (t root : bytes) (index : N) (id : bytes) : Prop :=
    (t = tree /\ In (root, index, id) signed) \/
    (exists md raw md' sigs, In (md, raw) shown /\ part md' md /\ multisig_metadata md' t root index sigs /\
       id = keccak256_hash raw).
  (** what was hashed: the messages dispatched at the origin, those delivered at the destination,
      and the three stages of a checkpoint's digest *)
  Definition fed (dispatched : list bytes) (x : bytes) : Prop :=
    In x dispatched \/ (exists md, In (md, x) shown) \/
    exists t root index id, hashed t root index id /\
      (x = domain_preimage o t \/ x = checkpoint_preimage o t root index id \/ x = signed_preimage o t root index id).
End Honest.

(** two different inputs among [P] with the same Keccak-256 hash
    (/repo/packages/interface/src/types/crypto.rs:5-13) *)
Definition collision (P : bytes -> Prop) : Prop :=
  exists x y, P x /\ P y /\ x <> y /\ keccak256_hash x = keccak256_hash y.

(** ** Modules that need an honest validator *)
Section Guarded.
  (** states of the contracts of the moment; the origin; who is honest *)
  Variables (S : addr -> cstate -> Prop) (o : N) (good : bytes -> Prop).
  (** the module at an address accepts no message of the origin without the signature of an honest
      validator:
      - multisig (/repo/contracts/isms/multisig/src/query.rs:21-68): it knows fewer dishonest
        validators for the origin than its threshold, or no validators at all;
      - aggregate (/repo/contracts/isms/aggregate/src/lib.rs:136-160): fewer of its modules than its
        threshold are not such;
      - routing (/repo/contracts/isms/routing/src/contract.rs:112-124): the module it uses for
        messages of the origin is such;
      - pausable (/repo/contracts/isms/pausable/src/lib.rs:81-90): it is paused *)
  Inductive guarded : addr -> Prop :=
  | guarded_multisig x st vs t liars :
      S x st -> is_multisig st -> reported_enrolled st o = Some (vs, t) ->
      N.of_nat (length liars) < t -> (forall v, In v vs -> ~ In v liars -> good v) -> guarded x
  | guarded_nobody x st : S x st -> is_multisig st -> reported_enrolled st o = None -> guarded x
  | guarded_aggregate x st isms t weak :
      S x st -> reported_modules st = Some (isms, t) ->
      N.of_nat (length weak) < t -> (forall y, In y isms -> ~ In y weak -> guarded y) -> guarded x
  | guarded_routing x st :
      S x st -> is_routing_ism st ->
      (forall raw m y, msg_decode raw = Ok m -> m_origin m = o -> reported_module_for st raw = Some y -> guarded y) ->
      guarded x
  | guarded_paused x st : S x st -> is_pausable_ism st -> reported_paused st = Some true -> guarded x.
End Guarded.

(** a validator of [good] signed for message [raw] within metadata [md]:
    /repo/contracts/isms/multisig/src/query.rs:45-53 *)
Definition signed_within (A : api) (good : bytes -> Prop) (o : N) (md raw : bytes) : Prop :=
  exists md' t root index sigs sg v,
    part md' md /\ multisig_metadata md' t root index sigs /\ In sg sigs /\ good v /\
    signed_by A (checkpoint_digest o t root index (keccak256_hash raw)) sg v.

(** ** A mailbox and a route that are guarded *)
(** the module mailbox [mb] asked about message [m] when the log was [pre]: the recipient's, or else
    its default; a recipient that is no contract of /repo may name any:
    /repo/contracts/core/mailbox/src/execute.rs:183-184 *)
Definition asked_about (C : chain) (l pre : list entry) (mb : addr) (m : message) (x : addr) : Prop :=
  exists st1 hrp rcp own dflt,
    as_of C pre mb st1 /\ reported_hrp st1 = Some hrp /\ bech32_encode hrp (m_recipient m) = Ok rcp /\
    reported_default_ism st1 = Some dflt /\
    (outside l rcp \/ exists st, as_of C pre rcp st /\ reported_conn st QConnIsm = Some own) /\
    x = match own with Some y => y | None => dflt end.

(** whenever [T]'s mailbox took a message of the origin for [T]'s route, the route's module (or else
    the mailbox's default one) was guarded at that moment; the calls of
    /repo/contracts/core/mailbox/src/execute.rs:156-245 *)
Definition watched (T : side) (o : N) (good : bytes -> Prop) : Prop :=
  forall pre post e i md raw Q r m st1 mb1 dflt,
    sd_log T = pre ++ LCall (sd_mailbox T) (EvExec e i (MProcess md raw) Q) r :: post ->
    msg_decode raw = Ok m -> m_origin m = o -> addressed T m ->
    as_of (sd_chain T) pre (sd_route T) st1 -> as_of (sd_chain T) pre (sd_mailbox T) mb1 ->
    reported_default_ism mb1 = Some dflt ->
    guarded (as_of (sd_chain T) pre) o good
      (match reported_conn st1 QConnIsm with Some (Some x) => x | _ => dflt end).

(** the merkle hook of [S]'s mailbox at [a]: /repo/contracts/hooks/merkle/src/lib.rs:57-122 *)
Definition hooked (S : side) (a : addr) : Prop :=
  exists st, contract_at (sd_world S) a st /\ is_merkle_hook st /\ reported_hook_mailbox st = Some (sd_mailbox S).

(** a checkpoint the merkle hook at [a] reported earlier on the chain, with the id it had inserted
    last: /repo/contracts/hooks/merkle/src/lib.rs:107-118,183-194 *)
Definition reported_then (C : chain) (w : world) (a : addr) (c : checkpoint) : Prop :=
  exists w1 l st older newest,
    reachable C w1 /\ w = chain_run C w1 l /\ contract_at w1 a st /\ is_merkle_hook st /\
    reported_checkpoint st = Some (fst c) /\
    posted_at a (w_log w1) = older ++ [newest] /\ snd c = keccak256_hash newest.

(** what [T] takes from [S] is guarded by honest validators of [S]'s tree, as read from the merkle hook at [a]:
    /repo/contracts/isms/multisig/src/query.rs:21-68 *)
Definition trusted (S T : side) (a : addr) (tree : bytes) (signed : list checkpoint) : Prop :=
  hooked S a /\ length tree = 32%nat /\ observed (map keccak256_hash (posted_at a (sd_log S))) signed /\
  watched T (sd_domain S) (truthful (ch_api (sd_chain T)) (sd_domain S) tree signed (shown_at (sd_mailbox T) (sd_log T))).
(** hashing what travelled from [S] to [T] met a collision (/repo/packages/interface/src/types/crypto.rs:5-13) *)
Definition collided (S T : side) (tree : bytes) (signed : list checkpoint) : Prop :=
  collision (fed (sd_domain S) tree signed (shown_at (sd_mailbox T) (sd_log T)) (dispatched_at (sd_mailbox S) (sd_log S))).
