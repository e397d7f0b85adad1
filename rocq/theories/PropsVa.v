(** * Validator announce (C43, C44). *)
From Coq Require Import List NArith Bool Lia.
From Verif Require Import Base BaseFacts OMap Hex Coins Crypto Message Bech32 Metadata Chain Contracts
  Spec SpecModules Mailbox Va Isms Hooks Igp Warp Cw20 VaFacts AccessFacts PropsAccess PropsIgp.
Import ListNotations.

(** ** C43 *)
(** what the contract starts with *)
Theorem C43_first A q e i mbx st0 r0 v :
  c_instantiate A q e i (IVa mbx) = Ok (st0, r0) ->
  is_va st0 /\ announced st0 v = Some [] /\ reported_validators st0 = Some [] /\
  (exists mb d, bech32_decode mbx = Ok mb /\ q_smart q mbx QLocalDomain = Ok (RLocalDomain d) /\
     reported_va_mailbox st0 = Some mb /\ reported_va_domain st0 = Some d).
Proof. exact (va_initial A q e i mbx st0 r0 v). Qed.
Print Assumptions C43_first.

(** the listed locations are exactly those of the accepted announcements, in
    order: none is removed or moved *)
Theorem C43_locations A st h v l0 :
  is_va st -> announced st v = Some l0 ->
  announced (c_run A st h) v = Some (l0 ++ locations_of v (announcements A st h)).
Proof. exact (announced_history A st h v l0). Qed.
Print Assumptions C43_locations.

Theorem C43_authentic A st h v l :
  is_va st -> In (v, l) (announcements A st h) ->
  length v = 20%nat /\ exists sg, announcement_signed A st v sg l.
Proof. exact (announcements_signed A st h v l). Qed.
Print Assumptions C43_authentic.

Theorem C43_at_most_once A st h : is_va st -> NoDup (announcements A st h).
Proof. exact (announcements_NoDup A st h). Qed.
Print Assumptions C43_at_most_once.

(** which announcements are accepted: the signed ones that are new (or, more
    precisely, whose hash is) *)
Theorem C43_accepted A q e0 i0 mbx st0 r0 h e i v sg l Q :
  c_instantiate A q e0 i0 (IVa mbx) = Ok (st0, r0) ->
  (accepted A (c_run A st0 h) (EvExec e i (MAnnounce v sg l) Q) = true <->
   length v = 20%nat /\ announcement_signed A st0 v sg l /\
   forall v' l', In (v', l') (announcements A st0 h) ->
     keccak256_hash (v' ++ l') <> keccak256_hash (v ++ l)).
Proof. exact (announce_accepted A q e0 i0 mbx st0 r0 h e i v sg l Q). Qed.
Print Assumptions C43_accepted.

Theorem C43_validators A q e i mbx st0 r0 h l :
  c_instantiate A q e i (IVa mbx) = Ok (st0, r0) ->
  reported_validators (c_run A st0 h) = Some l ->
  NoDup l /\ forall v, In (hex_encode v) l <-> exists loc, In (v, loc) (announcements A st0 h).
Proof. exact (validators_listed A q e i mbx st0 r0 h l). Qed.
Print Assumptions C43_validators.

(** the domain and mailbox announcements are checked against never change *)
Theorem C43_domain_fixed A st h :
  is_va st -> reported_va_domain (c_run A st h) = reported_va_domain st /\
              reported_va_mailbox (c_run A st h) = reported_va_mailbox st.
Proof. exact (va_frame A st h). Qed.
Print Assumptions C43_domain_fixed.

(** a toy signature scheme: the key twice 32 bytes, the signature the key and
    the hash *)
Definition ex_sign_api : api :=
  mkApi (fun _ => true)
    (fun h rs _ => if bytes_eqb (skipn 32 rs) h then Some (x04 :: firstn 32 rs ++ firstn 32 rs) else None).
Definition ex_mailbox32 : bytes := repeat x0a 20.
Definition ex_va : cstate :=
  match c_instantiate ex_sign_api
          (mkQuerier (fun _ _ => Ok (RLocalDomain 26657)) (fun _ _ => 0) (fun _ => [])) ex_env (mkInfo (s "creator") [])
          (IVa (encoded ex_mailbox32)) with
  | Ok (st, _) => st | _ => SPausableIsm (mkPi (Ownable.own_init []) false) end.
Definition key_addr (b : byte) : bytes := skipn 12 (keccak256_hash (repeat b 64)).
Definition announce (b : byte) (d : N) (l : string) : event :=
  EvExec ex_env (mkInfo (s "anyone") [])
    (MAnnounce (key_addr b) (repeat b 32 ++ announce_digest d (padded ex_mailbox32) (s l) ++ [x1b]) (s l)) (fun _ => no_querier).
Definition ex_va_history : list event :=
  [announce x01 26657 "s3://one"; announce x02 26657 "s3://two"; announce x01 26657 "s3://one";
   announce x01 26658 "s3://wrong-domain"; announce x01 26657 "s3://three"].
Example C43_example :
  (fun st k1 => (announced st k1, announced st (key_addr x02), option_map (@length str) (reported_validators st)))
    (c_run ex_sign_api ex_va ex_va_history) (key_addr x01)
  = (Some [s "s3://one"; s "s3://three"], Some [s "s3://two"], Some 2%nat).
Proof. vm_compute. reflexivity. Qed.

(** ** C44 *)
Theorem C44_digest d1 m1 l1 d2 m2 l2 :
  length m1 = 32%nat -> length m2 = 32%nat -> d1 < 2 ^ 32 -> d2 < 2 ^ 32 ->
  announce_digest d1 m1 l1 = announce_digest d2 m2 l2 ->
  (d1 = d2 /\ m1 = m2 /\ l1 = l2) \/
  (exists x y, x <> y /\ keccak256_hash x = keccak256_hash y /\
    ((x, y) = (announce_signed_preimage d1 m1 l1, announce_signed_preimage d2 m2 l2) \/
     (x, y) = (announce_preimage d1 m1 l1, announce_preimage d2 m2 l2) \/
     (x, y) = (announce_domain_preimage d1 m1, announce_domain_preimage d2 m2))).
Proof. exact (announce_digest_inj d1 m1 l1 d2 m2 l2). Qed.
Print Assumptions C44_digest.

(** the contract uses that digest, on the mailbox padded to 32 bytes, which
    loses nothing among mailboxes of one length *)
Theorem C44_digest_used d mb l :
  (length mb <= 32)%nat ->
  va_domain_hash d mb = Ok (keccak256_hash (announce_domain_preimage d (padded mb))) /\
  eth_hash (va_announcement_hash (keccak256_hash (announce_domain_preimage d (padded mb))) l)
  = announce_digest d (padded mb) l.
Proof. exact (digest_eq d mb l). Qed.
Print Assumptions C44_digest_used.

Theorem C44_padding a b : length a = length b -> padded a = padded b -> a = b.
Proof. exact (padded_inj a b). Qed.
Print Assumptions C44_padding.

Theorem C44_replay_key v1 l1 v2 l2 :
  length v1 = 20%nat -> length v2 = 20%nat ->
  keccak256_hash (v1 ++ l1) = keccak256_hash (v2 ++ l2) ->
  (v1 = v2 /\ l1 = l2) \/ (v1 ++ l1 <> v2 ++ l2).
Proof. exact (replay_key_inj v1 l1 v2 l2). Qed.
Print Assumptions C44_replay_key.

(** Mailboxes of different lengths can share a digest: padding is not injective
    across lengths, so the claim needs 32-byte identities as above. *)
Theorem C44_short_mailbox_refuted :
  exists d a b l, a <> b /\ (length a <= 32)%nat /\ (length b <= 32)%nat /\
    announce_digest d (padded a) l = announce_digest d (padded b) l.
Proof.
  exists 1, [x01], [x00; x01], [].
  split; [discriminate|]. split; [cbn; lia|]. split; [cbn; lia|].
  change (padded [x00; x01]) with (padded [x01]). reflexivity.
Qed.
Print Assumptions C44_short_mailbox_refuted.

Example C44_example :
  bytes_eqb (announce_digest 1 (padded ex_mailbox32) (s "a")) (announce_digest 1 (padded ex_mailbox32) (s "b")) = false /\
  bytes_eqb (announce_digest 1 (padded ex_mailbox32) (s "a")) (announce_digest 2 (padded ex_mailbox32) (s "a")) = false /\
  (* without the fixed validator length the replay key is ambiguous *)
  keccak256_hash ((s "val") ++ (s "location")) = keccak256_hash ((s "vallo") ++ (s "cation")).
Proof. split; [vm_compute; reflexivity|]. split; vm_compute; reflexivity. Qed.
