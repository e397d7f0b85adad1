(** * Announcements on a chain (C98). *)
From Coq Require Import List NArith Bool.
From Verif Require Import Base BaseFacts OMap Hex Coins Crypto Message Bech32 Chain Contracts Spec SpecModules StepFacts MailboxConfFacts World SpecWorld
  SpecAnnounce AnnounceFacts PropsVa PropsWorld PropsBridge.
Import ListNotations.

(** the locations listed for a validator are those it signed, for this domain and this mailbox, in the
    order in which they were entered, none twice *)
Theorem C98_listed C w a st v : reachable C w -> contract_at w a st -> is_va st ->
  announced st v = Some (locations_of v (announced_at a (w_log w))) /\
  NoDup (announced_at a (w_log w)) /\
  (forall v' loc, In (v', loc) (announced_at a (w_log w)) ->
     length v' = 20%nat /\ exists sg, announcement_signed (ch_api C) st v' sg loc).
Proof. exact (chain_listed C w a st v). Qed.
Print Assumptions C98_listed.

(** the domain they sign for is that of the mailbox the contract was deployed for *)
Theorem C98_domain C w a st : reachable C w -> contract_at w a st -> is_va st ->
  exists (mbx : addr) mb, bech32_decode mbx = Ok mb /\ reported_va_mailbox st = Some mb /\
    om_get mbx (w_inst w) <> None /\
    forall mbst, contract_at w mbx mbst -> is_mailbox mbst /\ reported_domain mbst = reported_va_domain st.
Proof. exact (va_domain_true C w a st). Qed.
Print Assumptions C98_domain.

(** anybody can enter a signed announcement that is new, whatever the rest of the chain is like; that is
    all the transaction does *)
Theorem C98_anyone C k w a st sender v sg loc :
  reachable C w -> contract_at w a st -> is_va st -> ch_account C sender = true ->
  length v = 20%nat -> announcement_signed (ch_api C) st v sg loc -> unheard w a v loc -> (1 <= k)%nat ->
  exists w', tx_run C k (TExec sender a (MAnnounce v sg loc) []) w = Ok w' /\ entered w w' a v loc.
Proof. exact (announce_enters C k w a st sender v sg loc). Qed.
Print Assumptions C98_anyone.

(** nobody can keep one out, not even by entering it first: whatever transactions come before it, afterwards
    it is listed, once, unless something else with the same hash was *)
Theorem C98_unblockable C w txs a st sender v sg loc k :
  reachable C w -> contract_at w a st -> is_va st -> ch_account C sender = true ->
  length v = 20%nat -> announcement_signed (ch_api C) st v sg loc -> (1 <= k)%nat ->
  let w2 := chain_run C w (txs ++ [(k, TExec sender a (MAnnounce v sg loc) [])]) in
  exists st2 locs, contract_at w2 a st2 /\ announced st2 v = Some locs /\ NoDup locs /\
    (In loc locs \/
     exists v' loc', In (v', loc') (announced_at a (w_log w2)) /\
       v' ++ loc' <> v ++ loc /\ keccak256_hash (v' ++ loc') = keccak256_hash (v ++ loc)).
Proof. exact (announce_unblockable C w txs a st sender v sg loc k). Qed.
Print Assumptions C98_unblockable.

(** nobody can have one taken off, or put another before it *)
Theorem C98_kept C w txs a st v l0 :
  reachable C w -> contract_at w a st -> is_va st -> announced st v = Some l0 ->
  exists st' l1, contract_at (chain_run C w txs) a st' /\ is_va st' /\ announced st' v = Some (l0 ++ l1).
Proof. exact (announced_kept C w txs a st v l0). Qed.
Print Assumptions C98_kept.

(** coins sent along are accepted and never leave again *)
Theorem C98_coins_stay C bank l w a st d :
  chain_ok C -> om_sorted bank -> w = chain_run C (genesis bank) l -> contract_at w a st -> is_va st ->
  balance w a d = bal bank a d + inflow a d (w_log w).
Proof. exact (va_keeps_coins C bank l w a st d). Qed.
Print Assumptions C98_coins_stay.

(** ** A chain with one mailbox and its validator announce *)
(** signatures as in C43; /repo/contracts/core/va/src/contract.rs:183-190 *)
Definition va_chain : chain := mkChain ex_sign_api ex_ext at_ ex_account.
Lemma va_chain_ok : chain_ok va_chain.
Proof.
  intros n. cbn [ch_account ch_addr va_chain]. unfold at_.
  destruct (ex_account (enc (be32 n))) eqn:E; [vm_compute; reflexivity | exact E].
Qed.
Definition signed_place (b : byte) (loc : str) : bytes := repeat b 32 ++ announce_digest 7 (padded (repeat x00 20)) loc ++ [x1b].
Definition tell (who : addr) (b : byte) (loc : str) (f : list coin) : tx :=
  TExec who (at_ 1) (MAnnounce (key_addr b) (signed_place b loc) loc) f.
(** the relayer enters the first location, alice is too late with it; alice leaves three coins behind *)
Definition va_txs : list (nat * tx) :=
  both [TDeploy alice (IMailbox (s "osmo") alice 7) []; TDeploy relayer (IVa (at_ 0)) [];
        tell relayer x01 (s "s3://one") []; tell alice x01 (s "s3://one") [];
        tell alice x02 (s "s3://two") [mkCoin (s "uosmo") 3]].
Definition va_bank : omap (addr * str) N := om_set (alice, s "uosmo") 100 [].
Definition va_world : world := chain_run va_chain (genesis va_bank) va_txs.

Lemma va_seen :
  (read_at va_world (at_ 1) (fun st => (kind st, announced st (key_addr x01), announced st (key_addr x02))),
   announced_at (at_ 1) (w_log va_world), balance va_world (at_ 1) (s "uosmo"), inflow (at_ 1) (s "uosmo") (w_log va_world),
   read_at va_world (at_ 1) (fun st => (reported_va_domain st, reported_va_mailbox st)), read_at va_world (at_ 0) reported_domain)
  = (Some (1, Some [s "s3://one"], Some [s "s3://two"]),
     [(key_addr x01, s "s3://one"); (key_addr x02, s "s3://two")], 3, 3, Some (Some 7, Some (repeat x00 20)), Some (Some 7)).
Proof. vm_compute. reflexivity. Qed.

(** what the theorems ask for, for a third announcement in that world *)
Example C98_example :
  chain_ok va_chain /\ reachable va_chain va_world /\ om_sorted va_bank /\
  (exists st, contract_at va_world (at_ 1) st /\ is_va st /\
     announced st (key_addr x01) = Some [s "s3://one"] /\
     announcement_signed ex_sign_api st (key_addr x01) (signed_place x01 (s "s3://three")) (s "s3://three")) /\
  unheard va_world (at_ 1) (key_addr x01) (s "s3://three") /\
  ch_account va_chain relayer = true /\ length (key_addr x01) = 20%nat /\
  balance va_world (at_ 1) (s "uosmo") = 3.
Proof.
  pose proof va_seen as H. apply pair_equal_spec in H as [H _]. apply pair_equal_spec in H as [H D].
  apply pair_equal_spec in H as [H _]. apply pair_equal_spec in H as [H B]. apply pair_equal_spec in H as [H T].
  split; [exact va_chain_ok |].
  split; [exists va_bank, va_txs; split; [apply om_sorted_set; exact I | unfold va_world; reflexivity] |].
  split; [apply om_sorted_set; exact I |].
  split.
  { apply read_at_some in H as (st & Hc & H). apply read_at_some in D as (st' & Hc' & D).
    assert (st' = st) as -> by (unfold contract_at in *; congruence).
    apply pair_equal_spec in H as [H _]. apply pair_equal_spec in H as [K L]. apply pair_equal_spec in D as [D1 D2].
    exists st. split; [exact Hc |]. split; [apply va_kind; exact K |]. split; [exact L |].
    exists 7, (repeat x00 20). split; [exact D1 |]. split; [exact D2 |].
    split; [apply PeanoNat.Nat.leb_le; vm_compute; reflexivity |].
    split; [vm_compute; reflexivity |]. eexists. eexists. split; [vm_compute; reflexivity |].
    split; [vm_compute; discriminate |]. split; [vm_compute; reflexivity |]. split; [discriminate | vm_compute; reflexivity]. }
  split; [unfold unheard; rewrite T; intros v' l' [E | [E | []]]; apply pair_equal_spec in E as [<- <-]; vm_compute; discriminate |].
  split; [vm_compute; reflexivity |]. split; [vm_compute; reflexivity | exact B].
Qed.
