(** * People who own nothing change no setting and stop no delivery (C95). *)
From Coq Require Import List NArith Bool Lia.
From Verif Require Import Base BaseFacts OMap Crypto Bech32 Message Coins Chain Ownable Mailbox Contracts Spec SpecModules MailboxConfFacts World
  SpecWorld WorldFacts SpecBridge SpecLive StepFacts SpecStranger StrangerFacts PropsAccess PropsWorld PropsBridge PropsIsm PropsVerify PropsLive.
Import ListNotations.

(** ** One call: to a contract with an owner, by somebody not in charge of it *)
Theorem C95_call A Q e i m st st' r : c_execute A Q e i m st = Ok (st', r) -> reported_owner st <> None ->
  ~ in_charge st (i_sender i) -> at_rest st' = at_rest st.
Proof. exact (stranger_call A Q e i m st st' r). Qed.
Print Assumptions C95_call.

(** ** The chain: while those in charge sign nothing, whatever others and their programs do *)
Theorem C95_settings C w l a st :
  chain_ok C -> reachable C w -> contract_at w a st -> left_alone C w l a ->
  exists st', contract_at (chain_run C w l) a st' /\ at_rest st' = at_rest st.
Proof. exact (stranger_run C w l a st). Qed.
Print Assumptions C95_settings.

(** what could be delivered was delivered, or can still be, with the same metadata *)
Theorem C95_still_deliverable C n w l mb route mbst st md raw m :
  chain_ok C -> reachable C w -> deliverable_alone C n w l mb route mbst st md raw m ->
  exists mbst', contract_at (chain_run C w l) mb mbst' /\ contract_at (chain_run C w l) route st /\
    (reported_delivered mbst' (keccak256_hash raw) = Some true \/
     deliverable C n (chain_run C w l) mb route mbst' st md raw m).
Proof. exact (still_deliverable C n w l mb route mbst st md raw m). Qed.
Print Assumptions C95_still_deliverable.

(** and if it was not, anybody can have the recipient paid *)
Theorem C95_paid C n k w l mb route mbst st md raw m recipient amount relayer held :
  chain_ok C -> reachable C w -> deliverable_alone C n w l mb route mbst st md raw m -> is_warp st ->
  warp_delivery st (mkInfo mb []) (m_origin m) (m_sender m) (m_body m) recipient amount ->
  amount <> 0 -> api_valid (ch_api C) recipient = true ->
  holds (chain_run C w l) st route held -> (reported_mode st = Some Collateral -> amount <= held) ->
  can_issue (chain_run C w l) st amount ->
  ch_account C relayer = true -> (n <= k)%nat -> (4 <= k)%nat ->
  (exists mbst', contract_at (chain_run C w l) mb mbst' /\ reported_delivered mbst' (keccak256_hash raw) = Some true) \/
  exists w', tx_run C k (TExec relayer mb (MProcess md raw) []) (chain_run C w l) = Ok w' /\
    only_delivered (chain_run C w l) w' mb raw /\ paid_out (chain_run C w l) w' mb route st recipient amount.
Proof. exact (stranger_paid C n k w l mb route mbst st md raw m recipient amount relayer held). Qed.
Print Assumptions C95_paid.

(** ** The example of C65: the relayer tries to seize, pause and misconfigure everything, delivers another message and
    deploys a module of their own; alice, who owns all contracts, signs nothing *)
Definition other_raw : bytes := msg_encode (mkMessage 3 1 5 (be32 9) 7 (be32 5) (to_alice ++ be 32 12)).
Definition meddling : list (nat * tx) :=
  both [TExec relayer (at_ 2) (MPausable Pause) [];
        TExec relayer (at_ 0) (MSetDefaultIsm (at_ 9)) [];
        TExec relayer (at_ 1) (MSetValidators 5 1 [ex_val x09]) [];
        TExec relayer (at_ 5) (MOwnable ClaimOwnership) [];
        TDeploy relayer (IPausableIsm relayer true) [];
        TBlock 50;
        TExec relayer (at_ 0) (MProcess ready_md other_raw) []].
(** the contracts at hand are all owned by [u], and offered to nobody *)
Definition all_of (u : addr) (w : world) : bool :=
  forallb (fun p : addr * inst => match snd p with
    | IC st => match own_of st with Some o => bytes_eqb (o_owner o) u && match o_pending o with None => true | _ => false end | None => false end
    | IX _ => true end)%bool (w_inst w).
Lemma all_alone C w l u : all_of u w = true -> ch_account C u = true -> idle l u -> forall a, left_alone C w l a.
Proof.
  intros H Hu Hi a st Hc. apply om_get_In in Hc. unfold all_of in H. rewrite forallb_forall in H. specialize (H _ Hc). cbn [snd] in H.
  unfold in_charge. rewrite reported_owner_own, reported_pending_own.
  destruct (own_of st) as [[ow pe]|]; [|discriminate H]. cbn [o_owner o_pending option_map] in *.
  apply andb_true_iff in H as [H H']. apply bytes_eqb_eq in H. destruct pe; [discriminate H'|].
  split; [discriminate|]. intros v [E | E]; [|discriminate E]. injection E as <-. rewrite H. split; assumption.
Qed.
Lemma alice_idle : idle meddling alice.
Proof.
  assert (N : relayer <> alice) by (apply bytes_eqb_neq; vm_compute; reflexivity).
  intros t Ht. unfold meddling, both in Ht. cbn [map In] in Ht.
  repeat (destruct Ht as [<- | Ht]; [cbn [snd signer]; congruence|]). contradiction.
Qed.
Lemma ready_alone a : left_alone signed_chain ready meddling a.
Proof. revert a. apply (all_alone signed_chain ready meddling alice); [vm_compute; reflexivity | vm_compute; reflexivity | exact alice_idle]. Qed.
Lemma deliverable_all_alone C n w l mb route mbst st md raw m : (forall a, left_alone C w l a) ->
  deliverable C n w mb route mbst st md raw m ->
  (forall x, consulted st mbst x -> answers (ch_api C) (contract_at w) (fun _ _ _ _ _ => False) n x md raw true) ->
  deliverable_alone C n w l mb route mbst st md raw m.
Proof.
  intros L (H1 & H2 & H3 & H4 & H5 & H6 & H7 & H8 & x & Hx & _) Ha. unfold deliverable_alone.
  repeat (split; [solve [assumption | apply L]|]). exists x. split; [exact Hx|]. specialize (Ha x Hx). revert Ha.
  apply answers_weaker; [|contradiction]. intros y yst Hy _ _. split; [exact Hy | apply L].
Qed.
Lemma at_same w a st st' : contract_at w a st -> contract_at w a st' -> st = st'.
Proof. unfold contract_at. congruence. Qed.
Lemma ready_alone_deliverable : exists mbst st,
  deliverable_alone signed_chain 3 ready meddling (at_ 0) (at_ 5) mbst st ready_md signed_raw ready_mail /\
  is_warp st /\ warp_delivery st (mkInfo (at_ 0) []) 5 (be32 9) (to_alice ++ be 32 30) alice 30.
Proof.
  destruct ready_deliverable as (mbst & st & H & H1 & H2 & _). exists mbst, st. split; [|split; [exact H1 | exact H2]].
  apply deliverable_all_alone; [exact ready_alone | exact H|].
  destruct H as (C0 & _ & C5 & _). intros x (o & d & Ho & Hd & ->).
  destruct (read_at_some ready (at_ 0) reported_default_ism (Some (at_ 4))) as (s0 & C0' & H0); [vm_compute; reflexivity|].
  destruct (read_at_some ready (at_ 5) (fun st => reported_conn st QConnIsm) (Some None)) as (s5 & C5' & H5); [vm_compute; reflexivity|].
  rewrite (at_same _ _ _ _ C0 C0'), H0 in Hd. rewrite (at_same _ _ _ _ C5 C5'), H5 in Ho.
  injection Hd as <-. injection Ho as <-. apply ready_answers.
Qed.
Definition meddled : world := chain_run signed_chain ready meddling.
Example C95_example :
  (exists mbst st, deliverable_alone signed_chain 3 ready meddling (at_ 0) (at_ 5) mbst st ready_md signed_raw ready_mail /\
     is_warp st /\ warp_delivery st (mkInfo (at_ 0) []) 5 (be32 9) (to_alice ++ be 32 30) alice 30) /\
  (balance meddled alice wready, read_at meddled (at_ 6) reported_paused, read_at meddled (at_ 2) reported_paused, w_height meddled)
    = (12, Some (Some true), Some (Some false), 50) /\
  match tx_run signed_chain 4 (TExec relayer (at_ 0) (MProcess ready_md signed_raw) []) meddled with
  | Ok w' => balance w' alice wready = 42
  | _ => False
  end.
Proof.
  split; [exact ready_alone_deliverable|]. split; [vm_compute; reflexivity|]. vm_compute. reflexivity.
Qed.

(** ** Those in charge can stop it *)
Definition stopping : list (nat * tx) := both [TExec alice (at_ 2) (MPausable Pause) []].
Theorem C95_owner_refuted : exists C n w l mb route mbst st md raw m k u,
  chain_ok C /\ reachable C w /\ deliverable C n w mb route mbst st md raw m /\ is_warp st /\ (n <= k)%nat /\ (4 <= k)%nat /\
  ch_account C u = true /\ read_at (chain_run C w l) mb (fun x => reported_delivered x (keccak256_hash raw)) = Some (Some false) /\
  is_ok (tx_run C k (TExec u mb (MProcess md raw) []) (chain_run C w l)) = false.
Proof.
  destruct ready_deliverable as (mbst & st & H & H1 & _).
  exists signed_chain, 3%nat, ready, stopping, (at_ 0), (at_ 5), mbst, st, ready_md, signed_raw, ready_mail, 4%nat, relayer.
  split; [exact signed_chain_ok|]. split; [exists [], ready_txs; split; [exact I | exact ready_run]|].
  split; [exact H|]. split; [exact H1|]. split; [lia|]. split; [lia|].
  split; [vm_compute; reflexivity|]. split; [vm_compute; reflexivity|]. vm_compute. reflexivity.
Qed.
Print Assumptions C95_owner_refuted.
