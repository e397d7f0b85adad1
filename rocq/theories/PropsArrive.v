(** * C69: what is sent on one chain can be received on the other. *)
From Coq Require Import List NArith Bool Lia.
From Verif Require Import Base BaseFacts OMap Crypto Bech32 Message Coins CoinsFacts Chain Contracts Spec SpecModules StepFacts MailboxConfFacts World SpecWorld WorldFacts
  SpecBridge SpecLive SpecSend SpecTransfer WorldTransfer SpecArrive WorldArrive
  PropsWorld PropsBridge PropsLive PropsSend PropsTransfer.
Import ListNotations.

(** a transfer that pays amount and fees is accepted here; from then on, whatever
    else happens on both chains, anybody can have the recipient paid the same
    amount there, unless that was done already *)
Theorem C69_transfer_arrives S n k st dest recipient amount hook md raw fees pays marks caller funds :
  side_ok S ->
  transferable (sd_chain S) n (sd_world S) (sd_mailbox S) (sd_route S) st dest recipient amount hook md raw fees pays marks ->
  length recipient = 32%nat ->
  pays_for st amount fees funds -> affords (sd_chain S) (sd_world S) (sd_route S) st caller amount funds ->
  ch_account (sd_chain S) caller = true -> (n + 6 <= k)%nat ->
  exists w',
    tx_run (sd_chain S) k (TExec caller (sd_route S) (MTransferRemote dest recipient amount hook md) funds) (sd_world S) = Ok w' /\
    coins_moved (sd_world S) w' (sd_route S) st caller amount fees pays /\
    tokens_moved (sd_world S) w' (sd_route S) st caller amount /\
    forall l T mbst stT to n' k' md' relayer, sd_domain T = dest ->
      linked (later S w' l) T -> awaits S T n' mbst stT md' raw recipient to -> can_pay (later S w' l) T stT amount -> no_clash T raw ->
      ch_account (sd_chain T) relayer = true -> (n' <= k')%nat -> (4 <= k')%nat ->
      In raw (processed_at (sd_mailbox T) (sd_log T)) \/
      exists wT, tx_run (sd_chain T) k' (TExec relayer (sd_mailbox T) (MProcess md' raw) []) (sd_world T) = Ok wT /\
        only_delivered (sd_world T) wT (sd_mailbox T) raw /\
        paid_out (sd_world T) wT (sd_mailbox T) (sd_route T) stT to amount.
Proof. exact (transfer_arrives S n k st dest recipient amount hook md raw fees pays marks caller funds). Qed.
Print Assumptions C69_transfer_arrives.

(** *** Sending 3 of the tokens issued there back here *)
(** the chains of the example of C47: alice holds 4 of the token issued there *)
Definition home_mail : message := mail 2 9 7 to_alice 3.
Definition home_raw : bytes := msg_encode home_mail.
Definition home_tx : tx := go 7 to_alice 3 [mkCoin wosmo 3].
Definition there2_txs : list (nat * tx) := there_txs ++ [(40%nat, home_tx)].
Definition there2 : world := chain_run ex_chain (genesis []) there2_txs.
Lemma there2_run : there2 = chain_run ex_chain (genesis []) there2_txs.
Proof. unfold there2. reflexivity. Qed.
Lemma there2_step : there2 = tx_step ex_chain there (40%nat, home_tx).
Proof. unfold there2, there2_txs, there, chain_run. rewrite fold_left_app. reflexivity. Qed.
Lemma home_accepted : match tx_run ex_chain 40 home_tx there with Ok _ => true | _ => false end = true.
Proof. vm_compute. reflexivity. Qed.
Lemma home_run : tx_run ex_chain 40 home_tx there = Ok there2.
Proof.
  rewrite there2_step. unfold tx_step. cbn [fst snd]. pose proof home_accepted as H.
  destruct (tx_run ex_chain 40 home_tx there); [reflexivity | discriminate H | discriminate H].
Qed.

Lemma there_sides : side_ok (side_at 9 there).
Proof. apply (ex_side 9 there [] there_txs I there_run). exact (proj1 (seen_parts _ _ _ _ _ _ _ there_seen)). Qed.
Lemma there_reads :
  (read_at there (at_ 0)
     (fun st => (reported_nonce st, reported_domain st, reported_required_hook st, reported_default_hook st)),
   read_at there (at_ 1) (fun st => (kind st, reported_hook_mailbox st)),
   read_at there (at_ 2) (fun st => (kind st, reported_paused st)),
   read_at there route (fun st => (kind st, warp_mailbox st, reported_token st, reported_route st 7, reported_conn_hook st)))
  = (Some (Some 2, Some 9, Some (at_ 1), Some (at_ 2)), Some (6, Some (at_ 0)), Some (8, Some false),
     Some (15, Some (at_ 0), Some wosmo, Some (Some peer), None)).
Proof. vm_compute. reflexivity. Qed.
Lemma here_reads :
  (read_at here (at_ 0) reported_default_ism,
   read_at here route (fun st => (reported_conn st QConnIsm, reported_route st 9, warp_hrp st)),
   read_at here (at_ 3) (fun st => (kind st, reported_paused st)))
  = (Some (Some (at_ 3)), Some (Some None, Some (Some peer), s "osmo"), Some (5, Some false)).
Proof. vm_compute. reflexivity. Qed.
Lemma there2_seen : seen there2 =
  (conf_of 9, [mkRouteSet 7 (Some peer)], true,
   map msg_encode [mail 0 9 7 to_alice 4; mail 1 9 7 to_alice 2; home_mail], map msg_encode [mail 0 7 9 to_alice 10],
   Some (15, Some Bridged, Some wosmo)).
Proof. vm_compute. reflexivity. Qed.

Lemma home_dispatch :
  dispatchable ex_chain 2 there (at_ 0) route (mkDispatch 7 peer (to_alice ++ be 32 3) None None) home_raw [] [] [at_ 1].
Proof.
  pose proof there_reads as H. apply pair_equal_spec in H as [H _]. apply pair_equal_spec in H as [H H2].
  apply pair_equal_spec in H as [H0 H1]. apply read_at_some in H0 as (s0 & C0 & H0).
  apply read_at_some in H1 as (s1 & C1 & H1). apply read_at_some in H2 as (s2 & C2 & H2).
  apply pair_equal_spec in H0 as [H0 D0]. apply pair_equal_spec in H0 as [H0 R0]. apply pair_equal_spec in H0 as [N0 M0].
  apply pair_equal_spec in H1 as [K1 H1]. apply pair_equal_spec in H2 as [K2 H2].
  exists s0, 2, 9, peer, (at_ 1), (at_ 2), [], [], [at_ 1], [], [], [].
  split; [exact C0 |]. split; [exact N0 |]. split; [exact M0 |]. split; [reflexivity |]. split; [reflexivity |]. split; [reflexivity |].
  split; [vm_compute; reflexivity |]. split; [vm_compute; reflexivity |]. split; [reflexivity |]. split; [exact R0 |].
  split; [exists (at_ 2); split; [exact D0 | reflexivity] |].
  split; [apply (takes_merkle _ _ _ _ _ 2 _ s1); [exact C1 | destruct s1; try discriminate K1; exact I | exact H1 | lia] |].
  split; [apply (takes_pausable _ _ _ _ _ 2 _ s2); [exact C2 | destruct s2; try discriminate K2; exact I | exact H2 | lia] |].
  split; [apply total_bounds; vm_compute; reflexivity |].
  split; [vm_compute; reflexivity |]. split; [reflexivity |]. split; [reflexivity |]. apply room_check. vm_compute. reflexivity.
Qed.

Lemma home_linked : linked (later (side_at 9 there) there2 []) (side_at 7 here).
Proof.
  change (later (side_at 9 there) there2 []) with (side_at 9 there2).
  destruct (seen_linked 9 there2 [] there2_txs 7 here here_bank here_txs _ _ _ _ _ _ _ _
    I there2_run here_bank_sorted here_run there2_seen here_seen)
    as (K1 & K2 & E1 & E2 & O1 & O2 & H1 & H2 & P1 & P2); [vm_compute; reflexivity |].
  split; [exact K1 |]. split; [exact K2 |]. split; [exact E1 |]. split; [exact E2 |]. split; [exact O1 |]. split; [exact O2 |].
  split; [exact H1 |]. split; [exact H2 |]. split; [exact (P1 eq_refl) | exact (P2 eq_refl)].
Qed.
Lemma home_awaits : exists mbst st,
  awaits (side_at 9 there) (side_at 7 here) 1 mbst st [] home_raw to_alice alice /\
  can_pay (later (side_at 9 there) there2 []) (side_at 7 here) st 3.
Proof.
  pose proof here_reads as H. apply pair_equal_spec in H as [H H3]. apply pair_equal_spec in H as [H0 H4].
  apply read_at_some in H0 as (s0 & C0 & H0). apply read_at_some in H4 as (s4 & C4 & H4).
  apply read_at_some in H3 as (s3 & C3 & H3).
  apply pair_equal_spec in H4 as [H4 P4]. apply pair_equal_spec in H4 as [I4 R4]. apply pair_equal_spec in H3 as [K3 H3].
  exists s0, s4. split.
  - split; [exact C0 |]. split; [exact C4 |]. split; [exact R4 |].
    split; [rewrite P4; vm_compute; reflexivity |]. split; [vm_compute; reflexivity |].
    exists (at_ 3). split; [exists None, (at_ 3); auto |].
    apply (answers_pausable _ _ _ 0 (at_ 3) s3); [exact C3 | destruct s3; try discriminate K3; exact I | exact H3].
  - right. eexists. eexists. exists (supply there2 wosmo). split; [exact ex_custody |].
    change (later (side_at 9 there) there2 []) with (side_at 9 there2).
    pose proof there2_seen as H. apply seen_parts in H as (_ & _ & _ & _ & _ & H). apply read_at_some in H as (st & Hc & H).
    apply pair_equal_spec in H as [H Ht]. apply pair_equal_spec in H as [Hk Hm].
    exact (ex_issued_native 9 there2 [] there2_txs st _ I there2_run Hc Hk Hm Ht).
Qed.
Lemma fresh_check d w raw :
  forallb (fun x => negb (bytes_eqb (keccak256_hash x) (keccak256_hash raw))) (processed_at (at_ 0) (w_log w)) = true ->
  no_clash (side_at d w) raw.
Proof.
  intros F raw' Hin E. rewrite forallb_forall in F. specialize (F raw' Hin). rewrite E, bytes_eqb_refl in F. discriminate F.
Qed.
Lemma home_fresh : no_clash (side_at 7 here) home_raw.
Proof.
  apply fresh_check. rewrite (proj1 (proj2 (proj2 (proj2 (proj2 (seen_parts _ _ _ _ _ _ _ here_seen)))))). vm_compute. reflexivity.
Qed.

Example C69_example : exists st,
  side_ok (side_at 9 there) /\
  transferable ex_chain 2 there (at_ 0) route st 7 to_alice 3 None None home_raw [] [] [at_ 1] /\
  pays_for st 3 [] [mkCoin wosmo 3] /\ affords ex_chain there route st alice 3 [mkCoin wosmo 3] /\
  tx_run ex_chain 40 home_tx there = Ok there2 /\
  linked (later (side_at 9 there) there2 []) (side_at 7 here) /\
  (exists mbst stT, awaits (side_at 9 there) (side_at 7 here) 1 mbst stT [] home_raw to_alice alice /\
     can_pay (later (side_at 9 there) there2 []) (side_at 7 here) stT 3) /\
  no_clash (side_at 7 here) home_raw /\
  (balance there alice wosmo, balance there2 alice wosmo) = (4, 1) /\
  match tx_run ex_chain 4 (TExec relayer (at_ 0) (MProcess [] home_raw) []) here with
  | Ok w' => (balance here alice (s "uosmo"), balance w' alice (s "uosmo")) = (88, 91)
  | _ => False
  end.
Proof.
  pose proof there_reads as H. apply pair_equal_spec in H as [_ H]. apply read_at_some in H as (st & Hc & H).
  apply pair_equal_spec in H as [H Hh]. apply pair_equal_spec in H as [H Hr]. apply pair_equal_spec in H as [H Ht].
  apply pair_equal_spec in H as [Hk Hm].
  assert (Hn : is_warp_native st) by (destruct st; try discriminate Hk; exact I).
  exists st. split; [exact there_sides |]. split; [| split; [| split]].
  - split; [exact Hc |]. split; [destruct st; try discriminate Hk; exact I |]. split; [exact Hm |].
    split; [discriminate |]. split; [reflexivity |]. exists peer. split; [exact Hr |]. rewrite Hh. exact home_dispatch.
  - intros x. rewrite (own_denom_native st wosmo x Hn Ht), !amount_of_cons. cbn [c_denom c_amount]. change (amount_of x []) with 0.
    destruct (bytes_eqb x wosmo); split; reflexivity.
  - split; [apply one_coin; apply N.leb_le; vm_compute; reflexivity |]. split; [rewrite Ht; discriminate |].
    intros X. destruct st; try discriminate Hk; contradiction X.
  - split; [exact home_run |]. split; [exact home_linked |]. split; [exact home_awaits |]. split; [exact home_fresh |].
    split; vm_compute; reflexivity.
Qed.
