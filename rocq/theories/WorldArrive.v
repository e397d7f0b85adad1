(** * What is sent on one chain can be received on the other: proofs. *)
From Coq Require Import List NArith Bool Lia.
From Verif Require Import Base BaseFacts OMap Crypto Bech32 Message CodecFacts Coins Chain Contracts Spec SpecModules MailboxConfFacts World
  SpecWorld SpecBridge SpecLive SpecSend SpecTransfer SpecArrive
  WorldFacts WorldMailbox WorldWarp WorldToken WorldLive WorldSend WorldTransfer.
Import ListNotations.

Lemma dispatched_kept C w l mb raw : In raw (dispatched_at mb (w_log w)) -> In raw (dispatched_at mb (w_log (chain_run C w l))).
Proof.
  intros H. destruct (asteps_extends C w _ (chain_run_steps C l w)) as (new & E). rewrite E.
  unfold dispatched_at, answers_at. rewrite !flat_map_app. apply in_or_app. left. exact H.
Qed.

(** the message of a transfer from [S]'s route *)
Lemma sent_mail S n st dest recipient amount hook md raw fees pays marks :
  side_ok S -> transferable (sd_chain S) n (sd_world S) (sd_mailbox S) (sd_route S) st dest recipient amount hook md raw fees pays marks ->
  exists m, msg_decode raw = Ok m /\ m_version m = 3 /\ m_origin m = sd_domain S /\ m_sender m = sd_name S /\ m_dest m = dest /\
    reported_route st dest = Some (Some (m_recipient m)) /\ m_body m = recipient ++ be 32 amount.
Proof.
  intros (_ & _ & (mb & hrp & Hmc & _ & Hmd & _ & _) & _ & Hn & _) HT.
  destruct (transfer_message _ _ _ _ _ _ _ _ _ _ _ _ _ _ _ HT) as (m & router & M1 & M2 & M3 & M4 & M5 & M6 & M7 & _).
  exists m. rewrite Hn in M6. apply Ok_inj in M6. rewrite M5.
  split; [exact M1 |]. split; [exact M2 |]. split; [| auto].
  destruct HT as (_ & _ & _ & _ & _ & router' & _ & mbst & nonce & domain & sender & rq & hk & f1 & p1 & k1 & f2 & p2 & k2 & D1 & _ & D3 &
    Hn1 & Hdm & Hdd & Hlr & Hs & Hraw & _).
  cbn [d_dest d_recipient d_body] in *.
  unfold contract_at in Hmc, D1. rewrite Hmc in D1. injection D1 as <-. rewrite Hmd in D3. injection D3 as <-.
  rewrite Hn in Hs. apply Ok_inj in Hs. subst sender.
  destruct (msg_decode_Ok_inv _ _ M1) as (_ & W & _).
  assert (Ls : length (sd_name S) = 32%nat) by (rewrite M6; apply W).
  rewrite Hraw, msg_decode_encode in M1.
  - apply Ok_inj in M1. subst m. reflexivity.
  - unfold msg_wf. cbn. change u32_max with (2 ^ 32). repeat split; try assumption; try reflexivity. lia.
Qed.

Lemma transfer_comes S n k st dest recipient amount hook md raw fees pays marks caller funds :
  side_ok S ->
  transferable (sd_chain S) n (sd_world S) (sd_mailbox S) (sd_route S) st dest recipient amount hook md raw fees pays marks ->
  length recipient = 32%nat ->
  pays_for st amount fees funds -> affords (sd_chain S) (sd_world S) (sd_route S) st caller amount funds ->
  ch_account (sd_chain S) caller = true -> (n + 6 <= k)%nat ->
  exists w',
    tx_run (sd_chain S) k (TExec caller (sd_route S) (MTransferRemote dest recipient amount hook md) funds) (sd_world S) = Ok w' /\
    coins_moved (sd_world S) w' (sd_route S) st caller amount fees pays /\
    tokens_moved (sd_world S) w' (sd_route S) st caller amount /\
    forall l T mbst stT to n' k' md' relayer, sd_domain T = dest ->
      side_ok (later S w' l) -> side_ok T -> enrolled (later S w' l) T -> proper_recipients (later S w' l) ->
      awaits S T n' mbst stT md' raw recipient to ->
      (reported_mode stT = Some Bridged /\ (exists held, holds (sd_world T) stT (sd_route T) held) /\
       can_issue (sd_world T) stT amount) \/
      (exists held base, custody T held base /\
         (In raw (travelling (later S w' l) T) -> message_amount raw <= held)) ->
      no_clash T raw ->
      ch_account (sd_chain T) relayer = true -> (n' <= k')%nat -> (4 <= k')%nat ->
      In raw (processed_at (sd_mailbox T) (sd_log T)) \/
      exists wT, tx_run (sd_chain T) k' (TExec relayer (sd_mailbox T) (MProcess md' raw) []) (sd_world T) = Ok wT /\
        only_delivered (sd_world T) wT (sd_mailbox T) raw /\
        paid_out (sd_world T) wT (sd_mailbox T) (sd_route T) stT to amount.
Proof.
  intros HS HT Hlen Hpay Haf Hacc Hk.
  destruct (sent_mail S _ _ _ _ _ _ _ _ _ _ _ HS HT) as (m & M1 & M3 & Mo & Ms & Md & Mr & Mb).
  destruct HT as (T1 & T2 & T3 & H0 & H128 & T6).
  pose proof HS as (HC & Hr & _).
  destruct (transfer_sent (sd_chain S) n k (sd_world S) (sd_mailbox S) (sd_route S) st dest recipient amount hook md raw fees pays marks caller funds)
    as (w' & R & (D & _) & _ & Cm & Tm & _); auto; [repeat (split; [assumption |]); assumption |].
  exists w'. split; [exact R |]. split; [exact Cm |]. split; [exact Tm |].
  intros l T mbst stT to n' k' md' relayer Ed HS2 HTs E1 P1 (Hmc & Hwc & Hrt & Henc & Hval & Hmod) Hcan Hcl Hrel Hn' H4.
  assert (Hin : In raw (dispatched_at (sd_mailbox S) (sd_log (later S w' l)))).
  { apply dispatched_kept. rewrite D. apply in_or_app. right. left. reflexivity. }
  assert (Hsent : sent_by (sd_name S) (sd_domain T) raw = true).
  { unfold sent_by. rewrite M1, Ms, Md, bytes_eqb_refl, Ed, N.eqb_refl. reflexivity. }
  assert (Ham : message_amount raw = amount).
  { unfold message_amount. rewrite M1, Mb. now apply named_amount_proper. }
  pose proof HTs as HT0.
  destruct HTs as (HC' & Hr' & (mb & hrp & Hmc1 & Hmm & Hmd & Hmh & Hme) & (st1 & Hwc1 & Hwk & Hwm) & Hn & Ho).
  unfold contract_at in Hmc1, Hwc1. pose proof Hmc as Hmc2. pose proof Hwc as Hwc2. unfold contract_at in Hmc2, Hwc2.
  rewrite Hmc2 in Hmc1. injection Hmc1 as <-. rewrite Hwc2 in Hwc1. injection Hwc1 as <-. clear Hmc2 Hwc2.
  destruct (chain_deliveries _ _ _ _ HC' Hr' Hmc Hmm) as (_ & Dl & _).
  destruct (reported_delivered mbst (keccak256_hash raw)) as [[|] |] eqn:Ede.
  { left. apply Dl in Ede as (raw' & I1 & I2). rewrite <- (Hcl raw' I1 I2). exact I1. }
  2:{ exfalso. destruct mbst; try discriminate Hmm. discriminate Ede. }
  right.
  assert (Hbody : firstn 32 (m_body m) = recipient).
  { rewrite Mb, firstn_app, Hlen, firstn_O, app_nil_r. apply firstn_all2. lia. }
  destruct Hcan as [(Hmode & (held & Hheld) & Hiss) | (held & base & Hcus & Hbound)].
  - (* the peer issues *)
    assert (Hrcp : m_recipient m = sd_name T).
    { destruct HS2 as (HC2 & Hr2 & (mb2 & hrp2 & Hmc2 & Hmm2 & Hmd2 & Hmh2 & Henc2) & (st2 & Hwc2 & Hwk2 & Hwm2) & Hn2 & Ho2).
      unfold sd_log in *.
      destruct (sending_names _ _ _ _ _ _ _ _ HC2 Hr2 Hmc2 Hmm2 Hmd2 Hwc2 Hwk2 Hwm2 Hn2 Ho2 raw _ Hin Hsent)
        as (m' & N1 & N2 & N3 & r & U1 & U2 & U3).
      rewrite M1 in N1. apply Ok_inj in N1. subst m'. exact (E1 r _ U1 U2 U3). }
    apply (transfer_paid (sd_chain T) n' k' (sd_world T) (sd_mailbox T) (sd_route T) mbst stT md' raw m to amount relayer held); auto.
    + repeat (split; [assumption |]). split; [rewrite Md, <- Ed; exact Hmd |].
      split; [exists hrp; rewrite Hrcp; auto |]. split; [exact Ede | exact Hmod].
    + rewrite Mo, Ms. destruct (msg_decode_Ok_inv _ _ M1) as (_ & (_ & _ & W & _) & _). rewrite Mo in W.
      split; [exact W |]. split; [exact Hwm |]. split; [exact Hrt |]. split; [exact H128 |].
      exists recipient, []. rewrite app_nil_r. auto.
    + rewrite Hmode. discriminate.
  - (* the peer locks *)
    rewrite <- Ham.
    apply (held_paid T (later S w' l) held base raw m n' k' mbst stT md' to relayer); auto.
    + rewrite Ham. exact H0.
    + rewrite Hbody. exact Henc.
Qed.

Lemma transfer_arrives S n k st dest recipient amount hook md raw fees pays marks caller funds :
  side_ok S ->
  transferable (sd_chain S) n (sd_world S) (sd_mailbox S) (sd_route S) st dest recipient amount hook md raw fees pays marks ->
  length recipient = 32%nat ->
  pays_for st amount fees funds -> affords (sd_chain S) (sd_world S) (sd_route S) st caller amount funds ->
  ch_account (sd_chain S) caller = true -> (n + 6 <= k)%nat ->
  exists w',
    tx_run (sd_chain S) k (TExec caller (sd_route S) (MTransferRemote dest recipient amount hook md) funds) (sd_world S) = Ok w' /\
    coins_moved (sd_world S) w' (sd_route S) st caller amount fees pays /\
    tokens_moved (sd_world S) w' (sd_route S) st caller amount /\
    forall l T mbst stT to n' k' md' relayer, sd_domain T = dest ->
      linked (later S w' l) T -> awaits S T n' mbst stT md' raw recipient to -> can_pay (later S w' l) T stT amount -> no_clash T raw ->
      ch_account (sd_chain T) relayer = true -> (n' <= k')%nat -> (4 <= k')%nat ->
      In raw (processed_at (sd_mailbox T) (sd_log T)) \/
      exists wT, tx_run (sd_chain T) k' (TExec relayer (sd_mailbox T) (MProcess md' raw) []) (sd_world T) = Ok wT /\
        only_delivered (sd_world T) wT (sd_mailbox T) raw /\
        paid_out (sd_world T) wT (sd_mailbox T) (sd_route T) stT to amount.
Proof.
  intros HS HT Hlen Hpay Haf Hacc Hk.
  destruct (transfer_comes S n k st dest recipient amount hook md raw fees pays marks caller funds HS HT Hlen Hpay Haf Hacc Hk)
    as (w' & R & Cm & Tm & G).
  exists w'. split; [exact R |]. split; [exact Cm |]. split; [exact Tm |].
  intros l T mbst stT to n' k' md' relayer Ed HL Haw Hcan Hcl Hrel Hn' H4.
  pose proof HL as (L1 & L2 & L3 & L4 & L5 & L6 & L7 & L8 & L9 & L10).
  apply (G l T mbst stT to n' k' md' relayer); auto.
  destruct Hcan as [Hcan | (held & base & out & Hcus & Hiss)]; [left; exact Hcan | right].
  exists held, base. split; [exact Hcus |]. intros Htr. pose proof (total_in message_amount raw _ Htr) as X.
  fold (in_flight (later S w' l) T) in X.
  assert (HL' : linked T (later S w' l)) by (repeat (split; [assumption |]); assumption).
  pose proof (linked_locked_issued T _ held base out 0 HL' Hcus Hiss). lia.
Qed.
