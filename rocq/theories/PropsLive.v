(** * Vouched-for transfers are paid out (C65). *)
From Coq Require Import List NArith Bool Lia.
From Verif Require Import Base BaseFacts OMap Coins Crypto Message Bech32 Chain Ownable Router Contracts Spec SpecModules
  Mailbox Va Isms Hooks Igp Warp Cw20 StepFacts MailboxConfFacts IsmFacts World SpecWorld SpecBridge SpecLive WorldFacts
  WorldLive PropsAccess PropsIsm PropsWorld PropsBridge PropsVerify.
Import ListNotations.

(** ** C65 *)
(** given what [answers] asks for, the module's verdict is as said, whatever the
    mailbox has recorded meanwhile *)
Theorem C65_modules_answer C w mb mbst mbst' n k x md raw b :
  contract_at w mb mbst -> is_mailbox mbst -> is_mailbox mbst' ->
  answers (ch_api C) (contract_at w) (others_answer C w mb) n x md raw b -> (n <= k)%nat ->
  exists b', q_smart (wq C k (set_inst mb (IC mbst') w)) x (QVerify md raw) = Ok (RVerified b') /\ (b = true -> b' = true).
Proof. intros Hc Hk Hk'. exact (answers_query C w mb mbst mbst' Hc Hk Hk' n k x md raw b). Qed.
Print Assumptions C65_modules_answer.

(** anybody can have a vouched-for transfer delivered; the recipient is paid, in
    the same transaction, exactly the amount named *)
Theorem C65_transfer_paid C n k w mb route mbst st md raw m recipient amount relayer held :
  chain_ok C -> reachable C w ->
  deliverable C n w mb route mbst st md raw m -> is_warp st ->
  warp_delivery st (mkInfo mb []) (m_origin m) (m_sender m) (m_body m) recipient amount ->
  amount <> 0 -> api_valid (ch_api C) recipient = true ->
  holds w st route held -> (reported_mode st = Some Collateral -> amount <= held) -> can_issue w st amount ->
  ch_account C relayer = true -> (n <= k)%nat -> (4 <= k)%nat ->
  exists w', tx_run C k (TExec relayer mb (MProcess md raw) []) w = Ok w' /\
    only_delivered w w' mb raw /\ paid_out w w' mb route st recipient amount.
Proof. exact (transfer_paid C n k w mb route mbst st md raw m recipient amount relayer held). Qed.
Print Assumptions C65_transfer_paid.

(** what was locked can always be paid back: a route whose only peer issues the
    token holds enough for every transfer on its way back *)
Theorem C65_locked_pays_back S T held base out raw m n k mbst st md recipient relayer :
  linked S T -> custody S held base -> issued T out 0 ->
  In raw (dispatched_at (sd_mailbox T) (sd_log T)) -> sent_by (sd_name T) (sd_domain S) raw = true ->
  msg_decode raw = Ok m -> message_amount raw <> 0 ->
  contract_at (sd_world S) (sd_mailbox S) mbst -> reported_delivered mbst (keccak256_hash raw) = Some false ->
  contract_at (sd_world S) (sd_route S) st ->
  reported_route st (sd_domain T) = Some (Some (sd_name T)) ->
  bech32_encode (warp_hrp st) (firstn 32 (m_body m)) = Ok recipient ->
  api_valid (ch_api (sd_chain S)) recipient = true ->
  (exists x, consulted st mbst x /\
     answers (ch_api (sd_chain S)) (contract_at (sd_world S)) (others_answer (sd_chain S) (sd_world S) (sd_mailbox S))
       n x md raw true) ->
  ch_account (sd_chain S) relayer = true -> (n <= k)%nat -> (4 <= k)%nat ->
  exists w', tx_run (sd_chain S) k (TExec relayer (sd_mailbox S) (MProcess md raw) []) (sd_world S) = Ok w' /\
    only_delivered (sd_world S) w' (sd_mailbox S) raw /\
    paid_out (sd_world S) w' (sd_mailbox S) (sd_route S) st recipient (message_amount raw).
Proof. exact (backed_paid S T held base out raw m n k mbst st md recipient relayer). Qed.
Print Assumptions C65_locked_pays_back.

(** *** Two of three validators, a routing and an aggregate module *)
Definition ready_txs : list (nat * tx) := both signed_setup.
Definition ready : world := chain_run signed_chain (genesis []) ready_txs.
Lemma ready_run : ready = chain_run signed_chain (genesis []) ready_txs.
Proof. unfold ready. reflexivity. Qed.
Definition ready_md : bytes := signed_md [ex_sig x03; ex_sig x01].
Definition ready_mail : message := mkMessage 3 0 5 (be32 9) 7 (be32 5) (to_alice ++ be 32 30).
Lemma ready_signed h b : b <> x00 -> signed_by ex_recover h (ex_sig b) (ex_val b).
Proof.
  intros H. split; [reflexivity |]. exists x1b, (x04 :: repeat b 64). split; [reflexivity |].
  split; [discriminate |]. split; [| split; [discriminate | reflexivity]].
  destruct b; try reflexivity. contradiction.
Qed.

Lemma nodup_two : NoDup [at_ 1; at_ 2].
Proof.
  constructor; [| constructor; [intros [] | constructor]]. intros [H | []].
  assert (E : bytes_eqb (at_ 2) (at_ 1) = false) by (vm_compute; reflexivity). apply bytes_eqb_neq in E. exact (E H).
Qed.
Lemma nodup_vals : NoDup [ex_val x03; ex_val x01].
Proof.
  constructor; [| constructor; [intros [] | constructor]]. intros [H | []].
  assert (E : bytes_eqb (ex_val x01) (ex_val x03) = false) by (vm_compute; reflexivity). apply bytes_eqb_neq in E. exact (E H).
Qed.
Lemma slice_1 : module_slice ready_md 0 (ex_md [ex_sig x03; ex_sig x01]).
Proof.
  exists 16, 214. split; [apply PeanoNat.Nat.leb_le; vm_compute; reflexivity |].
  split; [vm_compute; reflexivity |]. split; [vm_compute; reflexivity |]. split; [discriminate |].
  split; [| vm_compute; reflexivity]. apply N.leb_le. vm_compute. reflexivity.
Qed.
Lemma slice_2 : module_slice ready_md 1 [].
Proof.
  exists 214, 214. split; [apply PeanoNat.Nat.leb_le; vm_compute; reflexivity |].
  split; [vm_compute; reflexivity |]. split; [vm_compute; reflexivity |]. split; [discriminate |].
  split; [| vm_compute; reflexivity]. apply N.leb_le. vm_compute. reflexivity.
Qed.
Lemma signed_parts : multisig_metadata (ex_md [ex_sig x03; ex_sig x01]) (repeat x11 32) (repeat x22 32) 77 ([ex_sig x03; ex_sig x01] ++ []).
Proof.
  exists []. split; [vm_compute; reflexivity |]. split; [reflexivity |]. split; [reflexivity |]. split; [reflexivity |].
  split; [repeat constructor | apply PeanoNat.Nat.ltb_lt; reflexivity].
Qed.

Lemma ready_answers O : answers ex_recover (contract_at ready) O 3 (at_ 4) ready_md signed_raw true.
Proof.
  destruct (read_at_some ready (at_ 4) (fun st => (kind st, reported_module_for st signed_raw)) (4, Some (at_ 3)))
    as (s4 & C4 & H4); [vm_compute; reflexivity |].
  destruct (read_at_some ready (at_ 3) (fun st => (kind st, reported_modules st)) (3, Some ([at_ 1; at_ 2], 2)))
    as (s3 & C3 & H3); [vm_compute; reflexivity |].
  destruct (read_at_some ready (at_ 2) (fun st => (kind st, reported_paused st)) (5, Some false))
    as (s2 & C2 & H2); [vm_compute; reflexivity |].
  destruct (read_at_some ready (at_ 1) (fun st => (kind st, reported_enrolled st 5))
    (2, Some ([ex_val x01; ex_val x02; ex_val x03], 2))) as (s1 & C1 & H1); [vm_compute; reflexivity |].
  apply pair_equal_spec in H1 as [K1 H1], H2 as [K2 H2], H3 as [K3 H3], H4 as [K4 H4].
  apply (answers_routing _ _ _ 2 (at_ 4) s4 _ _ (at_ 3)); [exact C4 | destruct s4; try discriminate K4; exact I | exact H4 |].
  apply (answers_aggregate _ _ _ 1 (at_ 3) s3 _ _ [at_ 1; at_ 2] 2 [at_ 1; at_ 2]).
  - exact C3.
  - exact H3.
  - reflexivity.
  - apply nodup_two.
  - apply nodup_two.
  - apply incl_refl.
  - discriminate.
  - intros j y Hj. destruct j as [| [| j]]; cbn [nth_error] in Hj; [| | destruct j; discriminate Hj]; injection Hj as <-.
    + exists (ex_md [ex_sig x03; ex_sig x01]). split; [exact slice_1 |].
      replace (existsb (bytes_eqb (at_ 1)) [at_ 1; at_ 2]) with true by (vm_compute; reflexivity).
      apply (answers_multisig _ _ _ 0 (at_ 1) s1 _ _ ready_mail (repeat x11 32) (repeat x22 32) 77 [ex_sig x03; ex_sig x01] []
        [ex_val x01; ex_val x02; ex_val x03] 2 [ex_val x03; ex_val x01]).
      * exact C1.
      * destruct s1; try discriminate K1. exact I.
      * vm_compute. reflexivity.
      * exact signed_parts.
      * exact H1.
      * reflexivity.
      * repeat constructor; eexists; apply ready_signed; discriminate.
      * apply nodup_vals.
      * discriminate.
      * constructor; [| constructor; [| constructor]].
        -- split; [now right; right; left |]. exists (ex_sig x03). split; [now left | apply ready_signed; discriminate].
        -- split; [now left |]. exists (ex_sig x01). split; [now right; left | apply ready_signed; discriminate].
    + exists []. split; [exact slice_2 |].
      replace (existsb (bytes_eqb (at_ 2)) [at_ 1; at_ 2]) with true by (vm_compute; reflexivity).
      apply (answers_pausable _ _ _ 0 (at_ 2) s2); [exact C2 | destruct s2; try discriminate K2; exact I | exact H2].
Qed.

Definition wready : str := factory_denom (at_ 5) (s "wosmo").
Lemma ready_deliverable : exists mbst st,
  deliverable signed_chain 3 ready (at_ 0) (at_ 5) mbst st ready_md signed_raw ready_mail /\ is_warp st /\
  warp_delivery st (mkInfo (at_ 0) []) 5 (be32 9) (to_alice ++ be 32 30) alice 30 /\
  holds ready st (at_ 5) 0 /\ reported_mode st = Some Bridged /\ can_issue ready st 30.
Proof.
  destruct (read_at_some ready (at_ 0)
    (fun st => (kind st, reported_domain st, reported_hrp st, reported_delivered st (keccak256_hash signed_raw), reported_default_ism st))
    (0, Some 7, Some (s "osmo"), Some false, Some (at_ 4))) as (s0 & C0 & H0); [vm_compute; reflexivity |].
  destruct (read_at_some ready (at_ 5)
    (fun st => (kind st, reported_conn st QConnIsm, warp_mailbox st, reported_route st 5, warp_hrp st, reported_token st, reported_mode st))
    (15, Some None, Some (at_ 0), Some (Some (be32 9)), s "osmo", Some wready, Some Bridged)) as (s5 & C5 & H5); [vm_compute; reflexivity |].
  repeat match goal with H : (_, _) = (_, _) |- _ => apply pair_equal_spec in H as [H ?] end.
  assert (N5 : is_warp_native s5) by (destruct s5; try discriminate H5; exact I).
  exists s0, s5. split; [| split; [| split; [| split; [| split]]]].
  - split; [exact C0 |]. split; [exact H0 |]. split; [exact C5 |]. split; [vm_compute; reflexivity |]. split; [reflexivity |].
    split; [assumption |]. split; [exists (s "osmo"); split; [assumption | vm_compute; reflexivity] |]. split; [assumption |].
    exists (at_ 4). split; [exists None, (at_ 4); auto | apply ready_answers].
  - destruct s5; try contradiction N5. exact I.
  - split; [reflexivity |]. split; [assumption |]. split; [assumption |]. split; [reflexivity |].
    exists to_alice, []. split; [vm_compute; reflexivity |]. split; [reflexivity |].
    match goal with H : warp_hrp s5 = _ |- _ => rewrite H end. vm_compute. reflexivity.
  - exists wready. split; [assumption |]. left. split; [exact N5 | vm_compute; reflexivity].
  - assumption.
  - intros X. destruct s5; try contradiction N5. contradiction X.
Qed.
(** ... and the transaction does it *)
Example C65_example : chain_ok signed_chain /\ reachable signed_chain ready /\
  match tx_run signed_chain 4 (TExec relayer (at_ 0) (MProcess ready_md signed_raw) []) ready with
  | Ok w' => (balance w' alice wready, processed_at (at_ 0) (w_log w')) = (30, [signed_raw])
  | _ => False
  end.
Proof.
  split; [exact signed_chain_ok |].
  split; [exists [], ready_txs; split; [exact I | exact ready_run] |].
  vm_compute. reflexivity.
Qed.

(** *** The 2 still on their way back in the example of C47 *)
Definition back_mail : message := mail 1 9 7 to_alice 2.
Definition back_raw : bytes := msg_encode back_mail.
Example C65_back_example :
  linked (side_at 7 here) (side_at 9 there) /\ issued (side_at 9 there) (supply there wosmo) 0 /\
  existsb (bytes_eqb back_raw) (dispatched_at (at_ 0) (w_log there)) = true /\ sent_by peer 7 back_raw = true /\
  msg_decode back_raw = Ok back_mail /\ message_amount back_raw = 2 /\
  (exists mbst st x, contract_at here (at_ 0) mbst /\ reported_delivered mbst (keccak256_hash back_raw) = Some false /\
     contract_at here route st /\ reported_route st 9 = Some (Some peer) /\
     bech32_encode (warp_hrp st) (firstn 32 (m_body back_mail)) = Ok alice /\ consulted st mbst x /\
     answers ex_api (contract_at here) (others_answer ex_chain here (at_ 0)) 1 x [] back_raw true) /\
  match tx_run ex_chain 4 (TExec relayer (at_ 0) (MProcess [] back_raw) []) here with
  | Ok w' => (balance here alice (s "uosmo"), balance w' alice (s "uosmo"), balance w' route (s "uosmo")) = (88, 90, 10)
  | _ => False
  end.
Proof.
  split; [exact ex_linked |]. split; [exact ex_issued |].
  split; [vm_compute; reflexivity |]. split; [vm_compute; reflexivity |]. split; [vm_compute; reflexivity |].
  split; [vm_compute; reflexivity |]. split; [| vm_compute; reflexivity].
  destruct (read_at_some here (at_ 0) (fun st => (reported_delivered st (keccak256_hash back_raw), reported_default_ism st))
    (Some false, Some (at_ 3))) as (s0 & C0 & H0); [vm_compute; reflexivity |].
  destruct (read_at_some here route (fun st => (reported_conn st QConnIsm, reported_route st 9, warp_hrp st))
    (Some None, Some (Some peer), s "osmo")) as (s4 & C4 & H4); [vm_compute; reflexivity |].
  destruct (read_at_some here (at_ 3) (fun st => (kind st, reported_paused st)) (5, Some false))
    as (s3 & C3 & H3); [vm_compute; reflexivity |].
  repeat match goal with H : (_, _) = (_, _) |- _ => apply pair_equal_spec in H as [H ?] end.
  exists s0, s4, (at_ 3). split; [exact C0 |]. split; [exact H0 |]. split; [exact C4 |]. split; [assumption |].
  split; [match goal with H : warp_hrp s4 = _ |- _ => rewrite H end; vm_compute; reflexivity |].
  split; [exists None, (at_ 3); auto |].
  apply (answers_pausable _ _ _ 0 (at_ 3) s3); [exact C3 | destruct s3; try discriminate H3; exact I | assumption].
Qed.
