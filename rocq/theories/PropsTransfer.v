(** * A remote transfer that pays its quote succeeds (C68). *)
From Coq Require Import List NArith Bool Lia.
From Verif Require Import Base BaseFacts OMap Coins Crypto Message Bech32 Chain Ownable Router Contracts Spec SpecModules
  Mailbox Hooks Igp Warp Cw20 StepFacts CoinsFacts MailboxConfFacts World SpecWorld SpecBridge SpecLive SpecSend SpecTransfer
  WorldFacts WorldSend WorldTransfer PropsAccess PropsWorld PropsBridge PropsSend.
Import ListNotations.

(** ** C68 *)
(** whoever has the amount and the mailbox's fees can send a transfer: exactly one
    message is dispatched, it names the recipient and the amount, the amount is
    locked or taken out of circulation, the fees go where the hooks say, and
    nothing else happens *)
Theorem C68_transfer_paid C n k w mb route st dest recipient amount hook md raw fees pays marks caller funds :
  chain_ok C -> reachable C w -> transferable C n w mb route st dest recipient amount hook md raw fees pays marks ->
  pays_for st amount fees funds -> affords C w route st caller amount funds ->
  ch_account C caller = true -> (n + 6 <= k)%nat ->
  exists w', tx_run C k (TExec caller route (MTransferRemote dest recipient amount hook md) funds) w = Ok w' /\
    dispatched_one w w' mb raw /\ recorded w w' raw marks /\ coins_moved w w' route st caller amount fees pays /\
    tokens_moved w w' route st caller amount /\ rest_same w w' mb st marks.
Proof. exact (transfer_sent C n k w mb route st dest recipient amount hook md raw fees pays marks caller funds). Qed.
Print Assumptions C68_transfer_paid.

(** the message is the one the other side will read *)
Theorem C68_message C n w mb route st dest recipient amount hook md raw fees pays marks :
  transferable C n w mb route st dest recipient amount hook md raw fees pays marks ->
  exists m router, msg_decode raw = Ok m /\ m_version m = 3 /\ m_dest m = dest /\
    reported_route st dest = Some (Some router) /\ m_recipient m = router /\ bech32_to_h256 route = Ok (m_sender m) /\
    m_body m = recipient ++ be 32 amount /\
    (length recipient = 32%nat -> warp_decode (m_body m) = Ok (mkWarp recipient amount [])).
Proof. exact (transfer_message C n w mb route st dest recipient amount hook md raw fees pays marks). Qed.
Print Assumptions C68_message.

(** the mailbox, asked for the route, quotes those fees *)
Theorem C68_quote C n k w mb route st dest recipient amount hook md raw fees pays marks :
  transferable C n w mb route st dest recipient amount hook md raw fees pays marks ->
  api_valid (ch_api C) route = true -> (n < k)%nat ->
  exists router, reported_route st dest = Some (Some router) /\
    q_smart (wq C k w) mb (QMailboxQuote route (mkDispatch dest router (recipient ++ be 32 amount)
      (match hook with Some h => Some h | None => reported_conn_hook st end) md)) = Ok (RFees fees) /\
    (forall x, amount_of x fees = amount_of x (map snd pays)).
Proof. exact (transfer_quoted C n k w mb route st dest recipient amount hook md raw fees pays marks). Qed.
Print Assumptions C68_quote.

(** *** A route that locks coins and one that issues cw20 tokens *)
(** 0 mailbox, 1 merkle hook, 2 fee hook, 3 pausable hook, 4 the coin's route, 5 the
    token's route, 6 the token *)
Definition pier_setup : list tx :=
  [TDeploy alice (IMailbox (s "osmo") alice 7) [];
   TDeploy alice (IMerkle (at_ 0)) [];
   TDeploy alice (IFeeHook alice (mkCoin uosmo 4)) [];
   TDeploy alice (IPausableHook alice false) [];
   TDeploy alice (IWarpNative (NtCollateral uosmo) (s "osmo") alice (at_ 0)) [];
   TDeploy alice (IWarpCw20 (CtBridged [(alice, 30)]) (s "osmo") alice (at_ 0)) [];
   TExec alice (at_ 0) (MSetRequiredHook (at_ 1)) [];
   TExec alice (at_ 0) (MSetDefaultHook (at_ 3)) [];
   TExec alice (at_ 4) (MConnection (SetHook (at_ 2))) [];
   TExec alice (at_ 4) (MRouter (SetRoute (mkRouteSet 9 (Some peer)))) [];
   TExec alice (at_ 5) (MRouter (SetRoute (mkRouteSet 9 (Some peer)))) [];
   TExec alice (at_ 6) (MCw20IncreaseAllowance (at_ 5) 25) []].
Definition pier_bank : omap (addr * str) N := om_set (alice, uosmo) 100 [].
Definition pier : world := chain_run ex_chain (genesis pier_bank) (both pier_setup).
Lemma pier_reachable : reachable ex_chain pier.
Proof. exists pier_bank, (both pier_setup). split; [unfold pier_bank; apply om_sorted_set; exact I | unfold pier; reflexivity]. Qed.

(** message of route [r] (whose address is number [r]) for [n] *)
Definition pier_mail (r n : N) : message := mkMessage 3 0 7 (be32 r) 9 peer (to_alice ++ be 32 n).
Lemma pier_merkle md raw : takes ex_chain pier (at_ 0) md raw 2 (at_ 1) [] [] [at_ 1].
Proof.
  destruct (read_at_some pier (at_ 1) (fun st => (kind st, reported_hook_mailbox st)) (6, Some (at_ 0))) as (st & Hc & H); [vm_compute; reflexivity |].
  apply pair_equal_spec in H as [K H]. apply (takes_merkle _ _ _ _ _ 2 _ st); [exact Hc | destruct st; try discriminate K; exact I | exact H | lia].
Qed.
Lemma pier_fee md raw : takes ex_chain pier (at_ 0) md raw 2 (at_ 2) [mkCoin uosmo 4] [(at_ 2, mkCoin uosmo 4)] [].
Proof.
  destruct (read_at_some pier (at_ 2) reported_fee (Some (mkCoin uosmo 4))) as (st & Hc & H); [vm_compute; reflexivity |].
  apply (takes_fee _ _ _ _ _ 2 _ st); [exact Hc | exact H | discriminate | apply N.ltb_lt; vm_compute; reflexivity | lia].
Qed.
Lemma pier_dispatch (r n : N) h :
  bech32_to_h256 (at_ r) = Ok (be32 r) -> (h = Some (at_ 2)) ->
  dispatchable ex_chain 2 pier (at_ 0) (at_ r) (mkDispatch 9 peer (to_alice ++ be 32 n) h None)
    (msg_encode (pier_mail r n)) [mkCoin uosmo 4] [(at_ 2, mkCoin uosmo 4)] [at_ 1].
Proof.
  intros Hr ->.
  destruct (read_at_some pier (at_ 0)
    (fun st => (reported_nonce st, reported_domain st, reported_required_hook st, reported_default_hook st))
    (Some 0, Some 7, Some (at_ 1), Some (at_ 3))) as (s0 & C0 & H0); [vm_compute; reflexivity |].
  apply pair_equal_spec in H0 as [H0 D0]. apply pair_equal_spec in H0 as [H0 R0]. apply pair_equal_spec in H0 as [N0 M0].
  exists s0, 0, 7, (be32 r), (at_ 1), (at_ 2), [], [], [at_ 1], [mkCoin uosmo 4], [(at_ 2, mkCoin uosmo 4)], [].
  split; [exact C0 |]. split; [exact N0 |]. split; [exact M0 |]. split; [reflexivity |]. split; [reflexivity |]. split; [reflexivity |].
  split; [vm_compute; reflexivity |]. split; [exact Hr |]. split; [reflexivity |]. split; [exact R0 |].
  split; [exists (at_ 3); split; [exact D0 | split; vm_compute; reflexivity] |]. split; [apply pier_merkle |].
  split; [apply pier_fee |]. split; [apply total_bounds; vm_compute; reflexivity |].
  split; [vm_compute; reflexivity |]. split; [reflexivity |]. split; [reflexivity |]. apply room_check. vm_compute. reflexivity.
Qed.
Lemma one_coin d n b : n <= b d -> forall x, amount_of x [mkCoin d n] <= b x.
Proof.
  intros H x. rewrite amount_of_cons. cbn [c_denom c_amount]. change (amount_of x []) with 0.
  destruct (bytes_eqb x d) eqn:E; [apply bytes_eqb_eq in E; subst x; lia | lia].
Qed.

(** 10 coins through the first route, whose own hook asks for 4 *)
Example C68_native_example : exists st,
  transferable ex_chain 2 pier (at_ 0) (at_ 4) st 9 to_alice 10 None None (msg_encode (pier_mail 4 10))
    [mkCoin uosmo 4] [(at_ 2, mkCoin uosmo 4)] [at_ 1] /\
  pays_for st 10 [mkCoin uosmo 4] [mkCoin uosmo 14] /\ affords ex_chain pier (at_ 4) st alice 10 [mkCoin uosmo 14] /\
  chain_ok ex_chain /\ reachable ex_chain pier /\ ch_account ex_chain alice = true /\
  match tx_run ex_chain 8 (TExec alice (at_ 4) (MTransferRemote 9 to_alice 10 None None) [mkCoin uosmo 14]) pier with
  | Ok w' => (dispatched_at (at_ 0) (w_log w'), posted_at (at_ 1) (w_log w'), balance w' alice uosmo,
              balance w' (at_ 2) uosmo, balance w' (at_ 4) uosmo)
             = ([msg_encode (pier_mail 4 10)], [msg_encode (pier_mail 4 10)], 86, 4, 10)
  | _ => False
  end.
Proof.
  destruct (read_at_some pier (at_ 4) (fun st => (kind st, warp_mailbox st, reported_token st, reported_route st 9, reported_conn_hook st))
    (15, Some (at_ 0), Some uosmo, Some (Some peer), Some (at_ 2))) as (st & Hc & H); [vm_compute; reflexivity |].
  apply pair_equal_spec in H as [H Hh]. apply pair_equal_spec in H as [H Hr]. apply pair_equal_spec in H as [H Ht].
  apply pair_equal_spec in H as [Hk Hm].
  assert (Hn : is_warp_native st) by (destruct st; try discriminate Hk; exact I).
  exists st. split; [| split; [| split]].
  - split; [exact Hc |]. split; [destruct st; try discriminate Hk; exact I |]. split; [exact Hm |].
    split; [discriminate |]. split; [reflexivity |]. exists peer. split; [exact Hr |].
    apply pier_dispatch; [vm_compute; reflexivity | exact Hh].
  - intros x. rewrite (own_denom_native st uosmo x Hn Ht), !amount_of_cons. cbn [c_denom c_amount]. change (amount_of x []) with 0.
    destruct (bytes_eqb x uosmo); split; reflexivity.
  - split; [apply one_coin; apply N.leb_le; vm_compute; reflexivity |]. split; [rewrite Ht; discriminate |].
    intros X. destruct st; try discriminate Hk; contradiction X.
  - split; [exact ex_chain_ok |]. split; [exact pier_reachable |]. split; [vm_compute; reflexivity |]. vm_compute. reflexivity.
Qed.

(** 8 tokens through the second, naming the same hook; they are burned *)
Example C68_cw20_example : exists st,
  transferable ex_chain 2 pier (at_ 0) (at_ 5) st 9 to_alice 8 (Some (at_ 2)) None (msg_encode (pier_mail 5 8))
    [mkCoin uosmo 4] [(at_ 2, mkCoin uosmo 4)] [at_ 1] /\
  pays_for st 8 [mkCoin uosmo 4] [mkCoin uosmo 4] /\ affords ex_chain pier (at_ 5) st alice 8 [mkCoin uosmo 4] /\
  match tx_run ex_chain 8 (TExec alice (at_ 5) (MTransferRemote 9 to_alice 8 (Some (at_ 2)) None) [mkCoin uosmo 4]) pier with
  | Ok w' => (dispatched_at (at_ 0) (w_log w'), balance w' alice uosmo, balance w' (at_ 2) uosmo,
              read_at w' (at_ 6) (fun t => (cw_holding t alice, cw_holding t (at_ 5), cw_total t, cw_allowed t alice (at_ 5))))
             = ([msg_encode (pier_mail 5 8)], 96, 4, Some (22, 0, 22, 17))
  | _ => False
  end.
Proof.
  destruct (read_at_some pier (at_ 5) (fun st => (kind st, warp_mailbox st, reported_token st, reported_route st 9))
    (16, Some (at_ 0), Some (at_ 6), Some (Some peer))) as (st & Hc & H); [vm_compute; reflexivity |].
  destruct (read_at_some pier (at_ 6) (fun t => (kind t, cw_holding t alice, cw_allowed t alice (at_ 5))) (17, 30, 25))
    as (tst & Hct & H'); [vm_compute; reflexivity |].
  apply pair_equal_spec in H' as [H' Hal]. apply pair_equal_spec in H' as [Hkt Hho].
  apply pair_equal_spec in H as [H Hr]. apply pair_equal_spec in H as [H Ht]. apply pair_equal_spec in H as [Hk Hm].
  assert (Hn : is_warp_cw20 st) by (destruct st; try discriminate Hk; exact I).
  exists st. split; [| split; [| split]].
  - split; [exact Hc |]. split; [destruct st; try discriminate Hk; exact I |]. split; [exact Hm |].
    split; [discriminate |]. split; [reflexivity |]. exists peer. split; [exact Hr |].
    apply pier_dispatch; [vm_compute; reflexivity | reflexivity].
  - intros x. rewrite (own_denom_cw20 st x Hn), !amount_of_cons. cbn [c_denom c_amount]. change (amount_of x []) with 0.
    destruct (bytes_eqb x uosmo); split; reflexivity.
  - split; [apply one_coin; apply N.leb_le; vm_compute; reflexivity |].
    split; [intros X; destruct st; try discriminate Hk; contradiction X |]. intros _.
    split; [vm_compute; reflexivity |]. split; [vm_compute; reflexivity |]. exists (at_ 6), tst.
    split; [exact Ht |]. split; [exact Hct |]. split; [destruct tst; try discriminate Hkt; exact I |].
    rewrite Hho, Hal. split; apply N.leb_le; reflexivity.
  - vm_compute. reflexivity.
Qed.
