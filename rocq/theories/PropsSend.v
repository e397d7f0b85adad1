(** * A dispatch that pays its quote succeeds (C66). *)
From Coq Require Import List NArith Bool Lia.
From Verif Require Import Base BaseFacts OMap Coins Crypto Message Bech32 Chain Ownable Router Contracts Spec SpecModules
  Mailbox Hooks Igp StepFacts CoinsFacts MailboxConfFacts World SpecWorld SpecSend WorldFacts WorldSend
  PropsAccess PropsWorld PropsBridge.
Import ListNotations.

(** ** C66 *)
(** the mailbox quotes what the hooks ask for *)
Theorem C66_quote C n k w mb caller d raw fees pays marks :
  dispatchable C n w mb caller d raw fees pays marks -> api_valid (ch_api C) caller = true -> (n < k)%nat ->
  q_smart (wq C k w) mb (QMailboxQuote caller d) = Ok (RFees fees) /\
  (forall x, amount_of x fees = amount_of x (map snd pays)).
Proof. exact (dispatch_quoted C n k w mb caller d raw fees pays marks). Qed.
Print Assumptions C66_quote.

(** whoever pays it gets the message dispatched; the fees go where the hooks say,
    the merkle hooks record the message, and nothing else happens *)
Theorem C66_dispatch_paid C n k w mb caller d raw fees pays marks :
  reachable C w -> dispatchable C n w mb caller d raw fees pays marks ->
  (forall x, amount_of x fees <= balance w caller x) -> ch_account C caller = true -> (n + 3 <= k)%nat ->
  exists w', tx_run C k (TExec caller mb (MDispatch d) fees) w = Ok w' /\
    dispatched_one w w' mb raw /\ fees_paid w w' caller fees pays /\ recorded w w' raw marks /\ others_same w w' mb marks.
Proof. exact (dispatch_paid C n k w mb caller d raw fees pays marks). Qed.
Print Assumptions C66_dispatch_paid.

(** *** A pausable hook, a fee, a merkle tree, a gas payment and a routing hook *)
Definition uosmo : str := s "uosmo".
Definition toll_bank : omap (addr * str) N := om_set (alice, uosmo) 1000 (om_set (relayer, uosmo) 600 []).
Definition toll_setup : list tx :=
  [TDeploy alice (IMailbox (s "osmo") alice 7) [];
   TDeploy alice (IMerkle (at_ 0)) [];
   TDeploy alice (IPausableHook alice false) [];
   TDeploy alice (IFeeHook alice (mkCoin uosmo 5)) [];
   TDeploy alice (IOracle alice) [];
   TDeploy alice (IIgp (s "osmo") alice uosmo alice 100) [];
   TDeploy alice (IRoutingHook alice) [];
   TDeploy alice (IAggHook alice [at_ 2; at_ 3]) [];
   TDeploy alice (IAggHook alice [at_ 1; at_ 5; at_ 6]) [];
   TDeploy alice (IPausableIsm alice false) [];
   TExec alice (at_ 4) (MSetRemoteGasData (mkGasConfig 9 10000000000 2)) [];
   TExec alice (at_ 5) (MRouter (SetRoute (mkRouteSet 9 (Some (at_ 4))))) [];
   TExec alice (at_ 6) (MRouter (SetRoute (mkRouteSet 9 (Some (at_ 2))))) [];
   TExec alice (at_ 0) (MSetRequiredHook (at_ 7)) [];
   TExec alice (at_ 0) (MSetDefaultHook (at_ 8)) [];
   TExec alice (at_ 0) (MSetDefaultIsm (at_ 9)) []].
Definition toll_txs : list (nat * tx) := both toll_setup.
Definition toll : world := chain_run ex_chain (genesis toll_bank) toll_txs.
Lemma toll_run : toll = chain_run ex_chain (genesis toll_bank) toll_txs.
Proof. unfold toll. reflexivity. Qed.
Definition toll_md : bytes := be32 250.
Definition toll_msg : dispatch_msg := mkDispatch 9 (be32 5) [x01; x02] None (Some toll_md).
Definition toll_mail : message := mkMessage 3 0 7 to_alice 9 (be32 5) [x01; x02].
Definition toll_raw : bytes := msg_encode toll_mail.

Lemma amount_le_total x l : amount_of x l <= fold_right (fun c acc => c_amount c + acc) 0 l.
Proof.
  induction l as [| c l IH]; [apply N.le_refl |]. rewrite amount_of_cons. cbn [fold_right].
  destruct (bytes_eqb _ _); lia.
Qed.
Lemma total_bounds l : (fold_right (fun c acc => c_amount c + acc) 0 l <? 2 ^ 128) = true -> forall x, amount_of x l < 2 ^ 128.
Proof. intros H x. apply N.ltb_lt in H. pose proof (amount_le_total x l). lia. Qed.
Lemma occ_le a l : occ a l <= N.of_nat (length l).
Proof. unfold occ. induction l as [| b l IH]; [apply N.le_refl |]. cbn [filter length]. destruct (bytes_eqb a b); cbn [length]; lia. Qed.
Lemma room_check w marks :
  forallb (fun p => match snd p with
                    | IC st => match reported_count st with Some c => c + N.of_nat (length marks) <=? 2 ^ 32 - 1 | None => true end
                    | _ => true
                    end) (w_inst w) = true -> room w marks.
Proof.
  intros H a st c Hc Hr. rewrite forallb_forall in H. apply om_get_In in Hc. apply H in Hc. cbn [snd] in Hc. rewrite Hr in Hc.
  apply N.leb_le in Hc. pose proof (occ_le a marks). lia.
Qed.

Definition toll_pays : list (addr * coin) := [(at_ 3, mkCoin uosmo 5); (at_ 5, mkCoin uosmo 500)].
Lemma toll_decoded : msg_decode toll_raw = Ok toll_mail.
Proof. vm_compute. reflexivity. Qed.
Lemma toll_paused : takes ex_chain toll (at_ 0) toll_md toll_raw 2 (at_ 2) [] [] [].
Proof.
  destruct (read_at_some toll (at_ 2) (fun st => (kind st, reported_paused st)) (8, Some false)) as (st & Hc & H); [vm_compute; reflexivity |].
  apply pair_equal_spec in H as [K H]. apply (takes_pausable _ _ _ _ _ 2 _ st); [exact Hc | destruct st; try discriminate K; exact I | exact H | lia].
Qed.
Lemma toll_required : takes ex_chain toll (at_ 0) toll_md toll_raw 8 (at_ 7) [mkCoin uosmo 5] [(at_ 3, mkCoin uosmo 5)] [].
Proof.
  destruct (read_at_some toll (at_ 3) reported_fee (Some (mkCoin uosmo 5))) as (s3 & C3 & H3); [vm_compute; reflexivity |].
  destruct (read_at_some toll (at_ 7) reported_hooks (Some [at_ 2; at_ 3])) as (s7 & C7 & H7); [vm_compute; reflexivity |].
  apply (takes_aggregate _ _ _ _ _ 2 8 (at_ 7) s7 toll_mail [at_ 2; at_ 3] [[]; [mkCoin uosmo 5]] ([] ++ [(at_ 3, mkCoin uosmo 5)] ++ []) ([] ++ [] ++ []));
    [exact C7 | exact H7 | exact toll_decoded | | apply total_bounds; vm_compute; reflexivity | cbn; lia].
  constructor; [exact toll_paused |]. constructor; [| constructor].
  apply (takes_fee _ _ _ _ _ 2 _ s3); [exact C3 | exact H3 | discriminate | apply N.ltb_lt; vm_compute; reflexivity | lia].
Qed.
Lemma toll_default : takes ex_chain toll (at_ 0) toll_md toll_raw 8 (at_ 8) [mkCoin uosmo 500] [(at_ 5, mkCoin uosmo 500)] [at_ 1].
Proof.
  destruct (read_at_some toll (at_ 1) (fun st => (kind st, reported_hook_mailbox st)) (6, Some (at_ 0))) as (s1 & C1 & H1); [vm_compute; reflexivity |].
  destruct (read_at_some toll (at_ 4) (fun st => reported_gas_data st 9) (Some (2, 10000000000))) as (s4 & C4 & H4); [vm_compute; reflexivity |].
  destruct (read_at_some toll (at_ 5) (fun st => (kind st, gas_hrp st, gas_token st, reported_route st 9))
    (14, s "osmo", uosmo, Some (Some (at_ 4)))) as (s5 & C5 & H5); [vm_compute; reflexivity |].
  destruct (read_at_some toll (at_ 6) (fun st => (kind st, fallback_of st, selected_hook st toll_mail)) (9, None, Some (at_ 2)))
    as (s6 & C6 & H6); [vm_compute; reflexivity |].
  destruct (read_at_some toll (at_ 8) reported_hooks (Some [at_ 1; at_ 5; at_ 6])) as (s8 & C8 & H8); [vm_compute; reflexivity |].
  apply pair_equal_spec in H1 as [K1 H1]. apply pair_equal_spec in H6 as [H6 S6]. apply pair_equal_spec in H6 as [K6 _].
  apply pair_equal_spec in H5 as [H5 R5]. apply pair_equal_spec in H5 as [H5 T5]. apply pair_equal_spec in H5 as [K5 P5].
  apply (takes_aggregate _ _ _ _ _ 4 8 (at_ 8) s8 toll_mail [at_ 1; at_ 5; at_ 6] [[]; [mkCoin uosmo 500]; []]
    ([] ++ [(at_ 5, mkCoin uosmo 500)] ++ [] ++ []) ([at_ 1] ++ [] ++ [] ++ []));
    [exact C8 | exact H8 | exact toll_decoded | | apply total_bounds; vm_compute; reflexivity | apply PeanoNat.Nat.le_refl].
  constructor; [| constructor; [| constructor; [| constructor]]].
  - apply (takes_merkle _ _ _ _ _ 4 _ s1); [exact C1 | destruct s1; try discriminate K1; exact I | exact H1 | lia].
  - rewrite <- T5. apply (takes_gas _ _ _ _ _ 4 _ s5 toll_mail 250 alice (at_ 4) s4 2 10000000000);
      [exact C5 | destruct s5; try discriminate K5; exact I | exact toll_decoded | vm_compute; reflexivity | | exact R5 | exact C4 | exact H4
      | vm_compute; reflexivity | vm_compute; reflexivity | split; vm_compute; reflexivity | vm_compute; discriminate
      | vm_compute; reflexivity | lia].
    exists alice. rewrite P5. split; vm_compute; reflexivity.
  - apply (takes_router _ _ _ _ _ 2 4 _ s6 toll_mail (at_ 2));
      [exact C6 | destruct s6; try discriminate K6; exact I | | exact toll_decoded | exact S6 | exact toll_paused | lia].
    intros X. destruct s6; try discriminate K6. contradiction X.
Qed.
Lemma toll_dispatchable : dispatchable ex_chain 8 toll (at_ 0) alice toll_msg toll_raw [mkCoin uosmo 505] toll_pays [at_ 1].
Proof.
  destruct (read_at_some toll (at_ 0)
    (fun st => (reported_nonce st, reported_domain st, reported_required_hook st, reported_default_hook st))
    (Some 0, Some 7, Some (at_ 7), Some (at_ 8))) as (s0 & C0 & H0); [vm_compute; reflexivity |].
  apply pair_equal_spec in H0 as [H0 D0]. apply pair_equal_spec in H0 as [H0 R0]. apply pair_equal_spec in H0 as [N0 M0].
  exists s0, 0, 7, to_alice, (at_ 7), (at_ 8), [mkCoin uosmo 5], [(at_ 3, mkCoin uosmo 5)], [],
    [mkCoin uosmo 500], [(at_ 5, mkCoin uosmo 500)], [at_ 1].
  split; [exact C0 |]. split; [exact N0 |]. split; [exact M0 |]. split; [reflexivity |]. split; [reflexivity |]. split; [reflexivity |].
  split; [reflexivity |]. split; [vm_compute; reflexivity |]. split; [reflexivity |]. split; [exact R0 |].
  split; [exists (at_ 8); split; [exact D0 | reflexivity] |]. split; [exact toll_required |].
  split; [exact toll_default |]. split; [apply total_bounds; vm_compute; reflexivity |].
  split; [vm_compute; reflexivity |]. split; [reflexivity |]. split; [reflexivity |]. apply room_check. vm_compute. reflexivity.
Qed.
Lemma toll_reachable : reachable ex_chain toll.
Proof. exists toll_bank, toll_txs. split; [unfold toll_bank; apply om_sorted_set, om_sorted_set; exact I | exact toll_run]. Qed.
Example C66_example :
  dispatchable ex_chain 8 toll (at_ 0) alice toll_msg toll_raw [mkCoin uosmo 505] toll_pays [at_ 1] /\
  reachable ex_chain toll /\ api_valid (ch_api ex_chain) alice = true /\ ch_account ex_chain alice = true /\
  (forall x, amount_of x [mkCoin uosmo 505] <= balance toll alice x) /\
  match tx_run ex_chain 11 (TExec alice (at_ 0) (MDispatch toll_msg) [mkCoin uosmo 505]) toll with
  | Ok w' => (dispatched_at (at_ 0) (w_log w'), posted_at (at_ 1) (w_log w'), balance w' alice uosmo,
              balance w' (at_ 3) uosmo, balance w' (at_ 5) uosmo) = ([toll_raw], [toll_raw], 495, 5, 500)
  | _ => False
  end.
Proof.
  split; [exact toll_dispatchable |].
  split; [exact toll_reachable |].
  split; [vm_compute; reflexivity |]. split; [vm_compute; reflexivity |].
  split; [| vm_compute; reflexivity].
  intros x. rewrite amount_of_cons. destruct (bytes_eqb x (c_denom (mkCoin uosmo 505))) eqn:E; [| apply N.le_0_l].
  apply bytes_eqb_eq in E. subst x. apply N.leb_le. vm_compute. reflexivity.
Qed.
