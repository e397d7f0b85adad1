(** * C86: any number of connected warp routes. *)
From Coq Require Import List NArith Bool Lia.
From Verif Require Import Base BaseFacts OMap Coins Crypto Message Bech32 CodecSummary Chain Ownable Router
  Contracts Spec SpecModules Mailbox Va Isms Hooks Igp Warp Cw20 StepFacts MailboxConfFacts World SpecWorld WorldFacts
  SpecBridge SpecLive SpecSend SpecTransfer SpecArrive SpecNetwork WorldWarp WorldToken WorldRoute NetworkFacts
  PropsAccess PropsWorld PropsBridge.
Import ListNotations.

(** ** C86 *)
(** what all the routes that lock hold is what all the routes that issue have
    issued plus what is on its way, between any two of them.  Missing from the
    full claim: [network] includes [proper_recipients], which the code does not
    enforce (C47_refuted). *)
Theorem C86_network_backed_partial Ss held base out start :
  network Ss -> books Ss held base out start ->
  held + start = base + out + all_in_flight Ss.
Proof. exact (network_backed Ss held base out start). Qed.
Print Assumptions C86_network_backed_partial.

(** the sums exist for every list of routes (a collateral cw20 route's token being
    a cw20 token contract) *)
Theorem C86_books Ss :
  (forall S, In S Ss -> side_ok S) ->
  (forall S st, In S Ss -> contract_at (sd_world S) (sd_route S) st -> is_warp_cw20 st -> reported_mode st = Some Collateral ->
     exists tk tst, reported_token st = Some tk /\ contract_at (sd_world S) tk tst /\ is_cw20 tst) ->
  exists held base out start, books Ss held base out start.
Proof. exact (network_books Ss). Qed.
Print Assumptions C86_books.

(** when only one route locks and the others started from nothing, that route
    holds, above what it was given, all that is on its way to it *)
Theorem C86_sole_vault_partial Ss T held base :
  network Ss -> In T Ss -> custody T held base -> sole_vault Ss T -> base + coming_to T Ss <= held.
Proof. exact (vault_holds Ss T held base). Qed.
Print Assumptions C86_sole_vault_partial.

(** so whoever comes back from whichever route is paid *)
Theorem C86_vault_pays_back Ss S T held base raw m n k mbst st md recipient relayer :
  network Ss -> In S Ss -> In T Ss -> custody T held base -> sole_vault Ss T ->
  In raw (dispatched_at (sd_mailbox S) (sd_log S)) -> sent_by (sd_name S) (sd_domain T) raw = true ->
  msg_decode raw = Ok m -> message_amount raw <> 0 ->
  contract_at (sd_world T) (sd_mailbox T) mbst -> reported_delivered mbst (keccak256_hash raw) = Some false ->
  contract_at (sd_world T) (sd_route T) st ->
  reported_route st (sd_domain S) = Some (Some (sd_name S)) ->
  bech32_encode (warp_hrp st) (firstn 32 (m_body m)) = Ok recipient ->
  api_valid (ch_api (sd_chain T)) recipient = true ->
  (exists x, consulted st mbst x /\
     answers (ch_api (sd_chain T)) (contract_at (sd_world T)) (others_answer (sd_chain T) (sd_world T) (sd_mailbox T))
       n x md raw true) ->
  ch_account (sd_chain T) relayer = true -> (n <= k)%nat -> (4 <= k)%nat ->
  exists w', tx_run (sd_chain T) k (TExec relayer (sd_mailbox T) (MProcess md raw) []) (sd_world T) = Ok w' /\
    only_delivered (sd_world T) w' (sd_mailbox T) raw /\
    paid_out (sd_world T) w' (sd_mailbox T) (sd_route T) st recipient (message_amount raw).
Proof. exact (vault_pays Ss S T held base raw m n k mbst st md recipient relayer). Qed.
Print Assumptions C86_vault_pays_back.

(** a transfer accepted at one end can be paid at the end it names, whatever
    happens in between at all ends *)
Theorem C86_transfer_arrives S n k st dest recipient amount hook md raw fees pays marks caller funds :
  side_ok S ->
  transferable (sd_chain S) n (sd_world S) (sd_mailbox S) (sd_route S) st dest recipient amount hook md raw fees pays marks ->
  length recipient = 32%nat ->
  pays_for st amount fees funds -> affords (sd_chain S) (sd_world S) (sd_route S) st caller amount funds ->
  ch_account (sd_chain S) caller = true -> (n + 6 <= k)%nat ->
  exists w',
    tx_run (sd_chain S) k (TExec caller (sd_route S) (MTransferRemote dest recipient amount hook md) funds) (sd_world S) = Ok w' /\
    coins_moved (sd_world S) w' (sd_route S) st caller amount fees pays /\
    tokens_moved (sd_world S) w' (sd_route S) st caller amount /\
    forall l Ss T mbst stT to n' k' md' relayer, sd_domain T = dest ->
      network Ss -> In (later S w' l) Ss -> In T Ss ->
      awaits S T n' mbst stT md' raw recipient to ->
      (reported_mode stT = Some Bridged /\ (exists held, holds (sd_world T) stT (sd_route T) held) /\
       can_issue (sd_world T) stT amount) \/
      ((exists held base, custody T held base) /\ sole_vault Ss T) ->
      no_clash T raw ->
      ch_account (sd_chain T) relayer = true -> (n' <= k')%nat -> (4 <= k')%nat ->
      In raw (processed_at (sd_mailbox T) (sd_log T)) \/
      exists wT, tx_run (sd_chain T) k' (TExec relayer (sd_mailbox T) (MProcess md' raw) []) (sd_world T) = Ok wT /\
        only_delivered (sd_world T) wT (sd_mailbox T) raw /\
        paid_out (sd_world T) wT (sd_mailbox T) (sd_route T) stT to amount.
Proof. exact (transfer_arrives_network S n k st dest recipient amount hook md raw fees pays marks caller funds). Qed.
Print Assumptions C86_transfer_arrives.

(** *** Three chains: uosmo locked on 7, issued on 9 and 11 *)
Definition enrol (d : N) : tx := TExec alice route (MRouter (SetRoute (mkRouteSet d (Some peer)))) [].
Definition setup3 (here x y : N) (m : imsg) : list (nat * tx) := setup here x m ++ both [enrol y].
Definition locks : imsg := IWarpNative (NtCollateral (s "uosmo")) (s "osmo") alice (at_ 0).
Definition issues : imsg := IWarpNative (NtBridged (s "wosmo") None) (s "osmo") alice (at_ 0).
Definition uosmo (n : N) : list coin := [mkCoin (s "uosmo") n].
Definition woken (n : N) : list coin := [mkCoin wosmo n].
(** 10 and 20 go from 7 to 9 and 11; 6 from 9 to 11; 1 from 11 to 9, on its way; 4
    from 11 to 7 and paid, 5 more on their way; 3 from 7 to 9, on their way *)
Definition n7_txs : list (nat * tx) :=
  setup3 7 9 11 locks ++
  both [go 9 to_alice 10 (uosmo 10); go 11 to_alice 20 (uosmo 20); go 9 to_alice 3 (uosmo 3);
        come (mail 1 11 7 to_alice 4)].
Definition n9_txs : list (nat * tx) :=
  setup3 9 7 11 issues ++ both [come (mail 0 7 9 to_alice 10); go 11 to_alice 6 (woken 6)].
Definition n11_txs : list (nat * tx) :=
  setup3 11 7 9 issues ++
  both [come (mail 1 7 11 to_alice 20); come (mail 0 9 11 to_alice 6);
        go 9 to_alice 1 (woken 1); go 7 to_alice 4 (woken 4); go 7 to_alice 5 (woken 5)].
Definition n7 : world := chain_run ex_chain (genesis here_bank) n7_txs.
Definition n9 : world := chain_run ex_chain (genesis []) n9_txs.
Definition n11 : world := chain_run ex_chain (genesis []) n11_txs.
Lemma n7_run : n7 = chain_run ex_chain (genesis here_bank) n7_txs.
Proof. unfold n7. reflexivity. Qed.
Lemma n9_run : n9 = chain_run ex_chain (genesis []) n9_txs.
Proof. unfold n9. reflexivity. Qed.
Lemma n11_run : n11 = chain_run ex_chain (genesis []) n11_txs.
Proof. unfold n11. reflexivity. Qed.

(** what [network] needs beyond [side_ok] can be read off the logs *)
Lemma ex_enrolled2 a x y wa :
  flat_map route_updates (events_at route (w_log wa)) = [mkRouteSet x (Some peer); mkRouteSet y (Some peer)] ->
  (forall b wb, enrolled (side_at a wa) (side_at b wb)) /\
  (forall r z, In r (flat_map route_updates (events_at route (w_log wa))) -> rs_route r = Some z -> In (rs_domain r) [x; y]).
Proof.
  intros H. unfold enrolled, sd_log. cbn [sd_world sd_route sd_name sd_domain side_at]. rewrite H. split.
  - intros b wb r z [<- | [<- | []]] _ E; cbn [rs_route] in E; apply Some_inj in E; now symmetry.
  - intros r z [<- | [<- | []]] _; cbn [rs_domain In]; auto.
Qed.
Definition three (w7 w9 w11 : world) : list side := [side_at 7 w7; side_at 9 w9; side_at 11 w11].
Lemma three_network w7 w9 w11 b7 l7 b9 l9 b11 l11 d7 q7 r7 d9 q9 r9 d11 q11 r11 :
  om_sorted b7 -> w7 = chain_run ex_chain (genesis b7) l7 ->
  om_sorted b9 -> w9 = chain_run ex_chain (genesis b9) l9 ->
  om_sorted b11 -> w11 = chain_run ex_chain (genesis b11) l11 ->
  seen w7 = (conf_of 7, [mkRouteSet 9 (Some peer); mkRouteSet 11 (Some peer)], true, d7, q7, r7) ->
  seen w9 = (conf_of 9, [mkRouteSet 7 (Some peer); mkRouteSet 11 (Some peer)], true, d9, q9, r9) ->
  seen w11 = (conf_of 11, [mkRouteSet 7 (Some peer); mkRouteSet 9 (Some peer)], true, d11, q11, r11) ->
  map (fun q => (honest_lists 7 d7 q, honest_lists 9 d9 q, honest_lists 11 d11 q)) [q7; q9; q11]
  = [(true, true, true); (true, true, true); (true, true, true)] ->
  network (three w7 w9 w11).
Proof.
  intros S7 R7 S9 R9 S11 R11 E7 E9 E11 H. cbn [map] in H.
  apply seen_parts in E7 as (C7 & U7 & P7 & <- & <- & _). apply seen_parts in E9 as (C9 & U9 & P9 & <- & <- & _).
  apply seen_parts in E11 as (C11 & U11 & P11 & <- & <- & _).
  pose proof (ex_side 7 w7 b7 l7 S7 R7 C7) as K7. pose proof (ex_side 9 w9 b9 l9 S9 R9 C9) as K9.
  pose proof (ex_side 11 w11 b11 l11 S11 R11 C11) as K11.
  destruct (ex_enrolled2 7 _ _ _ U7) as [E7 O7]. destruct (ex_enrolled2 9 _ _ _ U9) as [E9 O9].
  destruct (ex_enrolled2 11 _ _ _ U11) as [E11 O11].
  injection H as H1 H2 H3 H4 H5 H6 H7 H8 H9. unfold three. split; [| split; [| split]].
  - intros S [<- | [<- | [<- | []]]]; (split; [assumption |]); apply ex_proper; assumption.
  - cbn [map sd_domain side_at]. repeat constructor; cbn; lia.
  - intros S T [<- | [<- | [<- | []]]] [<- | [<- | [<- | []]]]; (split; [auto |]); apply ex_honest; assumption.
  - intros S r x [<- | [<- | [<- | []]]] Hin Hr; cbn [map sd_domain side_at]; unfold sd_log in Hin; cbn [sd_route sd_world side_at] in Hin;
      [specialize (O7 r x Hin Hr) | specialize (O9 r x Hin Hr) | specialize (O11 r x Hin Hr)]; cbn [In] in *; tauto.
Qed.
Lemma n7_seen : seen n7 =
  (conf_of 7, [mkRouteSet 9 (Some peer); mkRouteSet 11 (Some peer)], true,
   map msg_encode [mail 0 7 9 to_alice 10; mail 1 7 11 to_alice 20; mail 2 7 9 to_alice 3],
   map msg_encode [mail 1 11 7 to_alice 4], Some (15, Some Collateral, Some (s "uosmo"))).
Proof. vm_compute. reflexivity. Qed.
Lemma n9_seen : seen n9 =
  (conf_of 9, [mkRouteSet 7 (Some peer); mkRouteSet 11 (Some peer)], true,
   map msg_encode [mail 0 9 11 to_alice 6], map msg_encode [mail 0 7 9 to_alice 10],
   Some (15, Some Bridged, Some wosmo)).
Proof. vm_compute. reflexivity. Qed.
Lemma n11_seen : seen n11 =
  (conf_of 11, [mkRouteSet 7 (Some peer); mkRouteSet 9 (Some peer)], true,
   map msg_encode [mail 0 11 9 to_alice 1; mail 1 11 7 to_alice 4; mail 2 11 7 to_alice 5],
   map msg_encode [mail 1 7 11 to_alice 20; mail 0 9 11 to_alice 6], Some (15, Some Bridged, Some wosmo)).
Proof. vm_compute. reflexivity. Qed.
Lemma three_ok : network (three n7 n9 n11).
Proof.
  apply (three_network n7 n9 n11 here_bank n7_txs [] n9_txs [] n11_txs _ _ _ _ _ _ _ _ _
    here_bank_sorted n7_run I n9_run I n11_run n7_seen n9_seen n11_seen). vm_compute. reflexivity.
Qed.

Lemma locks_here d w bank l : om_sorted bank -> w = chain_run ex_chain (genesis bank) l ->
  read_at w route (fun st => (kind st, reported_mode st, reported_token st)) = Some (15, Some Collateral, Some (s "uosmo")) ->
  custody (side_at d w) (balance w route (s "uosmo")) (bal bank route (s "uosmo") + gifts route (s "uosmo") (w_log w)).
Proof.
  intros Hs Hw H. apply read_at_some in H as (st & Hc & H).
  apply pair_equal_spec in H as [H Ht]. apply pair_equal_spec in H as [Hk Hm].
  exact (ex_custody_native d w bank l st _ Hs Hw Hc Hk Hm Ht).
Qed.
Lemma issues_here d w bank l : om_sorted bank -> w = chain_run ex_chain (genesis bank) l ->
  read_at w route (fun st => (kind st, reported_mode st, reported_token st)) = Some (15, Some Bridged, Some wosmo) ->
  issued (side_at d w) (supply w wosmo) (supply_of wosmo bank).
Proof.
  intros Hs Hw H. apply read_at_some in H as (st & Hc & H).
  apply pair_equal_spec in H as [H Ht]. apply pair_equal_spec in H as [Hk Hm].
  exact (ex_issued_native d w bank l st _ Hs Hw Hc Hk Hm Ht).
Qed.
Lemma n7_custody : custody (side_at 7 n7) (balance n7 route (s "uosmo"))
  (bal here_bank route (s "uosmo") + gifts route (s "uosmo") (w_log n7)).
Proof. apply (locks_here 7 n7 here_bank n7_txs here_bank_sorted n7_run). exact (proj2 (proj2 (proj2 (proj2 (proj2 (seen_parts _ _ _ _ _ _ _ n7_seen)))))). Qed.
Lemma n9_issued : issued (side_at 9 n9) (supply n9 wosmo) 0.
Proof. apply (issues_here 9 n9 [] n9_txs I n9_run). exact (proj2 (proj2 (proj2 (proj2 (proj2 (seen_parts _ _ _ _ _ _ _ n9_seen)))))). Qed.
Lemma n11_issued : issued (side_at 11 n11) (supply n11 wosmo) 0.
Proof. apply (issues_here 11 n11 [] n11_txs I n11_run). exact (proj2 (proj2 (proj2 (proj2 (proj2 (seen_parts _ _ _ _ _ _ _ n11_seen)))))). Qed.
Lemma n7_vault : sole_vault (three n7 n9 n11) (side_at 7 n7).
Proof.
  intros S [<- | [<- | [<- | []]]] H; [destruct (H eq_refl) | |]; eexists; [exact n9_issued | exact n11_issued].
Qed.

(** 29 held = 4 and 16 issued, 3 + 1 + 5 on their way; the 5 come to the vault *)
Definition paid_check (w : world) : Prop :=
  match tx_run ex_chain 4 (TExec relayer (at_ 0) (MProcess [] (msg_encode (mail 2 11 7 to_alice 5))) []) w with
  | Ok w' => (balance w alice (s "uosmo"), balance w' alice (s "uosmo")) = (71, 76)
  | _ => False
  end.
Lemma three_numbers :
  ((balance n7 route (s "uosmo"), bal here_bank route (s "uosmo") + gifts route (s "uosmo") (w_log n7),
    supply n9 wosmo, supply n11 wosmo),
   (in_flight (side_at 7 n7) (side_at 9 n9), in_flight (side_at 11 n11) (side_at 9 n9), in_flight (side_at 11 n11) (side_at 7 n7)),
   (all_in_flight (three n7 n9 n11), coming_to (side_at 7 n7) (three n7 n9 n11))) = ((29, 0, 4, 16), (3, 1, 5), (9, 5)).
Proof. vm_compute. reflexivity. Qed.
Example C86_example :
  network (three n7 n9 n11) /\ custody (side_at 7 n7) (balance n7 route (s "uosmo"))
    (bal here_bank route (s "uosmo") + gifts route (s "uosmo") (w_log n7)) /\
  issued (side_at 9 n9) (supply n9 wosmo) 0 /\ issued (side_at 11 n11) (supply n11 wosmo) 0 /\
  sole_vault (three n7 n9 n11) (side_at 7 n7) /\
  (balance n7 route (s "uosmo"), bal here_bank route (s "uosmo") + gifts route (s "uosmo") (w_log n7),
   supply n9 wosmo, supply n11 wosmo) = (29, 0, 4, 16) /\
  (in_flight (side_at 7 n7) (side_at 9 n9), in_flight (side_at 11 n11) (side_at 9 n9), in_flight (side_at 11 n11) (side_at 7 n7))
  = (3, 1, 5) /\
  (all_in_flight (three n7 n9 n11), coming_to (side_at 7 n7) (three n7 n9 n11)) = (9, 5) /\
  paid_check n7.
Proof.
  split; [exact three_ok |]. split; [exact n7_custody |]. split; [exact n9_issued |]. split; [exact n11_issued |].
  split; [exact n7_vault |]. pose proof three_numbers as H.
  apply pair_equal_spec in H as [H H3]. apply pair_equal_spec in H as [H1 H2]. split; [exact H1 |]. split; [exact H2 |].
  split; [exact H3 |]. vm_compute. reflexivity.
Qed.

(** ** Two vaults: what travels may find nothing to be paid from *)
(** 10 are locked on 7, issued on 9 and sent on to 11, which locks the same kind of
    coin but was never given any: the message is vouched for and undelivered, the
    network holds 10 for it, and it cannot be delivered *)
Definition v7_txs : list (nat * tx) := setup3 7 9 11 locks ++ both [go 9 to_alice 10 (uosmo 10)].
Definition v9_txs : list (nat * tx) :=
  setup3 9 7 11 issues ++ both [come (mail 0 7 9 to_alice 10); go 11 to_alice 10 (woken 10)].
Definition v11_txs : list (nat * tx) := setup3 11 7 9 locks.
Definition v7 : world := chain_run ex_chain (genesis here_bank) v7_txs.
Definition v9 : world := chain_run ex_chain (genesis []) v9_txs.
Definition v11 : world := chain_run ex_chain (genesis []) v11_txs.
Lemma v7_run : v7 = chain_run ex_chain (genesis here_bank) v7_txs.
Proof. unfold v7. reflexivity. Qed.
Lemma v9_run : v9 = chain_run ex_chain (genesis []) v9_txs.
Proof. unfold v9. reflexivity. Qed.
Lemma v11_run : v11 = chain_run ex_chain (genesis []) v11_txs.
Proof. unfold v11. reflexivity. Qed.
Lemma v7_seen : seen v7 =
  (conf_of 7, [mkRouteSet 9 (Some peer); mkRouteSet 11 (Some peer)], true,
   map msg_encode [mail 0 7 9 to_alice 10], [], Some (15, Some Collateral, Some (s "uosmo"))).
Proof. vm_compute. reflexivity. Qed.
Lemma v9_seen : seen v9 =
  (conf_of 9, [mkRouteSet 7 (Some peer); mkRouteSet 11 (Some peer)], true,
   map msg_encode [mail 0 9 11 to_alice 10], map msg_encode [mail 0 7 9 to_alice 10],
   Some (15, Some Bridged, Some wosmo)).
Proof. vm_compute. reflexivity. Qed.
Lemma v11_seen : seen v11 =
  (conf_of 11, [mkRouteSet 7 (Some peer); mkRouteSet 9 (Some peer)], true, [], [],
   Some (15, Some Collateral, Some (s "uosmo"))).
Proof. vm_compute. reflexivity. Qed.
Lemma vaults_ok : network (three v7 v9 v11).
Proof.
  apply (three_network v7 v9 v11 here_bank v7_txs [] v9_txs [] v11_txs _ _ _ _ _ _ _ _ _
    here_bank_sorted v7_run I v9_run I v11_run v7_seen v9_seen v11_seen). vm_compute. reflexivity.
Qed.
Definition refused (C : chain) (k : nat) (t : tx) (w : world) : bool :=
  match tx_run C k t w with Ok _ => false | _ => true end.
Definition stuck_mail : bytes := msg_encode (mail 0 9 11 to_alice 10).

Theorem C86_two_vaults_refuted : exists Ss S T held held' out raw mbst st recipient m,
  network Ss /\ In S Ss /\ In T Ss /\ custody T held 0 /\ books Ss (held + held') 0 out 0 /\
  In raw (travelling S T) /\ msg_decode raw = Ok m /\ message_amount raw = held' /\ held' <> 0 /\
  contract_at (sd_world T) (sd_mailbox T) mbst /\ reported_delivered mbst (keccak256_hash raw) = Some false /\
  contract_at (sd_world T) (sd_route T) st /\
  reported_route st (sd_domain S) = Some (Some (sd_name S)) /\
  bech32_encode (warp_hrp st) (firstn 32 (m_body m)) = Ok recipient /\
  api_valid (ch_api (sd_chain T)) recipient = true /\
  (exists x, consulted st mbst x /\
     answers (ch_api (sd_chain T)) (contract_at (sd_world T)) (others_answer (sd_chain T) (sd_world T) (sd_mailbox T))
       1 x [] raw true) /\
  ch_account (sd_chain T) relayer = true /\
  refused (sd_chain T) 40 (TExec relayer (sd_mailbox T) (MProcess [] raw) []) (sd_world T) = true.
Proof.
  destruct (read_at_some v11 (at_ 0) (fun st => (reported_default_ism st, reported_delivered st (keccak256_hash stuck_mail)))
    (Some (at_ 3), Some false)) as (s0 & C0 & H0); [vm_compute; reflexivity |].
  destruct (read_at_some v11 route (fun st => (reported_conn st QConnIsm, reported_route st 9, warp_hrp st))
    (Some None, Some (Some peer), s "osmo")) as (s4 & C4 & H4); [vm_compute; reflexivity |].
  destruct (read_at_some v11 (at_ 3) (fun st => (kind st, reported_paused st)) (5, Some false))
    as (s3 & C3 & H3); [vm_compute; reflexivity |].
  apply pair_equal_spec in H0 as [H0 D0].
  apply pair_equal_spec in H4 as [H4 P4]. apply pair_equal_spec in H4 as [I4 R4]. apply pair_equal_spec in H3 as [K3 H3].
  pose proof (locks_here 7 v7 here_bank v7_txs here_bank_sorted v7_run) as X7.
  pose proof (issues_here 9 v9 [] v9_txs I v9_run) as X9.
  pose proof (locks_here 11 v11 [] v11_txs I v11_run) as X11.
  assert (E7 : (balance v7 route (s "uosmo"), bal here_bank route (s "uosmo") + gifts route (s "uosmo") (w_log v7)) = (10, 0)) by (vm_compute; reflexivity).
  assert (E9 : (supply v9 wosmo, supply_of wosmo []) = (0, 0)) by (vm_compute; reflexivity).
  assert (E11 : (balance v11 route (s "uosmo"), bal [] route (s "uosmo") + gifts route (s "uosmo") (w_log v11)) = (0, 0)) by (vm_compute; reflexivity).
  apply pair_equal_spec in E7 as [E7 E7']. apply pair_equal_spec in E9 as [E9 E9']. apply pair_equal_spec in E11 as [E11 E11'].
  rewrite E7, E7' in X7. rewrite E9, E9' in X9. rewrite E11, E11' in X11.
  specialize (X7 (proj2 (proj2 (proj2 (proj2 (proj2 (seen_parts _ _ _ _ _ _ _ v7_seen))))))). specialize (X9 (proj2 (proj2 (proj2 (proj2 (proj2 (seen_parts _ _ _ _ _ _ _ v9_seen))))))). specialize (X11 (proj2 (proj2 (proj2 (proj2 (proj2 (seen_parts _ _ _ _ _ _ _ v11_seen))))))).
  exists (three v7 v9 v11), (side_at 9 v9), (side_at 11 v11), 0, 10, 0, stuck_mail, s0, s4, alice, (mail 0 9 11 to_alice 10).
  split; [exact vaults_ok |]. split; [right; left; reflexivity |]. split; [right; right; left; reflexivity |].
  split; [exact X11 |].
  split. { exact (books_locks _ _ 10 0 _ _ _ _ X7 (books_issues _ _ 0 0 _ _ _ _ X9 (books_locks _ _ 0 0 _ _ _ _ X11 books_nil))). }
  split. { apply (nth_error_In _ 0). vm_compute. reflexivity. }
  split; [vm_compute; reflexivity |]. split; [vm_compute; reflexivity |]. split; [discriminate |].
  split; [exact C0 |]. split; [exact D0 |]. split; [exact C4 |]. split; [exact R4 |].
  split; [rewrite P4; vm_compute; reflexivity |]. split; [vm_compute; reflexivity |].
  split.
  { exists (at_ 3). split; [exists None, (at_ 3); auto |].
    apply (answers_pausable _ _ _ 0 (at_ 3) s3); [exact C3 | destruct s3; try discriminate K3; exact I | exact H3]. }
  split; vm_compute; reflexivity.
Qed.
Print Assumptions C86_two_vaults_refuted.
