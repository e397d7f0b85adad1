(** * Two connected warp routes (C47). *)
From Coq Require Import List NArith Bool Lia.
From Verif Require Import Base BaseFacts OMap Coins Crypto Message Bech32 CodecSummary Chain Ownable Router
  Contracts Spec SpecModules Mailbox Va Isms Hooks Igp Warp Cw20 StepFacts MailboxConfFacts World SpecWorld WorldFacts
  SpecBridge WorldWarp WorldToken WorldRoute PropsAccess PropsWorld.
Import ListNotations.

(** ** C47 *)
(** The claim: what one side took equals what the other gave out plus what is in
    flight.  Whatever recipients users name, it holds of the amounts the payloads
    name ... *)
Theorem C47_messages S T :
  side_ok S -> side_ok T -> enrolled S T -> enrolled T S -> honest S T ->
  promised_to (sd_route S) (sd_domain T) (sd_log S)
  = received_from (sd_route T) (sd_domain S) (sd_log T) + in_flight S T.
Proof. exact (bridge_messages S T). Qed.
Print Assumptions C47_messages.

(** ... and of the amounts taken when every recipient named is 32 bytes long.
    Missing from the full claim: [proper_recipients] must be assumed, the code
    does not enforce it (C47_refuted below). *)
Theorem C47_in_flight_partial S T :
  side_ok S -> side_ok T -> enrolled S T -> enrolled T S -> honest S T -> proper_recipients S ->
  sent_to (sd_route S) (sd_domain T) (sd_log S)
  = received_from (sd_route T) (sd_domain S) (sd_log T) + in_flight S T.
Proof. exact (bridge_amounts S T). Qed.
Print Assumptions C47_in_flight_partial.

(** the amounts are tokens: what a collateral route holds, and what exists of a
    bridged route's token, for every history of one chain *)
Theorem C47_custody S held base :
  chain_ok (sd_chain S) -> reachable (sd_chain S) (sd_world S) -> custody S held base ->
  held + received_all (sd_route S) (sd_log S) = base + sent_all (sd_route S) (sd_log S).
Proof. exact (custody_law S held base). Qed.
Print Assumptions C47_custody.

Theorem C47_issued S out base :
  chain_ok (sd_chain S) -> reachable (sd_chain S) (sd_world S) -> issued S out base ->
  out + sent_all (sd_route S) (sd_log S) = base + received_all (sd_route S) (sd_log S).
Proof. exact (issued_law S out base). Qed.
Print Assumptions C47_issued.

(** every route is one or the other (a collateral cw20 route if its token is a
    cw20 token contract) *)
Theorem C47_covers S st :
  side_ok S -> contract_at (sd_world S) (sd_route S) st ->
  (is_warp_cw20 st -> reported_mode st = Some Collateral ->
   exists tk tst, reported_token st = Some tk /\ contract_at (sd_world S) tk tst /\ is_cw20 tst) ->
  (exists held base, custody S held base) \/ (exists out base, issued S out base).
Proof. exact (every_route_covered S st). Qed.
Print Assumptions C47_covers.

(** the whole bridge, for each combination of modes; [linked] includes
    [proper_recipients] *)
Theorem C47_locked_backs_issued_partial S T held base out base' :
  linked S T -> custody S held base -> issued T out base' ->
  held + base' = base + out + in_flight S T + in_flight T S.
Proof. exact (linked_locked_issued S T held base out base'). Qed.
Print Assumptions C47_locked_backs_issued_partial.

Theorem C47_locked_locked_partial S T held base held' base' :
  linked S T -> custody S held base -> custody T held' base' ->
  held + held' = base + base' + in_flight S T + in_flight T S.
Proof. exact (linked_locked_locked S T held base held' base'). Qed.
Print Assumptions C47_locked_locked_partial.

Theorem C47_issued_issued_partial S T out base out' base' :
  linked S T -> issued S out base -> issued T out' base' ->
  out + out' + in_flight S T + in_flight T S = base + base'.
Proof. exact (linked_issued_issued S T out base out' base'). Qed.
Print Assumptions C47_issued_issued_partial.

(** ** Two example chains *)
Definition peer : bytes := be32 4.
Definition route : addr := at_ 4.
Definition to_alice : bytes := zeros 12 ++ repeat x0a 20.
Definition both (l : list tx) : list (nat * tx) := map (fun t => (40%nat, t)) l.
(** 0 mailbox, 1 merkle hook, 2 pausable hook, 3 security module, 4 the route *)
Definition setup (here there : N) (m : imsg) : list (nat * tx) :=
  both [TDeploy alice (IMailbox (s "osmo") alice here) [];
        TDeploy alice (IMerkle (at_ 0)) [];
        TDeploy alice (IPausableHook alice false) [];
        TDeploy alice (IPausableIsm alice false) [];
        TDeploy alice m [];
        TExec alice (at_ 0) (MSetRequiredHook (at_ 1)) [];
        TExec alice (at_ 0) (MSetDefaultHook (at_ 2)) [];
        TExec alice (at_ 0) (MSetDefaultIsm (at_ 3)) [];
        TExec alice route (MRouter (SetRoute (mkRouteSet there (Some peer)))) []].
Definition go (d : N) (rcp : bytes) (n : N) (f : list coin) : tx := TExec alice route (MTransferRemote d rcp n None None) f.
Definition come (m : message) : tx := TExec relayer (at_ 0) (MProcess [] (msg_encode m)) [].
(** the [k]-th message of the chain with domain [here] *)
Definition mail (k here there : N) (rcp : bytes) (n : N) : message :=
  mkMessage 3 k here peer there peer (rcp ++ be 32 n).

Definition side_at (d : N) (w : world) : side := mkSide ex_chain w d (at_ 0) route peer.

(** the route's address is the only one with its 32 bytes *)
Lemma not_peer c : match bech32_to_h256 c with Ok x => bytes_eqb x peer | _ => false end = false ->
  bech32_to_h256 c = Ok peer -> False.
Proof. intros H E. rewrite E, bytes_eqb_refl in H. discriminate H. Qed.
Lemma alice_not_peer : match bech32_to_h256 alice with Ok x => bytes_eqb x peer | _ => false end = false.
Proof. vm_compute. reflexivity. Qed.
Lemma relayer_not_peer : match bech32_to_h256 relayer with Ok x => bytes_eqb x peer | _ => false end = false.
Proof. vm_compute. reflexivity. Qed.
Lemma route_text : bech32_encode (s "osmo") peer = Ok route.
Proof. vm_compute. reflexivity. Qed.
Lemma enc_unique n : bech32_to_h256 (enc (be32 n)) = Ok peer -> enc (be32 n) = route.
Proof.
  intros E. destruct (bech32_roundtrip (s "osmo") (be32 n)) as (e & H1 & _ & H2);
    [cbn; lia | reflexivity | left; apply be_length |].
  assert (X : enc (be32 n) = e) by (unfold enc; now rewrite H1).
  rewrite X in *. rewrite H2 in E. apply Ok_inj in E.
  assert (L : length (be32 n) = 32%nat) by apply be_length. rewrite L, PeanoNat.Nat.sub_diag in E.
  assert (Z : forall x : bytes, zeros 0 ++ x = x) by reflexivity. rewrite Z in E.
  pose proof route_text as R. rewrite <- E, H1 in R. apply Ok_inj in R. exact R.
Qed.
Lemma nothing_not_peer : match bech32_to_h256 [] with Ok x => bytes_eqb x peer | _ => false end = false.
Proof. vm_compute. reflexivity. Qed.
Lemma at_unique n : bech32_to_h256 (at_ n) = Ok peer -> at_ n = route.
Proof.
  unfold at_ at 1 2. destruct (ex_account (enc (be32 n))); [| exact (enc_unique n)].
  intros E. destruct (not_peer [] nothing_not_peer E).
Qed.
Lemma ex_addr n : ch_addr ex_chain n = at_ n.
Proof. unfold ex_chain. cbn [ch_addr]. exact (eq_refl _). Qed.
Lemma ex_unique c : is_address ex_chain c -> bech32_to_h256 c = Ok peer -> c = route.
Proof.
  intros [H | [n ->]] E.
  - change (ex_account c = true) in H. unfold ex_account in H. apply orb_true_iff in H as [H | H];
      apply bytes_eqb_eq in H; rewrite H in E.
    + destruct (not_peer alice alice_not_peer E).
    + destruct (not_peer relayer relayer_not_peer E).
  - rewrite ex_addr in *. exact (at_unique n E).
Qed.

Definition conf_at (w : world) := (read_at w (at_ 0) (fun st => (kind st, reported_domain st, reported_hrp st)),
                                   read_at w route (fun st => warp_mailbox st)).
Lemma ex_side d w bank l : om_sorted bank -> w = chain_run ex_chain (genesis bank) l ->
  conf_at w = (Some (0, Some d, Some (s "osmo")), Some (Some (at_ 0))) -> side_ok (side_at d w).
Proof.
  intros Hs Hw H. apply pair_equal_spec in H as [H1 H2].
  split; [exact ex_chain_ok |]. split; [exists bank, l; auto |]. cbn [sd_chain sd_world sd_domain sd_mailbox sd_route sd_name side_at].
  split; [| split; [| split]].
  - apply read_at_some in H1 as (st & Hc & H1). apply pair_equal_spec in H1 as [H1 H3]. apply pair_equal_spec in H1 as [H1 H1'].
    exists st, (s "osmo"). split; [exact Hc |]. split; [exact H1 |].
    split; [exact H1' |]. split; [exact H3 |]. vm_compute. reflexivity.
  - apply read_at_some in H2 as (st & Hc & H2). exists st. split; [exact Hc |].
    split; [destruct st; try discriminate H2; exact I | exact H2].
  - vm_compute. reflexivity.
  - exact ex_unique.
Qed.

Lemma ex_custody_native d w bank l st tk :
  om_sorted bank -> w = chain_run ex_chain (genesis bank) l -> contract_at w route st ->
  kind st = 15 -> reported_mode st = Some Collateral -> reported_token st = Some tk ->
  custody (side_at d w) (balance w route tk) (bal bank route tk + gifts route tk (w_log w)).
Proof.
  intros Hs Hw Hc Hk Hm Ht. apply (custody_native (side_at d w) bank l st); auto.
  destruct st; try discriminate Hk; exact I.
Qed.
Lemma ex_issued_native d w bank l st tk :
  om_sorted bank -> w = chain_run ex_chain (genesis bank) l -> contract_at w route st ->
  kind st = 15 -> reported_mode st = Some Bridged -> reported_token st = Some tk ->
  issued (side_at d w) (supply w tk) (supply_of tk bank).
Proof.
  intros Hs Hw Hc Hk Hm Ht. apply (issued_native (side_at d w) bank l st); auto.
  destruct st; try discriminate Hk; exact I.
Qed.

(** everything else [linked] needs can be read off the logs *)
Lemma ex_enrolled a b wa wb :
  flat_map route_updates (events_at route (w_log wa)) = [mkRouteSet b (Some peer)] ->
  enrolled (side_at a wa) (side_at b wb) /\ only_peer (side_at a wa) (side_at b wb).
Proof.
  intros H. unfold enrolled, only_peer, sd_log. cbn [sd_world sd_route sd_name sd_domain side_at]. rewrite H.
  split; intros r x [<- | []]; cbn [rs_route rs_domain].
  - intros _ E. apply Some_inj in E. now symmetry.
  - reflexivity.
Qed.
Lemma ex_honest a b wa wb :
  forallb (fun raw => match msg_decode raw with
                      | Ok m => (negb (m_origin m =? a) || existsb (bytes_eqb raw) (dispatched_at (at_ 0) (w_log wa)))%bool
                      | _ => true end) (processed_at (at_ 0) (w_log wb)) = true ->
  honest (side_at a wa) (side_at b wb).
Proof.
  intros H raw m Hin Hd Ho _. unfold sd_log in *. cbn [sd_world sd_mailbox sd_domain side_at] in *.
  rewrite forallb_forall in H. specialize (H raw Hin). rewrite Hd, Ho, N.eqb_refl in H. cbn [negb orb] in H.
  now apply existsb_bytes in H.
Qed.
Lemma ex_proper a w :
  forallb (fun t : N * bytes * N => Nat.eqb (length (snd (fst t))) 32) (transfers_at route (w_log w)) = true ->
  proper_recipients (side_at a w).
Proof.
  intros H d rcp n Hin. unfold sd_log in *. cbn [sd_world sd_route side_at] in *. rewrite forallb_forall in H.
  apply PeanoNat.Nat.eqb_eq. exact (H _ Hin).
Qed.

(** so all of it is read off each world at once *)
Definition proper_log (w : world) : bool :=
  forallb (fun t : N * bytes * N => Nat.eqb (length (snd (fst t))) 32) (transfers_at route (w_log w)).
Definition honest_lists (a : N) (sent got : list bytes) : bool :=
  forallb (fun raw => match msg_decode raw with
                      | Ok m => (negb (m_origin m =? a) || existsb (bytes_eqb raw) sent)%bool
                      | _ => true end) got.
Definition seen (w : world) :=
  (conf_at w, flat_map route_updates (events_at route (w_log w)), proper_log w,
   dispatched_at (at_ 0) (w_log w), processed_at (at_ 0) (w_log w),
   read_at w route (fun st => (kind st, reported_mode st, reported_token st))).
Lemma seen_parts w c u p d q r : seen w = (c, u, p, d, q, r) ->
  conf_at w = c /\ flat_map route_updates (events_at route (w_log w)) = u /\ proper_log w = p /\
  dispatched_at (at_ 0) (w_log w) = d /\ processed_at (at_ 0) (w_log w) = q /\
  read_at w route (fun st => (kind st, reported_mode st, reported_token st)) = r.
Proof.
  unfold seen. intros H. apply pair_equal_spec in H as [H R]. apply pair_equal_spec in H as [H Q].
  apply pair_equal_spec in H as [H D]. apply pair_equal_spec in H as [H P]. apply pair_equal_spec in H as [C U]. auto 10.
Qed.
Definition conf_of (d : N) := (Some (0, Some d, Some (s "osmo")), Some (Some (at_ 0))).
Lemma seen_linked a wa ba la b wb bb lb p p' da qa db qb ra rb :
  om_sorted ba -> wa = chain_run ex_chain (genesis ba) la -> om_sorted bb -> wb = chain_run ex_chain (genesis bb) lb ->
  seen wa = (conf_of a, [mkRouteSet b (Some peer)], p, da, qa, ra) ->
  seen wb = (conf_of b, [mkRouteSet a (Some peer)], p', db, qb, rb) ->
  (honest_lists a da qb, honest_lists b db qa) = (true, true) ->
  side_ok (side_at a wa) /\ side_ok (side_at b wb) /\
  enrolled (side_at a wa) (side_at b wb) /\ enrolled (side_at b wb) (side_at a wa) /\
  only_peer (side_at a wa) (side_at b wb) /\ only_peer (side_at b wb) (side_at a wa) /\
  honest (side_at a wa) (side_at b wb) /\ honest (side_at b wb) (side_at a wa) /\
  (p = true -> proper_recipients (side_at a wa)) /\ (p' = true -> proper_recipients (side_at b wb)).
Proof.
  intros Sa Ra Sb Rb Ha Hb Hh. apply seen_parts in Ha as (C1 & U1 & P1 & D1 & Q1 & _).
  apply seen_parts in Hb as (C2 & U2 & P2 & D2 & Q2 & _). apply pair_equal_spec in Hh as [H1 H2].
  destruct (ex_enrolled a b wa wb U1) as [E1 O1]. destruct (ex_enrolled b a wb wa U2) as [E2 O2].
  split; [exact (ex_side a wa ba la Sa Ra C1) |]. split; [exact (ex_side b wb bb lb Sb Rb C2) |].
  split; [exact E1 |]. split; [exact E2 |]. split; [exact O1 |]. split; [exact O2 |].
  split; [apply ex_honest; rewrite D1, Q2; exact H1 |]. split; [apply ex_honest; rewrite D2, Q1; exact H2 |].
  split; intros X; apply ex_proper; [rewrite <- X, <- P1 | rewrite <- X, <- P2]; reflexivity.
Qed.

(** *** A native coin locked here, issued there *)
Definition wosmo : str := factory_denom route (s "wosmo").
Definition here_bank : omap (addr * str) N := om_set (alice, s "uosmo") 100 [].
Lemma here_bank_sorted : om_sorted here_bank.
Proof. unfold here_bank. apply om_sorted_set. exact I. Qed.
(** alice sends 10 and 5; the 10 arrive; alice sends 4 and 2 back; the 4 arrive;
    a passer-by's gift of 1 stays with the route *)
Definition here_txs : list (nat * tx) :=
  setup 7 9 (IWarpNative (NtCollateral (s "uosmo")) (s "osmo") alice (at_ 0)) ++
  both [go 9 to_alice 10 [mkCoin (s "uosmo") 10]; go 9 to_alice 5 [mkCoin (s "uosmo") 5];
        come (mail 0 9 7 to_alice 4); TSend alice route [mkCoin (s "uosmo") 1]].
Definition here : world := chain_run ex_chain (genesis here_bank) here_txs.
Lemma here_run : here = chain_run ex_chain (genesis here_bank) here_txs.
Proof. unfold here. reflexivity. Qed.
Definition there_txs : list (nat * tx) :=
  setup 9 7 (IWarpNative (NtBridged (s "wosmo") None) (s "osmo") alice (at_ 0)) ++
  both [come (mail 0 7 9 to_alice 10); go 7 to_alice 4 [mkCoin wosmo 4]; go 7 to_alice 2 [mkCoin wosmo 2]].
Definition there : world := chain_run ex_chain (genesis []) there_txs.

Lemma there_run : there = chain_run ex_chain (genesis []) there_txs.
Proof. unfold there. reflexivity. Qed.

Lemma here_seen : seen here =
  (conf_of 7, [mkRouteSet 9 (Some peer)], true,
   map msg_encode [mail 0 7 9 to_alice 10; mail 1 7 9 to_alice 5], map msg_encode [mail 0 9 7 to_alice 4],
   Some (15, Some Collateral, Some (s "uosmo"))).
Proof. vm_compute. reflexivity. Qed.
Lemma there_seen : seen there =
  (conf_of 9, [mkRouteSet 7 (Some peer)], true,
   map msg_encode [mail 0 9 7 to_alice 4; mail 1 9 7 to_alice 2], map msg_encode [mail 0 7 9 to_alice 10],
   Some (15, Some Bridged, Some wosmo)).
Proof. vm_compute. reflexivity. Qed.
Lemma ex_linked : linked (side_at 7 here) (side_at 9 there).
Proof.
  destruct (seen_linked 7 here here_bank here_txs 9 there [] there_txs _ _ _ _ _ _ _ _
    here_bank_sorted here_run I there_run here_seen there_seen)
    as (K1 & K2 & E1 & E2 & O1 & O2 & H1 & H2 & P1 & P2); [vm_compute; reflexivity |].
  split; [exact K1 |]. split; [exact K2 |]. split; [exact E1 |]. split; [exact E2 |]. split; [exact O1 |]. split; [exact O2 |].
  split; [exact H1 |]. split; [exact H2 |]. split; [exact (P1 eq_refl) | exact (P2 eq_refl)].
Qed.
Lemma ex_custody : custody (side_at 7 here) (balance here route (s "uosmo"))
  (bal here_bank route (s "uosmo") + gifts route (s "uosmo") (w_log here)).
Proof.
  pose proof here_seen as H. apply seen_parts in H as (_ & _ & _ & _ & _ & H). apply read_at_some in H as (st & Hc & H).
  apply pair_equal_spec in H as [H Ht]. apply pair_equal_spec in H as [Hk Hm].
  exact (ex_custody_native 7 here here_bank here_txs st _ here_bank_sorted here_run Hc Hk Hm Ht).
Qed.
Lemma ex_issued : issued (side_at 9 there) (supply there wosmo) (supply_of wosmo []).
Proof.
  pose proof there_seen as H. apply seen_parts in H as (_ & _ & _ & _ & _ & H). apply read_at_some in H as (st & Hc & H).
  apply pair_equal_spec in H as [H Ht]. apply pair_equal_spec in H as [Hk Hm].
  exact (ex_issued_native 9 there [] there_txs st _ I there_run Hc Hk Hm Ht).
Qed.
Lemma here_there_numbers :
  ((balance here route (s "uosmo"), gifts route (s "uosmo") (w_log here), supply there wosmo),
   (in_flight (side_at 7 here) (side_at 9 there), in_flight (side_at 9 there) (side_at 7 here)),
   balance there alice wosmo) = ((12, 1, 4), (5, 2), 4).
Proof. vm_compute. reflexivity. Qed.
Example C47_example :
  linked (side_at 7 here) (side_at 9 there) /\
  (balance here route (s "uosmo"), gifts route (s "uosmo") (w_log here), supply there wosmo) = (12, 1, 4) /\
  (in_flight (side_at 7 here) (side_at 9 there), in_flight (side_at 9 there) (side_at 7 here)) = (5, 2) /\
  balance there alice wosmo = 4.
Proof.
  split; [exact ex_linked |]. pose proof here_there_numbers as H. apply pair_equal_spec in H as [H H3].
  apply pair_equal_spec in H as [H1 H2]. auto.
Qed.

(** *** The same with cw20 tokens *)
(** the token of the collateral route is contract 5 there; alice has 50 of it,
    lets the route take 20 and sends 8 and 6; the bridged route's token is
    contract 5 as well; alice burns 1 and sends 2 back *)
Definition token : addr := at_ 5.
Definition cw_here_txs : list (nat * tx) :=
  setup 7 9 (IWarpCw20 (CtCollateral token) (s "osmo") alice (at_ 0)) ++
  both [TDeploy alice (ICw20 None [(alice, 50)]) [];
        TExec alice token (MCw20IncreaseAllowance route 20) [];
        go 9 to_alice 8 []; go 9 to_alice 6 []; go 9 to_alice 7 [];
        come (mail 0 9 7 to_alice 2); TExec alice token (MCw20Transfer route 3) []].
Definition cw_here : world := chain_run ex_chain (genesis []) cw_here_txs.
Lemma cw_here_run : cw_here = chain_run ex_chain (genesis []) cw_here_txs.
Proof. unfold cw_here. reflexivity. Qed.
Definition cw_there_txs : list (nat * tx) :=
  setup 9 7 (IWarpCw20 (CtBridged []) (s "osmo") alice (at_ 0)) ++
  both [come (mail 0 7 9 to_alice 8); TExec alice token (MCw20Burn 1) [];
        TExec alice token (MCw20IncreaseAllowance route 9) []; go 7 to_alice 2 []; go 7 to_alice 6 []].
Definition cw_there : world := chain_run ex_chain (genesis []) cw_there_txs.
Lemma cw_there_run : cw_there = chain_run ex_chain (genesis []) cw_there_txs.
Proof. unfold cw_there. reflexivity. Qed.

Lemma cw_here_seen : seen cw_here =
  (conf_of 7, [mkRouteSet 9 (Some peer)], true,
   map msg_encode [mail 0 7 9 to_alice 8; mail 1 7 9 to_alice 6], map msg_encode [mail 0 9 7 to_alice 2],
   Some (16, Some Collateral, Some token)).
Proof. vm_compute. reflexivity. Qed.
Lemma cw_there_seen : seen cw_there =
  (conf_of 9, [mkRouteSet 7 (Some peer)], true,
   map msg_encode [mail 0 9 7 to_alice 2], map msg_encode [mail 0 7 9 to_alice 8],
   Some (16, Some Bridged, Some token)).
Proof. vm_compute. reflexivity. Qed.
Lemma ex_cw_linked : linked (side_at 7 cw_here) (side_at 9 cw_there).
Proof.
  destruct (seen_linked 7 cw_here [] cw_here_txs 9 cw_there [] cw_there_txs _ _ _ _ _ _ _ _
    I cw_here_run I cw_there_run cw_here_seen cw_there_seen)
    as (K1 & K2 & E1 & E2 & O1 & O2 & H1 & H2 & P1 & P2); [vm_compute; reflexivity |].
  split; [exact K1 |]. split; [exact K2 |]. split; [exact E1 |]. split; [exact E2 |]. split; [exact O1 |]. split; [exact O2 |].
  split; [exact H1 |]. split; [exact H2 |]. split; [exact (P1 eq_refl) | exact (P2 eq_refl)].
Qed.
Lemma ex_custody_cw20 d w st tst :
  contract_at w route st -> kind st = 16 -> reported_mode st = Some Collateral -> reported_token st = Some token ->
  contract_at w token tst -> kind tst = 17 ->
  custody (side_at d w) (cw_holding tst route) (cw_start route token (w_log w) + cw_gifts route token (w_log w)).
Proof.
  intros Hc Hk Hm Ht Hc' Hk'. apply (custody_cw20 (side_at d w) st token tst); auto.
  - destruct st; try discriminate Hk; exact I.
  - destruct tst; try discriminate Hk'; exact I.
Qed.
Lemma ex_issued_cw20 d w st tst :
  contract_at w route st -> kind st = 16 -> reported_mode st = Some Bridged -> reported_token st = Some token ->
  contract_at w token tst ->
  issued (side_at d w) (cw_total tst + cw_burns route token (w_log w)) (cw_start_all token (w_log w)).
Proof.
  intros Hc Hk Hm Ht Hc'. apply (issued_cw20 (side_at d w) st token tst); auto.
  destruct st; try discriminate Hk; exact I.
Qed.
Lemma cw_here_numbers :
  (read_at cw_here token (fun st => (kind st, cw_holding st route)),
   cw_start route token (w_log cw_here) + cw_gifts route token (w_log cw_here)) = (Some (17, 15), 3).
Proof. vm_compute. reflexivity. Qed.
Lemma cw_there_numbers :
  (read_at cw_there token cw_total, cw_burns route token (w_log cw_there), cw_start_all token (w_log cw_there))
  = (Some 5, 1, 0).
Proof. vm_compute. reflexivity. Qed.
(** the cases of [custody] and [issued], with their numbers *)
Example C47_cw20_example :
  linked (side_at 7 cw_here) (side_at 9 cw_there) /\
  custody (side_at 7 cw_here) 15 3 /\ issued (side_at 9 cw_there) 6 0 /\
  (in_flight (side_at 7 cw_here) (side_at 9 cw_there), in_flight (side_at 9 cw_there) (side_at 7 cw_here)) = (6, 0).
Proof.
  split; [exact ex_cw_linked |]. split; [| split; [| vm_compute; reflexivity]].
  - pose proof cw_here_seen as H. apply seen_parts in H as (_ & _ & _ & _ & _ & H). apply read_at_some in H as (st & Hc & H).
    apply pair_equal_spec in H as [H Ht]. apply pair_equal_spec in H as [Hk Hm].
    pose proof cw_here_numbers as H'. apply pair_equal_spec in H' as [H' E]. apply read_at_some in H' as (tst & Hc' & H').
    apply pair_equal_spec in H' as [Hk' Hh].
    pose proof (ex_custody_cw20 7 cw_here st tst Hc Hk Hm Ht Hc' Hk') as X. rewrite Hh, E in X. exact X.
  - pose proof cw_there_seen as H. apply seen_parts in H as (_ & _ & _ & _ & _ & H). apply read_at_some in H as (st & Hc & H).
    apply pair_equal_spec in H as [H Ht]. apply pair_equal_spec in H as [Hk Hm].
    pose proof cw_there_numbers as H'. apply pair_equal_spec in H' as [H' E']. apply pair_equal_spec in H' as [H' E].
    apply read_at_some in H' as (tst & Hc' & Hh).
    pose proof (ex_issued_cw20 9 cw_there st tst Hc Hk Hm Ht Hc') as X. rewrite Hh, E, E' in X. exact X.
Qed.

(** ** The claim fails without [proper_recipients] *)
(** one unit is locked with a 64-byte recipient that names a million; everything
    is enrolled and delivered honestly; a million is minted *)
Definition forged : bytes := to_alice ++ be 32 1000000.
Definition bad_here_txs : list (nat * tx) :=
  setup 7 9 (IWarpNative (NtCollateral (s "uosmo")) (s "osmo") alice (at_ 0)) ++
  both [go 9 forged 1 [mkCoin (s "uosmo") 1]].
Definition bad_here : world := chain_run ex_chain (genesis here_bank) bad_here_txs.
Lemma bad_here_run : bad_here = chain_run ex_chain (genesis here_bank) bad_here_txs.
Proof. unfold bad_here. reflexivity. Qed.
Definition bad_there_txs : list (nat * tx) :=
  setup 9 7 (IWarpNative (NtBridged (s "wosmo") None) (s "osmo") alice (at_ 0)) ++
  both [come (mail 0 7 9 forged 1)].
Definition bad_there : world := chain_run ex_chain (genesis []) bad_there_txs.
Lemma bad_there_run : bad_there = chain_run ex_chain (genesis []) bad_there_txs.
Proof. unfold bad_there. reflexivity. Qed.

Lemma bad_here_seen : seen bad_here =
  (conf_of 7, [mkRouteSet 9 (Some peer)], false, map msg_encode [mail 0 7 9 forged 1], [],
   Some (15, Some Collateral, Some (s "uosmo"))).
Proof. vm_compute. reflexivity. Qed.
Lemma bad_there_seen : seen bad_there =
  (conf_of 9, [mkRouteSet 7 (Some peer)], true, [], map msg_encode [mail 0 7 9 forged 1],
   Some (15, Some Bridged, Some wosmo)).
Proof. vm_compute. reflexivity. Qed.
Lemma bad_numbers :
  (sent_to route 9 (w_log bad_here), received_from route 7 (w_log bad_there),
   (in_flight (side_at 7 bad_here) (side_at 9 bad_there), in_flight (side_at 9 bad_there) (side_at 7 bad_here)),
   (balance bad_here route (s "uosmo"), bal here_bank route (s "uosmo") + gifts route (s "uosmo") (w_log bad_here)),
   supply bad_there wosmo) = (1, 1000000, (0, 0), (1, 0), 1000000).
Proof. vm_compute. reflexivity. Qed.
Theorem C47_refuted : exists S T,
  side_ok S /\ side_ok T /\ enrolled S T /\ enrolled T S /\ only_peer S T /\ only_peer T S /\
  honest S T /\ honest T S /\
  sent_to (sd_route S) (sd_domain T) (sd_log S) = 1 /\
  received_from (sd_route T) (sd_domain S) (sd_log T) = 1000000 /\
  in_flight S T = 0 /\ in_flight T S = 0 /\
  (exists base, custody S 1 base /\ base = 0) /\ (exists base, issued T 1000000 base /\ base = 0).
Proof.
  exists (side_at 7 bad_here), (side_at 9 bad_there).
  destruct (seen_linked 7 bad_here here_bank bad_here_txs 9 bad_there [] bad_there_txs _ _ _ _ _ _ _ _
    here_bank_sorted bad_here_run I bad_there_run bad_here_seen bad_there_seen)
    as (K1 & K2 & E1 & E2 & O1 & O2 & H1 & H2 & _); [vm_compute; reflexivity |].
  split; [exact K1 |]. split; [exact K2 |]. split; [exact E1 |]. split; [exact E2 |]. split; [exact O1 |]. split; [exact O2 |].
  split; [exact H1 |]. split; [exact H2 |].
  pose proof bad_numbers as N. apply pair_equal_spec in N as [N N5]. apply pair_equal_spec in N as [N N4].
  apply pair_equal_spec in N4 as [N4 N4']. apply pair_equal_spec in N as [N N3]. apply pair_equal_spec in N3 as [N3 N3'].
  apply pair_equal_spec in N as [N1 N2].
  split; [exact N1 |]. split; [exact N2 |]. split; [exact N3 |]. split; [exact N3' |]. split.
  - pose proof bad_here_seen as H. apply seen_parts in H as (_ & _ & _ & _ & _ & H). apply read_at_some in H as (st & Hc & H).
    apply pair_equal_spec in H as [H Ht]. apply pair_equal_spec in H as [Hk Hm].
    pose proof (ex_custody_native 7 bad_here here_bank bad_here_txs st _ here_bank_sorted bad_here_run Hc Hk Hm Ht) as X.
    rewrite N4 in X. eexists. split; [exact X | exact N4'].
  - pose proof bad_there_seen as H. apply seen_parts in H as (_ & _ & _ & _ & _ & H). apply read_at_some in H as (st & Hc & H).
    apply pair_equal_spec in H as [H Ht]. apply pair_equal_spec in H as [Hk Hm].
    pose proof (ex_issued_native 9 bad_there [] bad_there_txs st _ I bad_there_run Hc Hk Hm Ht) as X.
    rewrite N5 in X. eexists. split; [exact X |]. vm_compute. reflexivity.
Qed.
Print Assumptions C47_refuted.
