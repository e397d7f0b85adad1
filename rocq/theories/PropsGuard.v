(** * No delivery without an honest validator (C93). *)
From Coq Require Import List NArith Bool Lia.
From Verif Require Import Base BaseFacts OMap Coins Crypto Message Bech32 Chain Ownable Router Contracts Spec SpecModules
  Mailbox Va Isms Hooks Igp Warp Cw20 StepFacts MailboxConfFacts World SpecWorld WorldFacts SpecVerify SpecBridge
  WorldWarp SpecGuard GuardFacts PropsAccess PropsIsm PropsWorld PropsBridge.
Import ListNotations.

(** ** C93 *)
(** a module that knows fewer dishonest validators than its threshold, or is composed of such,
    vouches for no message of the origin unless an honest validator signed for it *)
Theorem C93_signed A (S : addr -> cstate -> Prop) (E : addr -> Prop) o good x md raw m :
  (forall y st st', S y st -> S y st' -> st = st') -> (forall y st, S y st -> ~ E y) ->
  guarded S o good x -> vouched A S E x md raw -> msg_decode raw = Ok m -> m_origin m = o ->
  signed_within A good o md raw.
Proof. exact (fun H1 H2 G V => guarded_signed A S E o good H1 H2 x G md raw m V). Qed.
Print Assumptions C93_signed.

(** whatever its recipient, a message delivered on the word of such a module was dispatched at its
    origin, or else two different inputs were hashed to the same Keccak-256 value *)
Theorem C93_delivered_was_dispatched C1 w1 a st b stb C2 w2 mb mbst tree signed e i md raw Q r m :
  reachable C1 w1 -> contract_at w1 a st -> is_merkle_hook st -> reported_hook_mailbox st = Some b ->
  contract_at w1 b stb -> is_mailbox stb ->
  reachable C2 w2 -> contract_at w2 mb mbst -> is_mailbox mbst ->
  length tree = 32%nat -> observed (map keccak256_hash (posted_at a (w_log w1))) signed ->
  In (EvExec e i (MProcess md raw) Q, r) (answers_at mb (w_log w2)) -> msg_decode raw = Ok m ->
  (forall pre post x, w_log w2 = pre ++ LCall mb (EvExec e i (MProcess md raw) Q) r :: post ->
     asked_about C2 (w_log w2) pre mb m x ->
     guarded (as_of C2 pre) (m_origin m)
       (truthful (ch_api C2) (m_origin m) tree signed (shown_at mb (w_log w2))) x) ->
  In raw (dispatched_at b (w_log w1)) \/
  collision (fed (m_origin m) tree signed (shown_at mb (w_log w2)) (dispatched_at b (w_log w1))).
Proof. exact (processed_dispatched C1 w1 a st b stb C2 w2 mb mbst tree signed e i md raw Q r m). Qed.
Print Assumptions C93_delivered_was_dispatched.

(** for warp routes: the deliveries are honest in the sense of C47 ... *)
Theorem C93_honest S T a tree signed :
  side_ok S -> side_ok T -> hooked S a -> length tree = 32%nat ->
  observed (map keccak256_hash (posted_at a (sd_log S))) signed ->
  watched T (sd_domain S)
    (truthful (ch_api (sd_chain T)) (sd_domain S) tree signed (shown_at (sd_mailbox T) (sd_log T))) ->
  honest S T \/
  collision (fed (sd_domain S) tree signed (shown_at (sd_mailbox T) (sd_log T)) (dispatched_at (sd_mailbox S) (sd_log S))).
Proof. exact (watched_honest S T a tree signed). Qed.
Print Assumptions C93_honest.

(** ... so what one route gave out and what is under way is what the other took *)
Theorem C93_backed S T a tree signed :
  side_ok S -> side_ok T -> enrolled S T -> enrolled T S -> proper_recipients S -> hooked S a -> length tree = 32%nat ->
  observed (map keccak256_hash (posted_at a (sd_log S))) signed ->
  watched T (sd_domain S)
    (truthful (ch_api (sd_chain T)) (sd_domain S) tree signed (shown_at (sd_mailbox T) (sd_log T))) ->
  sent_to (sd_route S) (sd_domain T) (sd_log S)
  = received_from (sd_route T) (sd_domain S) (sd_log T) + in_flight S T \/
  collision (fed (sd_domain S) tree signed (shown_at (sd_mailbox T) (sd_log T)) (dispatched_at (sd_mailbox S) (sd_log S))).
Proof. exact (watched_backed S T a tree signed). Qed.
Print Assumptions C93_backed.

(** guarded both ways, two routes are linked in the sense of C47 ... *)
Theorem C93_linked S T a b tS tT sS sT :
  side_ok S -> side_ok T -> enrolled S T -> enrolled T S -> only_peer S T -> only_peer T S ->
  proper_recipients S -> proper_recipients T -> trusted S T a tS sS -> trusted T S b tT sT ->
  linked S T \/ collided S T tS sS \/ collided T S tT sT.
Proof. exact (trusted_linked S T a b tS tT sS sT). Qed.
Print Assumptions C93_linked.

(** ... so every token issued is backed by a locked one *)
Theorem C93_solvent S T a b tS tT sS sT held base out base' :
  side_ok S -> side_ok T -> enrolled S T -> enrolled T S -> only_peer S T -> only_peer T S ->
  proper_recipients S -> proper_recipients T -> trusted S T a tS sS -> trusted T S b tT sT ->
  custody S held base -> issued T out base' ->
  held + base' = base + out + in_flight S T + in_flight T S \/ collided S T tS sS \/ collided T S tT sT.
Proof. exact (trusted_solvent S T a b tS tT sS sT held base out base'). Qed.
Print Assumptions C93_solvent.

(** validators that sign what the merkle hook reports sign what the above asks of them *)
Theorem C93_reported C w a l :
  (forall c, In c l -> reported_then C w a c) -> observed (map keccak256_hash (posted_at a (w_log w))) l.
Proof. exact (reports_observed C w a l). Qed.
Print Assumptions C93_reported.

(** ** The chains of C47, with three validators watching *)
(** the message of the first transfer, and the checkpoint the hook reported after it *)
Definition first_world : world := chain_run ex_chain (genesis here_bank) (firstn 10 here_txs).
Definition first_mail : bytes := msg_encode (mail 0 7 9 to_alice 10).
Definition first_root : bytes := Eval vm_compute in
  match read_at first_world (at_ 1) reported_root with Some (Some x) => x | _ => [] end.
Definition first_point : checkpoint := (first_root, 0, keccak256_hash first_mail).
Definition first_digest : bytes := Eval vm_compute in checkpoint_digest 7 (be32 1) first_root 0 (keccak256_hash first_mail).
(** a signature is a key; the third validator signs anything, the others only that checkpoint *)
Definition wary : api :=
  mkApi (fun _ => true) (fun d rs _ => if (bytes_eqb rs (repeat x03 64) || bytes_eqb d first_digest)%bool
                                       then Some (x04 :: rs) else None).
Definition wary_chain : chain := mkChain wary ex_ext at_ ex_account.
Definition wary_setup (t : N) : list (nat * tx) :=
  both [TDeploy alice (IMailbox (s "osmo") alice 9) [];
        TDeploy alice (IMerkle (at_ 0)) [];
        TDeploy alice (IPausableHook alice false) [];
        TDeploy alice (IMultisig alice) [];
        TDeploy alice (IWarpNative (NtBridged (s "wosmo") None) (s "osmo") alice (at_ 0)) [];
        TExec alice (at_ 0) (MSetRequiredHook (at_ 1)) [];
        TExec alice (at_ 0) (MSetDefaultHook (at_ 2)) [];
        TExec alice (at_ 0) (MSetDefaultIsm (at_ 3)) [];
        TExec alice route (MRouter (SetRoute (mkRouteSet 7 (Some peer)))) [];
        TExec alice (at_ 3) (MSetValidators 7 t [ex_val x01; ex_val x02; ex_val x03]) []].
Definition wary_md (sigs : list bytes) : bytes := be32 1 ++ first_root ++ be 4 0 ++ concat sigs.
Definition wary_come (sigs : list byte) (raw : bytes) : tx :=
  TExec relayer (at_ 0) (MProcess (wary_md (map ex_sig sigs)) raw) [].
(** nobody dispatched this one *)
Definition forged_mail : bytes := msg_encode (mail 5 7 9 to_alice 1000).
Definition wary_tries : list (nat * tx) :=
  both [wary_come [x03; x03] forged_mail; wary_come [x01; x03] forged_mail; wary_come [x03; x01] first_mail].
Definition wary_txs (t : N) : list (nat * tx) := wary_setup t ++ wary_tries.
Definition wary_world (t : N) : world := chain_run wary_chain (genesis []) (wary_txs t).
Definition wary_side (t : N) : side := mkSide wary_chain (wary_world t) 9 (at_ 0) route peer.

Lemma wary_run t : wary_world t = chain_run wary_chain (genesis []) (wary_txs t).
Proof. unfold wary_world. reflexivity. Qed.
Lemma wary_chain_ok : chain_ok wary_chain.
Proof.
  intros n. cbn [ch_account ch_addr wary_chain]. unfold at_.
  destruct (ex_account (enc (be32 n))) eqn:E; [vm_compute; reflexivity | exact E].
Qed.
Lemma wary_addr n : ch_addr wary_chain n = at_ n.
Proof. unfold wary_chain. cbn [ch_addr]. exact (eq_refl _). Qed.
Lemma wary_side_ok t : conf_at (wary_world t) = (Some (0, Some 9, Some (s "osmo")), Some (Some (at_ 0))) ->
  side_ok (wary_side t).
Proof.
  intros H. apply pair_equal_spec in H as [H1 H2].
  split; [exact wary_chain_ok |]. split; [exists [], (wary_txs t); split; [exact I | exact (wary_run t)] |].
  cbn [sd_chain sd_world sd_domain sd_mailbox sd_route sd_name wary_side].
  split; [| split; [| split]].
  - apply read_at_some in H1 as (st & Hc & H1). apply pair_equal_spec in H1 as [H1 H3]. apply pair_equal_spec in H1 as [H1 H1'].
    exists st, (s "osmo"). split; [exact Hc |]. split; [exact H1 |].
    split; [exact H1' |]. split; [exact H3 |]. vm_compute. reflexivity.
  - apply read_at_some in H2 as (st & Hc & H2). exists st. split; [exact Hc |].
    split; [destruct st; try discriminate H2; exact I | exact H2].
  - vm_compute. reflexivity.
  - intros c [H | [n H]]; [apply ex_unique; left; exact H |]. rewrite wary_addr in H. rewrite H. exact (at_unique n).
Qed.
Lemma wary_enrolled t : flat_map route_updates (events_at route (w_log (wary_world t))) = [mkRouteSet 7 (Some peer)] ->
  enrolled (wary_side t) (side_at 7 here) /\ enrolled (side_at 7 here) (wary_side t).
Proof.
  intros H. unfold enrolled, sd_log. cbn [sd_world sd_route sd_name sd_domain side_at wary_side]. rewrite H. split.
  - intros r x [<- | []]; cbn [rs_route rs_domain]. intros _ E. apply Some_inj in E. now symmetry.
  - rewrite (proj1 (proj2 (seen_parts _ _ _ _ _ _ _ here_seen))). intros r x [<- | []]; cbn [rs_route rs_domain]. intros _ E. apply Some_inj in E. now symmetry.
Qed.
(** what the proofs below need of each world, computed once *)
Lemma first_all :
  (seen first_world,
   (read_at first_world (at_ 1) (fun st => (kind st, reported_checkpoint st)),
   read_at first_world (at_ 1) (fun st => (kind st, reported_hook_mailbox st)),
   posted_at (at_ 1) (w_log first_world),
   (balance first_world route (s "uosmo"), bal here_bank route (s "uosmo") + gifts route (s "uosmo") (w_log first_world))))
  = ((conf_of 7, [mkRouteSet 9 (Some peer)], true, [first_mail], [], Some (15, Some Collateral, Some (s "uosmo"))),
     (Some (6, Some (first_root, 0)), Some (6, Some (at_ 0)), [first_mail], (10, 0))).
Proof. vm_compute. reflexivity. Qed.
Lemma first_seen : seen first_world =
  (conf_of 7, [mkRouteSet 9 (Some peer)], true, [first_mail], [], Some (15, Some Collateral, Some (s "uosmo"))).
Proof. exact (proj1 (proj1 (pair_equal_spec _ _ _ _) first_all)). Qed.
Lemma first_reads :
  (read_at first_world (at_ 1) (fun st => (kind st, reported_checkpoint st)),
   read_at first_world (at_ 1) (fun st => (kind st, reported_hook_mailbox st)),
   posted_at (at_ 1) (w_log first_world),
   (balance first_world route (s "uosmo"), bal here_bank route (s "uosmo") + gifts route (s "uosmo") (w_log first_world)))
  = (Some (6, Some (first_root, 0)), Some (6, Some (at_ 0)), [first_mail], (10, 0)).
Proof. exact (proj2 (proj1 (pair_equal_spec _ _ _ _) first_all)). Qed.
Lemma here_sent : sent_to route 9 (w_log here) = 15.
Proof. vm_compute. reflexivity. Qed.
Lemma proper_at a w : proper_log w = true -> proper_recipients (side_at a w).
Proof. exact (ex_proper a w). Qed.
Lemma here_hooked : hooked (side_at 7 here) (at_ 1).
Proof.
  destruct (read_at_some here (at_ 1) (fun st => (kind st, reported_hook_mailbox st)) (6, Some (at_ 0))) as (st & Hc & H);
    [vm_compute; reflexivity |]. apply pair_equal_spec in H as [H1 H2].
  exists st. split; [exact Hc |]. split; [destruct st; try discriminate H1; exact I | exact H2].
Qed.
Lemma first_reported : reported_then ex_chain here (at_ 1) first_point.
Proof.
  pose proof first_reads as H. apply pair_equal_spec in H as [H _]. apply pair_equal_spec in H as [H P].
  apply pair_equal_spec in H as [H _]. apply read_at_some in H as (st & Hc & H). apply pair_equal_spec in H as [H1 H2].
  exists first_world, (skipn 10 here_txs), st, [], first_mail.
  split; [exists here_bank, (firstn 10 here_txs); split; [exact here_bank_sorted | reflexivity] |].
  split; [unfold here, first_world, chain_run; rewrite <- fold_left_app, firstn_skipn; reflexivity |].
  split; [exact Hc |]. split; [destruct st; try discriminate H1; exact I |]. split; [exact H2 |].
  split; [exact P | reflexivity].
Qed.

(** the first two validators are honest *)
Lemma wary_truthful shown v : v <> ex_val x03 -> truthful wary 7 (be32 1) [first_point] shown v.
Proof.
  intros Hv md raw m md' t root index sigs sg _ _ _ _ _ _ (_ & b & pk & _ & _ & R & _ & V).
  unfold wary, api_recover in R. destruct (bytes_eqb (firstn 64 sg) (repeat x03 64)) eqn:E.
  - apply Some_inj in R. subst pk. apply bytes_eqb_eq in E. rewrite E in V. contradiction (Hv V).
  - destruct (bytes_eqb (checkpoint_digest 7 t root index (keccak256_hash raw)) first_digest) eqn:F; [|discriminate R].
    apply bytes_eqb_eq in F. exists first_root, 0, (keccak256_hash first_mail). split; [left; reflexivity |].
    rewrite F. vm_compute. reflexivity.
Qed.

(** where in a log a mailbox took messages *)
Definition taken (mb : addr) (x : entry) : bool :=
  match x with LCall b (EvExec _ _ (MProcess _ _) _) _ => bytes_eqb mb b | _ => false end.
Fixpoint places (mb : addr) (n : nat) (l : list entry) : list nat :=
  match l with [] => [] | x :: l' => (if taken mb x then [n] else []) ++ places mb (S n) l' end.
Lemma places_in mb x post : taken mb x = true -> forall pre n, In (n + length pre)%nat (places mb n (pre ++ x :: post)).
Proof.
  intros T. induction pre as [|y pre IH]; intros n; cbn [app length places].
  - rewrite T, PeanoNat.Nat.add_0_r. left. reflexivity.
  - apply in_or_app. right. specialize (IH (S n)). rewrite PeanoNat.Nat.add_succ_r. exact IH.
Qed.
Lemma only_place mb l k pre x post : places mb 0 l = [k] -> l = pre ++ x :: post -> taken mb x = true -> pre = firstn k l.
Proof.
  intros P L T. pose proof (places_in mb x post T pre 0) as H. rewrite <- L, P in H. destruct H as [H | []]. cbn [Nat.add] in H.
  rewrite H, L, firstn_app, PeanoNat.Nat.sub_diag, firstn_all. cbn [firstn]. now rewrite app_nil_r.
Qed.
(** what a contract said of itself at a moment *)
Definition then_at {X} (C : chain) (l : list entry) (a : addr) (f : cstate -> X) : option X :=
  match births_at a l with
  | [(e, i, q, m, _)] => match c_instantiate (ch_api C) q e i m with
                         | Ok (st0, _) => Some (f (c_run (ch_api C) st0 (events_at a l))) | _ => None end
  | _ => None end.
Lemma then_at_some {X} C l a (f : cstate -> X) v st : then_at C l a f = Some v -> as_of C l a st -> f st = v.
Proof.
  intros H (e & i & q & m & r & st0 & B & I & ->). unfold then_at in H. rewrite B, I in H. now apply Some_inj in H.
Qed.

Definition wary_place : nat := Eval vm_compute in hd 0%nat (places (at_ 0) 0 (w_log (wary_world 2))).
Lemma watched_once w k :
  reachable wary_chain w -> places (at_ 0) 0 (w_log w) = [k] ->
  (exists ms, contract_at w (at_ 3) ms) -> length (births_at (at_ 3) (firstn k (w_log w))) = 1%nat ->
  then_at wary_chain (firstn k (w_log w)) route (fun st => reported_conn st QConnIsm) = Some (Some None) ->
  then_at wary_chain (firstn k (w_log w)) (at_ 0) reported_default_ism = Some (Some (at_ 3)) ->
  then_at wary_chain (firstn k (w_log w)) (at_ 3) (fun st => (kind st, reported_enrolled st 7))
    = Some (2, Some ([ex_val x01; ex_val x02; ex_val x03], 2)) ->
  watched (mkSide wary_chain w 9 (at_ 0) route peer) 7 (truthful wary 7 (be32 1) [first_point] (shown_at (at_ 0) (w_log w))).
Proof.
  intros R K (ms & Hc) B H1 H2 H3 pre post e i md raw Q r m st1 mb1 dflt L D O AD A1 A2 A3. unfold sd_log in L.
  cbn [sd_chain sd_world sd_mailbox sd_route] in *.
  assert (P : pre = firstn k (w_log w)).
  { eapply (only_place (at_ 0)); [exact K | exact L | cbn [taken]; apply bytes_eqb_refl]. }
  rewrite <- P in *.
  destruct (as_of_before wary_chain w pre post _ (at_ 3) ms R Hc L) as (ms1 & A4).
  { intros X. rewrite X in B. discriminate B. }
  pose proof (then_at_some _ _ _ _ _ _ H1 A1) as E1. pose proof (then_at_some _ _ _ _ _ _ H2 A2) as E2.
  pose proof (then_at_some _ _ _ _ _ _ H3 A4) as E3. cbv beta in E1, E3.
  rewrite E1. rewrite E2 in A3. apply Some_inj in A3. subst dflt. apply pair_equal_spec in E3 as [E3 E4].
  eapply (guarded_multisig _ _ _ (at_ 3) ms1 _ _ [ex_val x03] A4);
    [destruct ms1; try discriminate E3; exact I | exact E4 | reflexivity |].
  intros v _ Nv. apply wary_truthful. intros ->. apply Nv. left. reflexivity.
Qed.
Lemma wary2_all :
  (seen (wary_world 2),
   (places (at_ 0) 0 (w_log (wary_world 2)), read_at (wary_world 2) (at_ 3) kind,
   length (births_at (at_ 3) (firstn wary_place (w_log (wary_world 2)))),
   then_at wary_chain (firstn wary_place (w_log (wary_world 2))) route (fun st => reported_conn st QConnIsm),
   then_at wary_chain (firstn wary_place (w_log (wary_world 2))) (at_ 0) reported_default_ism,
   then_at wary_chain (firstn wary_place (w_log (wary_world 2))) (at_ 3) (fun st => (kind st, reported_enrolled st 7)),
   read_at (wary_world 2) (at_ 1) (fun st => (kind st, reported_hook_mailbox st)), supply (wary_world 2) wosmo,
   received_from route 7 (w_log (wary_world 2))))
  = ((conf_of 9, [mkRouteSet 7 (Some peer)], true, [], [first_mail], Some (15, Some Bridged, Some wosmo)),
     ([wary_place], Some 2, 1%nat, Some (Some None), Some (Some (at_ 3)),
     Some (2, Some ([ex_val x01; ex_val x02; ex_val x03], 2)), Some (6, Some (at_ 0)), 10, 10)).
Proof. vm_compute. reflexivity. Qed.
Lemma wary2_seen : seen (wary_world 2) =
  (conf_of 9, [mkRouteSet 7 (Some peer)], true, [], [first_mail], Some (15, Some Bridged, Some wosmo)).
Proof. exact (proj1 (proj1 (pair_equal_spec _ _ _ _) wary2_all)). Qed.
Lemma wary2_reads :
  (places (at_ 0) 0 (w_log (wary_world 2)), read_at (wary_world 2) (at_ 3) kind,
   length (births_at (at_ 3) (firstn wary_place (w_log (wary_world 2)))),
   then_at wary_chain (firstn wary_place (w_log (wary_world 2))) route (fun st => reported_conn st QConnIsm),
   then_at wary_chain (firstn wary_place (w_log (wary_world 2))) (at_ 0) reported_default_ism,
   then_at wary_chain (firstn wary_place (w_log (wary_world 2))) (at_ 3) (fun st => (kind st, reported_enrolled st 7)),
   read_at (wary_world 2) (at_ 1) (fun st => (kind st, reported_hook_mailbox st)), supply (wary_world 2) wosmo,
   received_from route 7 (w_log (wary_world 2)))
  = ([wary_place], Some 2, 1%nat, Some (Some None), Some (Some (at_ 3)),
     Some (2, Some ([ex_val x01; ex_val x02; ex_val x03], 2)), Some (6, Some (at_ 0)), 10, 10).
Proof. exact (proj2 (proj1 (pair_equal_spec _ _ _ _) wary2_all)). Qed.
Lemma wary_watched :
  watched (wary_side 2) 7 (truthful wary 7 (be32 1) [first_point] (shown_at (at_ 0) (w_log (wary_world 2)))).
Proof.
  pose proof wary2_reads as H. apply pair_equal_spec in H as [H _]. apply pair_equal_spec in H as [H _]. apply pair_equal_spec in H as [H _].
  apply pair_equal_spec in H as [H T3]. apply pair_equal_spec in H as [H T2]. apply pair_equal_spec in H as [H T1].
  apply pair_equal_spec in H as [H B]. apply pair_equal_spec in H as [P K].
  unfold wary_side. apply (watched_once (wary_world 2) wary_place).
  - exists [], (wary_txs 2). split; [exact I | exact (wary_run 2)].
  - exact P.
  - apply read_at_some in K as (ms & Hc & _). exists ms. exact Hc.
  - exact B.
  - exact T1.
  - exact T2.
  - exact T3.
Qed.

(** two of three: what the third validator makes up is refused; all that C93_backed asks for holds *)
Example C93_example :
  let S := side_at 7 here in let T := wary_side 2 in
  side_ok S /\ side_ok T /\ enrolled S T /\ enrolled T S /\ proper_recipients S /\ hooked S (at_ 1) /\
  (forall c, In c [first_point] -> reported_then (sd_chain S) (sd_world S) (at_ 1) c) /\
  watched T (sd_domain S)
    (truthful (ch_api (sd_chain T)) (sd_domain S) (be32 1) [first_point] (shown_at (sd_mailbox T) (sd_log T))) /\
  processed_at (at_ 0) (sd_log T) = [first_mail] /\
  (sent_to route 9 (sd_log S), received_from route 7 (sd_log T), in_flight S T) = (15, 10, 5).
Proof.
  intros S T.
  split; [exact (proj1 ex_linked) |].
  split; [apply wary_side_ok; exact (proj1 (seen_parts _ _ _ _ _ _ _ wary2_seen)) |].
  destruct (wary_enrolled 2 (proj1 (proj2 (seen_parts _ _ _ _ _ _ _ wary2_seen)))) as [E1 E2].
  split; [exact E2 |]. split; [exact E1 |].
  split; [exact (proper_at 7 _ (proj1 (proj2 (proj2 (seen_parts _ _ _ _ _ _ _ here_seen))))) |]. split; [exact here_hooked |].
  split; [intros c [<- | []]; exact first_reported |]. split; [exact wary_watched |].
  split; [exact (proj1 (proj2 (proj2 (proj2 (proj2 (seen_parts _ _ _ _ _ _ _ wary2_seen)))))) |].
  pose proof wary2_reads as N. apply pair_equal_spec in N as [_ N].
  unfold S, T, in_flight, travelling, sd_log. cbn [sd_world sd_route sd_domain sd_mailbox sd_name side_at wary_side].
  rewrite here_sent, N, (proj1 (proj2 (proj2 (proj2 (proj2 (seen_parts _ _ _ _ _ _ _ wary2_seen)))))),
    (proj1 (proj2 (proj2 (proj2 (seen_parts _ _ _ _ _ _ _ here_seen))))).
  vm_compute. reflexivity.
Qed.

(** guarded both ways: nothing came the other way, so its validators had nothing to sign *)
Lemma nothing_watched w good o : places (at_ 0) 0 (w_log w) = [] -> watched (side_at 7 w) o good.
Proof.
  intros K pre post e i md raw Q r m st1 mb1 dflt L. unfold sd_log in L. cbn [sd_world sd_mailbox side_at] in L.
  pose proof (places_in (at_ 0) (LCall (at_ 0) (EvExec e i (MProcess md raw) Q) r) post (bytes_eqb_refl _) pre 0) as H.
  rewrite <- L, K in H. destruct H.
Qed.
Lemma first_run : first_world = chain_run ex_chain (genesis here_bank) (firstn 10 here_txs).
Proof. unfold first_world. reflexivity. Qed.
Lemma first_self : reported_then ex_chain first_world (at_ 1) first_point.
Proof.
  pose proof first_reads as H. apply pair_equal_spec in H as [H _]. apply pair_equal_spec in H as [H P].
  apply pair_equal_spec in H as [H _]. apply read_at_some in H as (st & Hc & H). apply pair_equal_spec in H as [H1 H2].
  exists first_world, [], st, [], first_mail.
  split; [exists here_bank, (firstn 10 here_txs); split; [exact here_bank_sorted | exact first_run] |].
  split; [unfold chain_run; cbn [fold_left]; reflexivity |].
  split; [exact Hc |]. split; [destruct st; try discriminate H1; exact I |]. split; [exact H2 |].
  split; [exact P | reflexivity].
Qed.
Lemma only_peers C a b wa T :
  flat_map route_updates (events_at route (w_log wa)) = [mkRouteSet b (Some peer)] -> sd_domain T = b ->
  only_peer (mkSide C wa a (at_ 0) route peer) T.
Proof.
  intros H E. unfold only_peer, sd_log. cbn [sd_world sd_route]. rewrite H, E. intros r x [<- | []]; reflexivity.
Qed.
Lemma hooked_side C w d :
  read_at w (at_ 1) (fun st => (kind st, reported_hook_mailbox st)) = Some (6, Some (at_ 0)) ->
  hooked (mkSide C w d (at_ 0) route peer) (at_ 1).
Proof.
  intros H. apply read_at_some in H as (st & Hc & H). apply pair_equal_spec in H as [H1 H2].
  exists st. cbn [sd_world sd_mailbox]. split; [exact Hc |]. split; [destruct st; try discriminate H1; exact I | exact H2].
Qed.
Lemma both_side : side_ok (side_at 7 first_world).
Proof. apply (ex_side 7 first_world here_bank (firstn 10 here_txs) here_bank_sorted first_run). exact (proj1 (seen_parts _ _ _ _ _ _ _ first_seen)). Qed.
Lemma both_peer : only_peer (side_at 7 first_world) (wary_side 2).
Proof. unfold side_at. apply (only_peers ex_chain 7 9 first_world); [exact (proj1 (proj2 (seen_parts _ _ _ _ _ _ _ first_seen))) | cbn [sd_domain wary_side]; reflexivity]. Qed.
Lemma both_peer' : only_peer (wary_side 2) (side_at 7 first_world).
Proof. unfold wary_side. apply (only_peers wary_chain 9 7 (wary_world 2)); [exact (proj1 (proj2 (seen_parts _ _ _ _ _ _ _ wary2_seen))) | cbn [sd_domain side_at]; reflexivity]. Qed.
Lemma both_observed : observed (map keccak256_hash (posted_at (at_ 1) (w_log first_world))) [first_point].
Proof. apply (reports_observed ex_chain first_world (at_ 1)). intros c [<- | []]. exact first_self. Qed.
Lemma both_trusted : trusted (side_at 7 first_world) (wary_side 2) (at_ 1) (be32 1) [first_point].
Proof.
  pose proof first_reads as H. apply pair_equal_spec in H as [H _]. apply pair_equal_spec in H as [H _]. apply pair_equal_spec in H as [_ H].
  split; [unfold side_at; exact (hooked_side ex_chain first_world 7 H) |]. split; [reflexivity |].
  split; [exact both_observed | exact wary_watched].
Qed.
Lemma both_trusted' : trusted (wary_side 2) (side_at 7 first_world) (at_ 1) (be32 1) [].
Proof.
  pose proof wary2_reads as H. apply pair_equal_spec in H as [H _]. apply pair_equal_spec in H as [H _]. apply pair_equal_spec in H as [_ H].
  split; [unfold wary_side; exact (hooked_side wary_chain (wary_world 2) 9 H) |]. split; [reflexivity |].
  split; [intros root index id [] |]. apply nothing_watched. vm_compute. reflexivity.
Qed.
Lemma both_custody : custody (side_at 7 first_world) 10 0.
Proof.
  destruct (read_at_some _ _ _ _ (proj2 (proj2 (proj2 (proj2 (proj2 (seen_parts _ _ _ _ _ _ _ first_seen))))))) as (st & Hc & H).
  apply pair_equal_spec in H as [H Ht]. apply pair_equal_spec in H as [Hk Hm].
  pose proof (ex_custody_native 7 first_world here_bank (firstn 10 here_txs) st _ here_bank_sorted first_run Hc Hk Hm Ht) as X.
  pose proof first_reads as N. apply pair_equal_spec in N as [_ N]. apply pair_equal_spec in N as [E E'].
  rewrite E in X.
  rewrite E' in X. exact X.
Qed.
Lemma wary_issued w l st tk :
  w = chain_run wary_chain (genesis []) l -> contract_at w route st ->
  kind st = 15 -> reported_mode st = Some Bridged -> reported_token st = Some tk ->
  issued (mkSide wary_chain w 9 (at_ 0) route peer) (supply w tk) 0.
Proof.
  intros Hw Hc Hk Hm Ht. apply (issued_native (mkSide wary_chain w 9 (at_ 0) route peer) [] l st); auto; [exact I |].
  destruct st; try discriminate Hk; exact I.
Qed.
Lemma both_issued : issued (wary_side 2) 10 0.
Proof.
  destruct (read_at_some _ _ _ _ (proj2 (proj2 (proj2 (proj2 (proj2 (seen_parts _ _ _ _ _ _ _ wary2_seen))))))) as (st & Hc & H).
  apply pair_equal_spec in H as [H Ht]. apply pair_equal_spec in H as [Hk Hm].
  pose proof (wary_issued (wary_world 2) (wary_txs 2) st _ (wary_run 2) Hc Hk Hm Ht) as X.
  pose proof wary2_reads as N. apply pair_equal_spec in N as [N _]. apply pair_equal_spec in N as [_ N]. rewrite N in X. exact X.
Qed.
Example C93_both_ways_example :
  let S := side_at 7 first_world in let T := wary_side 2 in
  side_ok S /\ side_ok T /\ only_peer S T /\ only_peer T S /\
  trusted S T (at_ 1) (be32 1) [first_point] /\ trusted T S (at_ 1) (be32 1) [] /\
  custody S 10 0 /\ issued T 10 0 /\ (in_flight S T, in_flight T S) = (0, 0).
Proof.
  intros S T. split; [exact both_side |]. split; [apply wary_side_ok; exact (proj1 (seen_parts _ _ _ _ _ _ _ wary2_seen)) |].
  split; [exact both_peer |]. split; [exact both_peer' |]. split; [exact both_trusted |]. split; [exact both_trusted' |].
  split; [exact both_custody |]. split; [exact both_issued |]. vm_compute. reflexivity.
Qed.

Lemma forged_not_honest w w' raw m :
  existsb (bytes_eqb raw) (processed_at (at_ 0) (w_log w')) = true ->
  existsb (bytes_eqb raw) (dispatched_at (at_ 0) (w_log w)) = false ->
  msg_decode raw = Ok m -> m_origin m = 7 ->
  read_at w' (at_ 0) reported_hrp = Some (Some (s "osmo")) -> bech32_encode (s "osmo") (m_recipient m) = Ok route ->
  ~ honest (side_at 7 w) (mkSide wary_chain w' 9 (at_ 0) route peer).
Proof.
  intros I1 I2 D O R E H. apply existsb_bytes in I1. apply read_at_some in R as (mb & Hm & H1).
  unfold honest, sd_log in H. cbn [sd_world sd_mailbox sd_domain side_at] in H.
  assert (X : In raw (dispatched_at (at_ 0) (w_log w))); [| apply existsb_bytes in X; rewrite X in I2; discriminate I2].
  apply (H raw m I1 D O). exists mb, (s "osmo"). auto.
Qed.
Lemma wary1_all :
  (seen (wary_world 1),
   (read_at (wary_world 1) (at_ 0) reported_default_ism, read_at (wary_world 1) (at_ 3) (fun st => reported_enrolled st 7),
   received_from route 7 (w_log (wary_world 1)), read_at (wary_world 1) (at_ 0) reported_hrp))
  = ((conf_of 9, [mkRouteSet 7 (Some peer)], true, [], [forged_mail; first_mail], Some (15, Some Bridged, Some wosmo)),
     (Some (Some (at_ 3)), Some (Some ([ex_val x01; ex_val x02; ex_val x03], 1)), 1010, Some (Some (s "osmo")))).
Proof. vm_compute. reflexivity. Qed.
Lemma wary1_seen : seen (wary_world 1) =
  (conf_of 9, [mkRouteSet 7 (Some peer)], true, [], [forged_mail; first_mail], Some (15, Some Bridged, Some wosmo)).
Proof. exact (proj1 (proj1 (pair_equal_spec _ _ _ _) wary1_all)). Qed.
Lemma wary1_reads :
  (read_at (wary_world 1) (at_ 0) reported_default_ism, read_at (wary_world 1) (at_ 3) (fun st => reported_enrolled st 7),
   received_from route 7 (w_log (wary_world 1)), read_at (wary_world 1) (at_ 0) reported_hrp)
  = (Some (Some (at_ 3)), Some (Some ([ex_val x01; ex_val x02; ex_val x03], 1)), 1010, Some (Some (s "osmo"))).
Proof. exact (proj2 (proj1 (pair_equal_spec _ _ _ _) wary1_all)). Qed.
(** one of three: as many dishonest validators as the threshold are enough to deliver what nobody
    sent *)
Theorem C93_as_many_liars_refuted : exists S T a tree signed liars,
  side_ok S /\ side_ok T /\ enrolled S T /\ enrolled T S /\ proper_recipients S /\ hooked S a /\ length tree = 32%nat /\
  observed (map keccak256_hash (posted_at a (sd_log S))) signed /\
  (exists mb x ms vs t, contract_at (sd_world T) (sd_mailbox T) mb /\ reported_default_ism mb = Some x /\
     contract_at (sd_world T) x ms /\ reported_enrolled ms (sd_domain S) = Some (vs, t) /\
     N.of_nat (length liars) = t /\
     forall v, In v vs -> ~ In v liars ->
       truthful (ch_api (sd_chain T)) (sd_domain S) tree signed (shown_at (sd_mailbox T) (sd_log T)) v) /\
  sent_to (sd_route S) (sd_domain T) (sd_log S) = 15 /\ received_from (sd_route T) (sd_domain S) (sd_log T) = 1010 /\
  ~ honest S T.
Proof.
  pose proof wary1_reads as A. apply pair_equal_spec in A as [A A4]. apply pair_equal_spec in A as [A A3].
  apply pair_equal_spec in A as [A1 A2].
  exists (side_at 7 here), (wary_side 1), (at_ 1), (be32 1), [first_point], [ex_val x03].
  split; [exact (proj1 ex_linked) |].
  split; [apply wary_side_ok; exact (proj1 (seen_parts _ _ _ _ _ _ _ wary1_seen)) |].
  destruct (wary_enrolled 1 (proj1 (proj2 (seen_parts _ _ _ _ _ _ _ wary1_seen)))) as [E1 E2].
  split; [exact E2 |]. split; [exact E1 |].
  split; [exact (proper_at 7 _ (proj1 (proj2 (proj2 (seen_parts _ _ _ _ _ _ _ here_seen))))) |]. split; [exact here_hooked |]. split; [reflexivity |].
  split; [apply (reports_observed ex_chain here (at_ 1)); intros c [<- | []]; exact first_reported |].
  split.
  { cbn [sd_chain sd_world sd_mailbox sd_domain wary_side side_at].
    destruct (read_at_some _ _ _ _ A1) as (mb & Hm & H1). destruct (read_at_some _ _ _ _ A2) as (ms & Hs & H2).
    exists mb, (at_ 3), ms, [ex_val x01; ex_val x02; ex_val x03], 1. split; [exact Hm |]. split; [exact H1 |]. split; [exact Hs |].
    split; [exact H2 |]. split; [reflexivity |].
    intros v _ Nv. apply wary_truthful. intros ->. apply Nv. left. reflexivity. }
  split; [exact here_sent |]. split; [exact A3 |].
  apply (forged_not_honest here (wary_world 1) forged_mail (mail 5 7 9 to_alice 1000)).
  - rewrite (proj1 (proj2 (proj2 (proj2 (proj2 (seen_parts _ _ _ _ _ _ _ wary1_seen)))))). vm_compute. reflexivity.
  - rewrite (proj1 (proj2 (proj2 (proj2 (seen_parts _ _ _ _ _ _ _ here_seen))))). vm_compute. reflexivity.
  - vm_compute. reflexivity.
  - reflexivity.
  - exact A4.
  - exact route_text.
Qed.
Print Assumptions C93_as_many_liars_refuted.
