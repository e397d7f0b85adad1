(** * A backlog can be delivered in any order, with the same result (C97). *)
From Coq Require Import List NArith Bool Lia Permutation.
From Verif Require Import Base BaseFacts OMap Coins Crypto Message Bech32 Chain Ownable Router Warp Contracts Spec SpecModules StepFacts
  MailboxConfFacts World SpecWorld WorldFacts SpecBridge SpecLive SpecBacklog BacklogFacts PropsAccess PropsWorld PropsBridge.
Import ListNotations.

(** ** Everything due arrives, if routes can afford it in all *)
Theorem C97_backlog C n k w mb l :
  chain_ok C -> reachable C w -> (n <= k)%nat -> (4 <= k)%nat ->
  Forall (due C n w mb) l -> affordable w l -> NoDup (map (fun p => keccak256_hash (pc_raw p)) l) ->
  exists w', deliver_all C k mb l w = Ok w' /\ all_arrived w w' mb l.
Proof. intros HC Hr Hn H4. exact (backlog_arrives C n k mb l HC Hn H4 w Hr). Qed.
Print Assumptions C97_backlog.

(** ** In any order *)
Theorem C97_any_order C n k w mb l l' :
  chain_ok C -> reachable C w -> (n <= k)%nat -> (4 <= k)%nat ->
  Forall (due C n w mb) l -> affordable w l -> NoDup (map (fun p => keccak256_hash (pc_raw p)) l) -> Permutation l l' ->
  exists w1 w2, deliver_all C k mb l w = Ok w1 /\ deliver_all C k mb l' w = Ok w2 /\
    (forall x a, wealth w1 x a = wealth w2 x a) /\
    (forall mbst1 mbst2 id, contract_at w1 mb mbst1 -> contract_at w2 mb mbst2 ->
       reported_delivered mbst1 id = reported_delivered mbst2 id) /\
    (forall y : addr, y <> mb -> existsb (fun p => deals_in w (AToken y) (pc_route p)) l = false ->
       om_get y (w_inst w1) = om_get y (w_inst w2)).
Proof. intros HC Hr Hn H4. exact (any_order C n k mb l l' w HC Hn H4 Hr). Qed.
Print Assumptions C97_any_order.

(** ** Two routes at one mailbox: one locks a coin, the other issues a token *)
Definition store_txs : list (nat * tx) :=
  both [TDeploy alice (IMailbox (s "osmo") alice 7) [];
        TDeploy alice (IPausableIsm alice false) [];
        TDeploy alice (IWarpNative (NtCollateral (s "uosmo")) (s "osmo") alice (at_ 0)) [];
        TDeploy alice (IWarpCw20 (CtBridged []) (s "osmo") alice (at_ 0)) [];
        TExec alice (at_ 0) (MSetDefaultIsm (at_ 1)) [];
        TExec alice (at_ 2) (MRouter (SetRoute (mkRouteSet 9 (Some (be32 5))))) [];
        TExec alice (at_ 3) (MRouter (SetRoute (mkRouteSet 9 (Some (be32 6))))) [];
        TSend alice (at_ 2) [mkCoin (s "uosmo") 60]].
Definition store : world := chain_run ex_chain (genesis ex_bank) store_txs.
Lemma store_run : store = chain_run ex_chain (genesis ex_bank) store_txs.
Proof. unfold store. reflexivity. Qed.
Definition to_relayer : bytes := zeros 12 ++ repeat x0c 20.
Definition for_coin (nonce : N) (to : bytes) (n : N) : bytes := msg_encode (mkMessage 3 nonce 9 (be32 5) 7 (be32 2) (to ++ be 32 n)).
Definition for_token (nonce : N) (to : bytes) (n : N) : bytes := msg_encode (mkMessage 3 nonce 9 (be32 6) 7 (be32 3) (to ++ be 32 n)).
Definition p1 : parcel := mkParcel [] (for_coin 1 to_alice 20) relayer (at_ 2) alice 20.
Definition p2 : parcel := mkParcel [] (for_coin 2 to_relayer 35) relayer (at_ 2) relayer 35.
Definition p3 : parcel := mkParcel [] (for_token 3 to_alice 7) alice (at_ 3) alice 7.
Definition p4 : parcel := mkParcel [] (for_coin 4 to_alice 35) relayer (at_ 2) alice 35.

Lemma store_answers raw : answers ex_api (contract_at store) (fun _ _ _ _ _ => False) 3 (at_ 1) [] raw true.
Proof.
  destruct (read_at_some store (at_ 1) (fun st => (kind st, reported_paused st)) (5, Some false)) as (s1 & C1 & H1); [vm_compute; reflexivity|].
  apply pair_equal_spec in H1 as [K1 H1].
  apply (answers_pausable _ _ _ 2 (at_ 1) s1); [exact C1 | destruct s1; try discriminate K1; exact I | exact H1].
Qed.
Lemma store_due p m (kd : N) (tk : str) (mode : token_mode) (peer32 rcp : bytes) :
  read_at store (pc_route p) (fun st => (kind st, reported_conn st QConnIsm, warp_mailbox st, reported_route st 9, warp_hrp st, reported_token st, reported_mode st))
    = Some (kd, Some None, Some (at_ 0), Some (Some peer32), s "osmo", Some tk, Some mode) ->
  (kd = 15 \/ (kd = 16 /\ read_at store tk kind = Some 17)) ->
  read_at store (at_ 0) (fun st => reported_delivered st (keccak256_hash (pc_raw p))) = Some (Some false) ->
  pc_metadata p = [] -> msg_decode (pc_raw p) = Ok m -> m_version m = 3 -> m_dest m = 7 -> m_origin m = 9 -> m_sender m = peer32 ->
  bech32_encode (s "osmo") (m_recipient m) = Ok (pc_route p) ->
  m_body m = rcp ++ be 32 (pc_amount p) -> length rcp = 32%nat -> bech32_encode (s "osmo") rcp = Ok (pc_to p) ->
  pc_amount p < 2 ^ 128 -> pc_amount p <> 0 -> api_valid ex_api (pc_to p) = true -> ex_account (pc_relayer p) = true ->
  due ex_chain 3 store (at_ 0) p.
Proof.
  intros R K D Md Dec V Dst Or Se Rc Bo Le To Am A0 Va Ac.
  destruct (read_at_some store (at_ 0) (fun st => (kind st, reported_domain st, reported_hrp st, reported_default_ism st))
    (0, Some 7, Some (s "osmo"), Some (at_ 1))) as (s0 & C0 & H0); [vm_compute; reflexivity|].
  destruct (read_at_some store (at_ 0) _ _ D) as (s0' & C0' & D').
  rewrite <- (same_contract _ _ _ _ C0 C0') in D'. clear s0' C0'.
  destruct (read_at_some store (pc_route p) _ _ R) as (st & Cr & H).
  repeat match goal with X : (_, _) = (_, _) |- _ => apply pair_equal_spec in X as [X ?] end.
  exists s0, st, m. split; [exact C0|]. split; [exact H0|]. split; [exact Cr|].
  split; [destruct st; destruct K as [-> | [-> _]]; try discriminate H; exact I|].
  split; [exact Dec|]. split; [exact V|]. split; [rewrite Dst; assumption|].
  split; [exists (s "osmo"); split; [assumption | exact Rc]|]. split; [exact D'|].
  split; [exists (at_ 1); split; [exists None, (at_ 1); auto | rewrite Md; apply store_answers]|].
  split.
  { split; [rewrite Or; reflexivity|]. split; [assumption|]. split; [rewrite Or, Se; assumption|]. split; [exact Am|].
    exists rcp, []. split; [rewrite app_nil_r; exact Bo|]. split; [exact Le|].
    match goal with X : warp_hrp st = _ |- _ => rewrite X end. exact To. }
  split; [exact A0|]. split; [exact Va|]. split; [exact Ac|].
  destruct K as [-> | [-> K]].
  - exists (balance store (pc_route p) tk), tk. split; [assumption|]. left. split; [destruct st; try discriminate H; exact I | reflexivity].
  - destruct (read_at_some store tk _ _ K) as (ts & Ct & Kt). exists (cw_holding ts (pc_route p)), tk. split; [assumption|]. right.
    split; [destruct st; try discriminate H; exact I|]. exists ts. split; [exact Ct|]. split; [destruct ts; try discriminate Kt; exact I | reflexivity].
Qed.

Ltac due_in_store := lazymatch goal with |- due _ _ _ _ ?p =>
  eapply (store_due p _ _ _ _ _ _);
    [vm_compute; reflexivity | first [left; reflexivity | right; split; [reflexivity | vm_compute; reflexivity]] | vm_compute; reflexivity
    | reflexivity | vm_compute; reflexivity | reflexivity | reflexivity | reflexivity | reflexivity | vm_compute; reflexivity
    | idtac | idtac | idtac | reflexivity | discriminate | vm_compute; reflexivity | vm_compute; reflexivity] end.
Lemma p1_due : due ex_chain 3 store (at_ 0) p1.
Proof. due_in_store; [instantiate (1 := to_alice); vm_compute; reflexivity | reflexivity | vm_compute; reflexivity]. Qed.
Lemma p2_due : due ex_chain 3 store (at_ 0) p2.
Proof. due_in_store; [instantiate (1 := to_relayer); vm_compute; reflexivity | reflexivity | vm_compute; reflexivity]. Qed.
Lemma p3_due : due ex_chain 3 store (at_ 0) p3.
Proof. due_in_store; [instantiate (1 := to_alice); vm_compute; reflexivity | reflexivity | vm_compute; reflexivity]. Qed.
Lemma p4_due : due ex_chain 3 store (at_ 0) p4.
Proof. due_in_store; [instantiate (1 := to_alice); vm_compute; reflexivity | reflexivity | vm_compute; reflexivity]. Qed.

Lemma deals_one w x y r : deals_in w x r = true -> deals_in w y r = true -> y = x.
Proof.
  rewrite !deals_in_iff. intros (st & H1 & H2) (st' & H3 & H4). rewrite (same_contract _ _ _ _ H3 H1) in H4. congruence.
Qed.
Lemma afford_lock w l r x : deals_in w x r = true -> locks_up w r = true ->
  (sum_of (fun q => bytes_eqb (pc_route q) r) l <=? wealth w x r) = true ->
  forall y, deals_in w y r = true ->
    (locks_up w r = true -> sum_of (fun q => bytes_eqb (pc_route q) r) l <= wealth w y r) /\
    (locks_up w r = false -> forall t tst, y = AToken t -> contract_at w t tst ->
       cw_total tst + sum_of (fun q => (deals_in w y (pc_route q) && negb (locks_up w (pc_route q)))%bool) l < 2 ^ 128).
Proof.
  intros D L S y D'. rewrite (deals_one _ _ _ _ D D'). split; [intros _; now apply N.leb_le | congruence].
Qed.
Lemma afford_issue w l r t0 : deals_in w (AToken t0) r = true -> locks_up w r = false ->
  read_at w t0 (fun tst => cw_total tst + sum_of (fun q => (deals_in w (AToken t0) (pc_route q) && negb (locks_up w (pc_route q)))%bool) l <? 2 ^ 128) = Some true ->
  forall y, deals_in w y r = true ->
    (locks_up w r = true -> sum_of (fun q => bytes_eqb (pc_route q) r) l <= wealth w y r) /\
    (locks_up w r = false -> forall t tst, y = AToken t -> contract_at w t tst ->
       cw_total tst + sum_of (fun q => (deals_in w y (pc_route q) && negb (locks_up w (pc_route q)))%bool) l < 2 ^ 128).
Proof.
  intros D L S y D'. rewrite (deals_one _ _ _ _ D D'). split; [congruence|]. intros _ t tst E H. injection E as <-.
  destruct (read_at_some w t0 _ _ S) as (st & H1 & H2). rewrite (same_contract _ _ _ _ H H1). now apply N.ltb_lt.
Qed.
Lemma store_affordable : affordable store [p1; p2; p3].
Proof.
  intros p x [<- | [<- | [<- | []]]].
  - apply (afford_lock store _ (at_ 2) (ACoin (s "uosmo"))); vm_compute; reflexivity.
  - apply (afford_lock store _ (at_ 2) (ACoin (s "uosmo"))); vm_compute; reflexivity.
  - apply (afford_issue store _ (at_ 3) (at_ 4)); vm_compute; reflexivity.
Qed.
Lemma distinct_ids (a b c : bytes) : bytes_eqb b a = false -> bytes_eqb c a = false -> bytes_eqb c b = false -> NoDup [a; b; c].
Proof.
  intros H1 H2 H3. apply bytes_eqb_neq in H1, H2, H3.
  constructor; [intros [H | [H | []]]; congruence|]. constructor; [intros [H | []]; congruence|]. constructor; [intros [] | constructor].
Qed.
Definition stock (w : world) := (balance w alice (s "uosmo"), balance w relayer (s "uosmo"), balance w (at_ 2) (s "uosmo"), wealth w (AToken (at_ 4)) alice).
Example C97_example :
  reachable ex_chain store /\ Forall (due ex_chain 3 store (at_ 0)) [p1; p2; p3] /\ affordable store [p1; p2; p3] /\
  NoDup (map (fun p => keccak256_hash (pc_raw p)) [p1; p2; p3]) /\ Permutation [p1; p2; p3] [p3; p1; p2] /\
  stock store = (40, 0, 60, 0) /\
  match deliver_all ex_chain 5 (at_ 0) [p1; p2; p3] store, deliver_all ex_chain 5 (at_ 0) [p3; p1; p2] store with
  | Ok w1, Ok w2 => (stock w1, stock w2) = ((60, 35, 5, 7), (60, 35, 5, 7))
  | _, _ => False
  end.
Proof.
  split; [exists ex_bank, store_txs; split; [exact ex_bank_sorted | exact store_run]|].
  split; [constructor; [exact p1_due | constructor; [exact p2_due | constructor; [exact p3_due | constructor]]]|].
  split; [exact store_affordable|]. split; [cbn [map]; apply distinct_ids; vm_compute; reflexivity|].
  split; [apply Permutation_sym; apply (Permutation_cons_append [p1; p2] p3)|].
  split; [vm_compute; reflexivity|]. vm_compute. reflexivity.
Qed.

(** ** A route that holds too little pays those who come first *)
Theorem C97_scarce_refuted : exists C n k w mb p q a,
  chain_ok C /\ reachable C w /\ (n <= k)%nat /\ (4 <= k)%nat /\ Forall (due C n w mb) [p; q] /\
  NoDup (map (fun p => keccak256_hash (pc_raw p)) [p; q]) /\
  let run l := chain_run C w (map (fun p => (k, TExec (pc_relayer p) mb (MProcess (pc_metadata p) (pc_raw p)) [])) l) in
  wealth (run [p; q]) (ACoin (s "uosmo")) a <> wealth (run [q; p]) (ACoin (s "uosmo")) a.
Proof.
  exists ex_chain, 3%nat, 5%nat, store, (at_ 0), p2, p4, alice.
  split; [exact ex_chain_ok|]. split; [exists ex_bank, store_txs; split; [exact ex_bank_sorted | exact store_run]|]. split; [lia|]. split; [lia|].
  split; [constructor; [exact p2_due | constructor; [exact p4_due | constructor]]|].
  split; [cbn [map]; constructor; [intros [H | []]; revert H; apply bytes_eqb_neq; vm_compute; reflexivity | constructor; [intros [] | constructor]]|].
  vm_compute. discriminate.
Qed.
Print Assumptions C97_scarce_refuted.
