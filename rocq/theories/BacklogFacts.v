(** * Many deliveries, one after the other: proofs. *)
From Coq Require Import List NArith Bool Lia Permutation.
From Verif Require Import Base BaseFacts OMap Crypto Coins Message Bech32 Chain Contracts StepFacts Spec SpecModules MailboxConfFacts World SpecWorld
  WorldFacts SpecBridge SpecLive WorldLive WorldRoute SpecStranger StrangerFacts SpecBacklog.
Import ListNotations.

(** ** Sums *)
Lemma sum_of_cons f p l : sum_of f (p :: l) = (if f p then pc_amount p else 0) + sum_of f l.
Proof. reflexivity. Qed.
Lemma sum_of_ext f g l : (forall p, In p l -> f p = g p) -> sum_of f l = sum_of g l.
Proof.
  induction l as [|p l IH]; intros H; [reflexivity|]. rewrite !sum_of_cons, (H p (or_introl eq_refl)), IH; [reflexivity|].
  intros q Hq. apply H. now right.
Qed.
Lemma sum_of_perm f l l' : Permutation l l' -> sum_of f l = sum_of f l'.
Proof. induction 1; rewrite ?sum_of_cons in *; try reflexivity; lia. Qed.
Lemma existsb_perm {X} (f : X -> bool) l l' : Permutation l l' -> existsb f l = existsb f l'.
Proof.
  induction 1 as [|x l l' P IH|x y l|l l1 l' P IH P' IH']; cbn [existsb]; try congruence.
  now rewrite !orb_assoc, (orb_comm (f y)).
Qed.

(** ** Assets *)
Lemma deals_in_iff w x r : deals_in w x r = true <-> exists st, contract_at w r st /\ asset_of st = Some x.
Proof.
  unfold deals_in, contract_at. split.
  - destruct (om_get r (w_inst w)) as [[st|b]|]; try discriminate. intros H. exists st. split; [reflexivity|].
    destruct (asset_of st) as [[d|t]|]; destruct x; try discriminate H; apply bytes_eqb_eq in H; now subst.
  - intros (st & -> & ->). destruct x; apply bytes_eqb_refl.
Qed.
Lemma holds_asset w st a n : holds w st a n -> exists x, asset_of st = Some x /\ n = wealth w x a /\
  forall b, holds w st b (wealth w x b).
Proof.
  intros (tk & Ht & [[K E] | [K (tst & Hc & Kt & E)]]).
  - destruct st; try contradiction K. exists (ACoin tk). cbn [asset_of]. rewrite Ht. split; [reflexivity|]. split; [exact E|].
    intros b. exists tk. split; [exact Ht|]. left. split; [exact I | reflexivity].
  - destruct st; try contradiction K. exists (AToken tk). cbn [asset_of wealth]. rewrite Ht. unfold contract_at in Hc. rewrite Hc.
    split; [reflexivity|]. split; [exact E|].
    intros b. exists tk. split; [exact Ht|]. right. split; [exact I|]. exists tst. split; [exact Hc|]. split; [exact Kt | reflexivity].
Qed.
Lemma asset_token st t : asset_of st = Some (AToken t) <-> is_warp_cw20 st /\ reported_token st = Some t.
Proof.
  split.
  - destruct st; cbn [asset_of]; try discriminate; destruct (reported_token _); try discriminate; intros H; injection H as <-.
    split; [exact I | reflexivity].
  - intros [K E]. destruct st; try contradiction K. cbn [asset_of]. now rewrite E.
Qed.
Lemma asset_coin st d : asset_of st = Some (ACoin d) <-> is_warp_native st /\ reported_token st = Some d.
Proof.
  split.
  - destruct st; cbn [asset_of]; try discriminate; destruct (reported_token _); try discriminate; intros H; injection H as <-.
    split; [exact I | reflexivity].
  - intros [K E]. destruct st; try contradiction K. cbn [asset_of]. now rewrite E.
Qed.
Lemma same_contract w a st st' : contract_at w a st -> contract_at w a st' -> st = st'.
Proof. unfold contract_at. congruence. Qed.

(** ** One delivery *)
Section Step.
  Variables (C : chain) (n k : nat) (w : world) (mb : addr) (p : parcel) (l : list parcel).
  Hypothesis HC : chain_ok C.
  Hypothesis Hr : reachable C w.
  Hypothesis Hdue : Forall (due C n w mb) (p :: l).
  Hypothesis Haff : affordable w (p :: l).
  Hypothesis Hids : NoDup (map (fun q => keccak256_hash (pc_raw q)) (p :: l)).
  Hypothesis Hn : (n <= k)%nat.
  Hypothesis H4 : (4 <= k)%nat.

  Lemma step_pays : exists w1 mbst mbst1 st x,
    tx_run C k (TExec (pc_relayer p) mb (MProcess (pc_metadata p) (pc_raw p)) []) w = Ok w1 /\
    contract_at w mb mbst /\ contract_at w1 mb mbst1 /\ is_mailbox mbst /\ is_mailbox mbst1 /\
    reported_delivered mbst1 (keccak256_hash (pc_raw p)) = Some true /\
    (forall A q m, m <> QDelivered (keccak256_hash (pc_raw p)) -> c_query A q m mbst1 = c_query A q m mbst) /\
    contract_at w (pc_route p) st /\ is_warp st /\ asset_of st = Some x /\ (forall b, holds w st b (wealth w x b)) /\
    paid_out w w1 mb (pc_route p) st (pc_to p) (pc_amount p).
  Proof.
    apply Forall_inv in Hdue. destruct Hdue as (mbst & st & m & Hm & Hmk & Hc & Hw & Hd & Hv & Hdom & Hh & Hnd & (y & Hy & Ha) & Hwd & H0 & Hval &
      Hacc & held & Hhold).
    destruct (holds_asset w st _ held Hhold) as (x & Ax & -> & Hall).
    assert (D : deliverable C n w mb (pc_route p) mbst st (pc_metadata p) (pc_raw p) m).
    { unfold deliverable. repeat (split; [assumption|]). exists y. split; [exact Hy|]. revert Ha. apply answers_weaker; [tauto | contradiction]. }
    assert (DX : deals_in w x (pc_route p) = true) by (apply deals_in_iff; exists st; auto).
    destruct (Haff p x (or_introl eq_refl) DX) as [A1 A2].
    assert (LK : locks_up w (pc_route p) = mode_eqb (reported_mode st) Collateral) by (unfold locks_up, contract_at in *; now rewrite Hc).
    destruct (mode_cases st Hw) as (Em & Eb & Ec).
    destruct (transfer_paid C n k w mb (pc_route p) mbst st (pc_metadata p) (pc_raw p) m (pc_to p) (pc_amount p) (pc_relayer p) _ HC Hr D Hw Hwd H0 Hval Hhold)
      as (w1 & T1 & T2 & T3); auto.
    { intros E. rewrite LK, E in A1. specialize (A1 eq_refl). rewrite sum_of_cons, bytes_eqb_refl in A1. lia. }
    { intros K E tk tst Ht Htk. rewrite LK, E in A2. specialize (A2 eq_refl tk tst).
      assert (X : x = AToken tk) by (apply Some_inj; rewrite <- Ax; apply asset_token; auto).
      specialize (A2 X Htk). rewrite sum_of_cons, DX, LK, E in A2. cbn [andb negb mode_eqb] in A2. lia. }
    destruct T2 as (_ & _ & mbst1 & M1 & M2 & M3 & M4).
    exists w1, mbst, mbst1, st, x. repeat (split; [first [assumption | exact (M4 _ Hm)]|]). exact T3.
  Qed.

  Lemma step_all : exists w1,
    tx_run C k (TExec (pc_relayer p) mb (MProcess (pc_metadata p) (pc_raw p)) []) w = Ok w1 /\
    Forall (due C n w1 mb) l /\ affordable w1 l /\ all_arrived w w1 mb [p] /\
    (forall x q, In q l -> deals_in w1 x (pc_route q) = deals_in w x (pc_route q) /\ locks_up w1 (pc_route q) = locks_up w (pc_route q)) /\
    exists mbst, contract_at w mb mbst.
  Proof.
    destruct step_pays as (w1 & mbst & mbst1 & st & x0 & T & Hm & Hm1 & Km & Km1 & Hd1 & Hq & Hc & Hw & Ax & Hall & P1 & P2 & P3 & P4).
    assert (LK : locks_up w (pc_route p) = mode_eqb (reported_mode st) Collateral) by (unfold locks_up, contract_at in *; now rewrite Hc).
    assert (DI : forall x, deals_in w x (pc_route p) = true <-> x = x0).
    { intros x. rewrite deals_in_iff. split; [|intros ->; exists st; auto].
      intros (st' & H1 & H2). rewrite <- (same_contract _ _ _ _ Hc H1) in H2. congruence. }
    (* a token contract is no mailbox *)
    assert (TK : forall tk, is_warp_cw20 st -> reported_token st = Some tk -> exists tst, contract_at w tk tst /\ is_cw20 tst).
    { intros tk K E. destruct (Hall (pc_route p)) as (tk' & E' & [[K' _] | [_ (tst & H1 & H2 & _)]]).
      - destruct st; try contradiction K; contradiction K'.
      - rewrite E in E'. injection E' as <-. eauto. }
    assert (Stay : forall (y : addr) yst, contract_at w y yst -> kind yst <> 0 -> kind yst <> 17 -> contract_at w1 y yst).
    { intros y yst Hy K0 K17. unfold contract_at. rewrite P4; [exact Hy | |].
      - intros ->. rewrite (same_contract _ _ _ _ Hy Hm) in K0. destruct mbst; try discriminate Km. now apply K0.
      - intros K E. destruct (TK y K E) as (tst & H1 & H2). rewrite (same_contract _ _ _ _ Hy H1) in K17.
        destruct tst; try contradiction H2. now apply K17. }
    assert (W : forall x a, wealth w1 x a
       + (if (deals_in w x (pc_route p) && locks_up w (pc_route p) && bytes_eqb (pc_route p) a)%bool then pc_amount p else 0)
       = wealth w x a + (if (deals_in w x (pc_route p) && bytes_eqb (pc_to p) a)%bool then pc_amount p else 0)).
    { intros x a. destruct (deals_in w x (pc_route p)) eqn:D; cbn [andb].
      - apply DI in D. subst x0. destruct (P1 a _ (Hall a)) as (n' & H1 & H2).
        destruct (holds_asset _ _ _ _ H1) as (x' & E1 & E2 & _). rewrite Ax in E1. injection E1 as <-. rewrite <- E2, LK.
        rewrite (bytes_eqb_sym (pc_route p)), (bytes_eqb_sym (pc_to p)). exact H2.
      - rewrite !N.add_0_r. assert (ND : x <> x0) by (intros E; apply DI in E; congruence).
        destruct x as [d|t]; cbn [wealth].
        + apply P2. destruct (warp_kinds st Hw) as [[K _] | [K _]]; [right | now left]. intros E. apply ND.
          apply Some_inj. rewrite <- Ax. symmetry. apply asset_coin. auto.
        + destruct (bytes_eqb t mb) eqn:Et.
          * apply bytes_eqb_eq in Et. subst t. unfold contract_at in Hm, Hm1. rewrite Hm, Hm1.
            destruct mbst; try discriminate Km. destruct mbst1; try discriminate Km1. reflexivity.
          * apply bytes_eqb_neq in Et. rewrite P4; [reflexivity | exact Et|]. intros K E. apply ND.
            apply Some_inj. rewrite <- Ax. symmetry. apply asset_token. auto. }
    assert (Tot : forall t tst, contract_at w t tst -> is_cw20 tst -> exists tst1, contract_at w1 t tst1 /\ is_cw20 tst1 /\
       cw_total tst1 = cw_total tst + (if (deals_in w (AToken t) (pc_route p) && negb (locks_up w (pc_route p)))%bool then pc_amount p else 0)).
    { intros t tst Ht Kt. destruct (deals_in w (AToken t) (pc_route p)) eqn:D; cbn [andb].
      - apply DI in D. subst x0. apply asset_token in Ax as [K E]. destruct (P3 K t tst E Ht) as (tst1 & H1 & H2).
        exists tst1. split; [exact H1|]. split.
        + destruct (P1 (pc_route p) _ (Hall (pc_route p))) as (n' & (tk' & E' & [[K' _] | [_ (tst' & H3 & H5 & _)]]) & _).
          * destruct st; try contradiction K; contradiction K'.
          * rewrite E in E'. injection E' as <-. now rewrite (same_contract _ _ _ _ H1 H3).
        + rewrite LK. destruct (mode_eqb (reported_mode st) Collateral); exact H2.
      - exists tst. split; [|split; [exact Kt | now rewrite N.add_0_r]]. unfold contract_at. rewrite P4; [exact Ht| |].
        + intros ->. rewrite (same_contract _ _ _ _ Ht Hm) in Kt. destruct mbst; try discriminate Km. contradiction Kt.
        + intros K E. assert (X : AToken t = x0) by (apply Some_inj; rewrite <- Ax; symmetry; apply asset_token; auto).
          apply DI in X. congruence. }
    assert (Dl : forall q, In q l -> due C n w mb q) by (intros q Hin; rewrite Forall_forall in Hdue; apply Hdue; now right).
    assert (Same : forall x q, In q l -> deals_in w1 x (pc_route q) = deals_in w x (pc_route q) /\ locks_up w1 (pc_route q) = locks_up w (pc_route q)).
    { intros x q Hin. destruct (Dl q Hin) as (_ & qst & _ & _ & _ & Hqc & Hqw & _).
      assert (Hqc1 : contract_at w1 (pc_route q) qst) by (apply Stay; [exact Hqc | destruct qst; try contradiction Hqw; discriminate ..]).
      unfold deals_in, locks_up, contract_at in *. now rewrite Hqc, Hqc1. }
    assert (Dn : forall id, reported_delivered mbst1 id = if bytes_eqb (keccak256_hash (pc_raw p)) id then Some true else reported_delivered mbst id).
    { intros id. destruct (bytes_eqb (keccak256_hash (pc_raw p)) id) eqn:E.
      - apply bytes_eqb_eq in E. subst id. exact Hd1.
      - unfold reported_delivered. rewrite Hq; [reflexivity|]. intros X. injection X as ->. now rewrite bytes_eqb_refl in E. }
    exists w1. split; [exact T|]. split; [|split; [|split; [|split; [exact Same | now exists mbst]]]].
    - apply Forall_forall. intros q Hin.
      destruct (Dl q Hin) as (mbst' & qst & m & Qm & _ & Qc & Qw & Qd & Qv & Qdom & Qh & Qnd & (y & (o & d & Qo & Qdf & Qy) & Qa) & Qwd & Q0 & Qval & Qacc & held & Qhold).
      rewrite <- (same_contract _ _ _ _ Hm Qm) in *. clear mbst' Qm.
      exists mbst1, qst, m. split; [exact Hm1|]. split; [exact Km1|].
      split; [apply Stay; [exact Qc | destruct qst; try contradiction Qw; discriminate ..]|].
      split; [exact Qw|]. split; [exact Qd|]. split; [exact Qv|].
      split; [unfold reported_domain in *; rewrite Hq by discriminate; exact Qdom|].
      split; [destruct Qh as (hrp & Q1 & Q2); exists hrp; split; [unfold reported_hrp in *; rewrite Hq by discriminate; exact Q1 | exact Q2]|].
      split.
      { rewrite Dn. destruct (bytes_eqb (keccak256_hash (pc_raw p)) (keccak256_hash (pc_raw q))) eqn:E; [|exact Qnd].
        exfalso. apply bytes_eqb_eq in E. cbn [map] in Hids. apply NoDup_cons_iff in Hids as [N1 _]. apply N1. rewrite E.
        exact (in_map (fun q => keccak256_hash (pc_raw q)) l q Hin). }
      split.
      { exists y. split.
        - exists o, d. split; [exact Qo|]. split; [unfold reported_default_ism in *; rewrite Hq by discriminate; exact Qdf | exact Qy].
        - revert Qa. apply answers_weaker; [exact Stay | contradiction]. }
      split; [exact Qwd|]. split; [exact Q0|]. split; [exact Qval|]. split; [exact Qacc|].
      destruct Qhold as (tk & Qt & [[K _] | [K (tst & H1 & H2 & _)]]).
      + exists (balance w1 (pc_route q) tk), tk. split; [exact Qt|]. left. auto.
      + destruct (Tot tk tst H1 H2) as (tst1 & H5 & H6 & _). exists (cw_holding tst1 (pc_route q)), tk. split; [exact Qt|]. right.
        split; [exact K|]. exists tst1. auto.
    - intros q x Hin D. destruct (Same x q Hin) as [S1 S2]. rewrite S1 in D. rewrite S2.
      destruct (Haff q x (or_intror Hin) D) as [A1 A2]. split.
      + intros L. specialize (A1 L). rewrite sum_of_cons in A1. specialize (W x (pc_route q)).
        destruct (bytes_eqb (pc_route p) (pc_route q)).
        * rewrite andb_true_r in W. destruct (_ && _)%bool, (_ && _)%bool in W; lia.
        * rewrite andb_false_r in W. destruct (_ && _)%bool in W; lia.
      + intros L t tst1 -> Ht1. assert (E : exists tst, contract_at w t tst /\ is_cw20 tst).
        { destruct (Dl q Hin) as (_ & qst & _ & _ & _ & Qc & _ & _ & _ & _ & _ & _ & _ & _ & _ & _ & _ & held & Qhold).
          apply deals_in_iff in D as (qst' & Qc' & Qx). rewrite <- (same_contract _ _ _ _ Qc Qc') in Qx.
          apply asset_token in Qx as [K E]. destruct Qhold as (tk & Qt & [[K' _] | [_ (tst & H1 & H2 & _)]]).
          - destruct qst; try contradiction K; contradiction K'.
          - rewrite E in Qt. injection Qt as <-. eauto. }
        destruct E as (tst & Ht & Kt). specialize (A2 L t tst eq_refl Ht). destruct (Tot t tst Ht Kt) as (tst' & H1 & _ & H2).
        rewrite (same_contract _ _ _ _ Ht1 H1), H2. rewrite sum_of_cons in A2.
        rewrite (sum_of_ext _ (fun q => (deals_in w (AToken t) (pc_route q) && negb (locks_up w (pc_route q)))%bool)); [lia|].
        intros q' Hq'. destruct (Same (AToken t) q' Hq') as [-> ->]. reflexivity.
    - split; [|split].
      + intros x a. rewrite !sum_of_cons. cbn [sum_of fold_right]. rewrite !N.add_0_r. apply W.
      + intros mbst' Hm'. rewrite <- (same_contract _ _ _ _ Hm Hm'). exists mbst1. split; [exact Hm1|]. split.
        * intros id. cbn [existsb]. rewrite orb_false_r. apply Dn.
        * intros A q m X. apply Hq, X.
      + intros y Hy E. cbn [existsb] in E. rewrite orb_false_r in E. apply P4; [exact Hy|]. intros K Et.
        assert (X : AToken y = x0) by (apply Some_inj; rewrite <- Ax; symmetry; apply asset_token; auto). apply DI in X. congruence.
  Qed.
End Step.

(** ** All deliveries *)
Lemma arrived_both w w1 w2 mb p l :
  all_arrived w w1 mb [p] -> all_arrived w1 w2 mb l ->
  (forall x q, In q l -> deals_in w1 x (pc_route q) = deals_in w x (pc_route q) /\ locks_up w1 (pc_route q) = locks_up w (pc_route q)) ->
  all_arrived w w2 mb (p :: l).
Proof.
  intros (A1 & A2 & A3) (B1 & B2 & B3) S. split; [|split].
  - intros x a. specialize (A1 x a). specialize (B1 x a). rewrite !sum_of_cons in *. cbn [sum_of fold_right] in A1. rewrite !N.add_0_r in A1.
    rewrite (sum_of_ext _ (fun p => (deals_in w x (pc_route p) && locks_up w (pc_route p) && bytes_eqb (pc_route p) a)%bool)) in B1.
    2: { intros q Hq. destruct (S x q Hq) as [-> ->]. reflexivity. }
    rewrite (sum_of_ext (fun p => (deals_in w1 x (pc_route p) && bytes_eqb (pc_to p) a)%bool) (fun p => (deals_in w x (pc_route p) && bytes_eqb (pc_to p) a)%bool)) in B1.
    2: { intros q Hq. destruct (S x q Hq) as [-> _]. reflexivity. }
    lia.
  - intros mbst Hm. destruct (A2 mbst Hm) as (m1 & M1 & M2 & M3). destruct (B2 m1 M1) as (m2 & N1 & N2 & N3).
    exists m2. split; [exact N1|]. split.
    + intros id. rewrite N2, M2. cbn [existsb]. rewrite orb_false_r. destruct (bytes_eqb _ id); cbn [orb]; [now destruct (existsb _ l) | reflexivity].
    + intros A q m X. rewrite N3, M3; auto.
  - intros y Hy E. cbn [existsb] in E. apply orb_false_iff in E as [E1 E2]. rewrite B3, A3; auto.
    + cbn [existsb]. now rewrite E1.
    + rewrite <- E2. clear - S. induction l as [|q l IH]; [reflexivity|]. cbn [existsb].
      rewrite (proj1 (S (AToken y) q (or_introl eq_refl))), IH; [reflexivity|]. intros x q' H. apply S. now right.
Qed.
Lemma backlog_arrives C n k mb l : chain_ok C -> (n <= k)%nat -> (4 <= k)%nat -> forall w,
  reachable C w -> Forall (due C n w mb) l -> affordable w l -> NoDup (map (fun q => keccak256_hash (pc_raw q)) l) ->
  exists w', deliver_all C k mb l w = Ok w' /\ all_arrived w w' mb l.
Proof.
  intros HC Hn H4. induction l as [|p l IH]; intros w Hr Hd Ha Hi.
  - exists w. split; [reflexivity|]. split; [intros x a; reflexivity|]. split; [|reflexivity].
    intros mbst Hm. exists mbst. split; [exact Hm|]. split; reflexivity.
  - destruct (step_all C n k w mb p l HC Hr Hd Ha Hi Hn H4) as (w1 & T & D1 & A1 & R1 & S & _).
    assert (Hr1 : reachable C w1).
    { replace w1 with (chain_run C w [(k, TExec (pc_relayer p) mb (MProcess (pc_metadata p) (pc_raw p)) [])]); [now apply reachable_later|].
      unfold chain_run. cbn [fold_left]. unfold tx_step. cbn [fst snd]. now rewrite T. }
    destruct (IH w1 Hr1 D1 A1) as (w' & E & R2); [cbn [map] in Hi; now apply NoDup_cons_iff in Hi|].
    exists w'. cbn [deliver_all]. rewrite T. cbn [bind]. split; [exact E|]. exact (arrived_both _ _ _ _ _ _ R1 R2 S).
Qed.

Lemma any_order C n k mb l l' w : chain_ok C -> (n <= k)%nat -> (4 <= k)%nat ->
  reachable C w -> Forall (due C n w mb) l -> affordable w l -> NoDup (map (fun q => keccak256_hash (pc_raw q)) l) -> Permutation l l' ->
  exists w1 w2, deliver_all C k mb l w = Ok w1 /\ deliver_all C k mb l' w = Ok w2 /\
    (forall x a, wealth w1 x a = wealth w2 x a) /\
    (forall mbst1 mbst2 id, contract_at w1 mb mbst1 -> contract_at w2 mb mbst2 ->
       reported_delivered mbst1 id = reported_delivered mbst2 id) /\
    (forall y : addr, y <> mb -> existsb (fun p => deals_in w (AToken y) (pc_route p)) l = false ->
       om_get y (w_inst w1) = om_get y (w_inst w2)).
Proof.
  intros HC Hn H4 Hr Hd Ha Hi P.
  destruct (backlog_arrives C n k mb l HC Hn H4 w Hr Hd Ha Hi) as (w1 & E1 & A1 & A2 & A3).
  destruct (backlog_arrives C n k mb l' HC Hn H4 w Hr) as (w2 & E2 & B1 & B2 & B3).
  { rewrite Forall_forall in *. intros q Hq. apply Hd. apply Permutation_in with (l := l'); [now apply Permutation_sym | exact Hq]. }
  { intros q x Hq D. rewrite <- !(sum_of_perm _ l l' P). apply Ha; [|exact D].
    apply Permutation_in with (l := l'); [now apply Permutation_sym | exact Hq]. }
  { eapply Permutation_NoDup; [|exact Hi]. now apply Permutation_map. }
  exists w1, w2. split; [exact E1|]. split; [exact E2|]. split; [|split].
  - intros x a. specialize (A1 x a). specialize (B1 x a). rewrite <- !(sum_of_perm _ l l' P) in B1. lia.
  - intros m1 m2 id H1 H2. assert (M : exists mbst, contract_at w mb mbst).
    { destruct l as [|p l]; [injection E1 as <-; eauto|]. apply Forall_inv in Hd as (mbst & _ & _ & H & _). eauto. }
    destruct M as (mbst & M). destruct (A2 mbst M) as (m1' & C1 & D1 & _). destruct (B2 mbst M) as (m2' & C2 & D2 & _).
    rewrite (same_contract _ _ _ _ H1 C1), (same_contract _ _ _ _ H2 C2), D1, D2, (existsb_perm _ l l' P). reflexivity.
  - intros y Hy E. rewrite A3, B3; auto. now rewrite <- (existsb_perm _ l l' P).
Qed.
