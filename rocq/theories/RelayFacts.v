(** * Who relays a message, and when, makes no difference: proofs. *)
From Coq Require Import List NArith Bool Lia.
From Verif Require Import Base BaseFacts OMap Crypto Coins Hex Merkle Json Message Chain Ownable Router Utils Mailbox Va
  Isms Hooks Igp Warp Cw20 Contracts StepFacts World WorldFacts Mocks MocksFacts WireCalls SpecRawWorld RawWorldFacts SpecWorld UpgradeFacts SpecRelay.
Import ListNotations.

Lemma matched_bind {U V U' V'} (R : U -> V -> Prop) (S : U' -> V' -> Prop) x y f g :
  matched R x y -> (forall a b, R a b -> matched S (f a) (g b)) -> matched S (bind x f) (bind y g).
Proof. intros H F. destruct x, y; cbn in *; try contradiction; auto. Qed.
Lemma matched_same {U U' V'} (S : U' -> V' -> Prop) (x : res U) f g :
  (forall a, x = Ok a -> matched S (f a) (g a)) -> matched S (bind x f) (bind x g).
Proof. intros F. destruct x; cbn; auto. Qed.
Lemma matched_refl {U} (R : U -> U -> Prop) (x : res U) : (forall a, R a a) -> matched R x x.
Proof. intros F. destruct x; cbn; auto. Qed.

Lemma alike_refl q : alike q q.
Proof. repeat split. Qed.

(** ** Mailboxes *)
Definition blanks (l : omap bytes delivery) : omap bytes delivery := map (fun p => (fst p, mkDelivery [] 0)) l.
Lemma blanks_get l k : om_get k (blanks l) = option_map (fun _ => mkDelivery [] 0) (om_get k l).
Proof. unfold blanks. exact (map_om_get (fun _ _ => mkDelivery [] 0) l k). Qed.
Lemma blanks_set l k v : blanks (om_set k v l) = om_set k (mkDelivery [] 0) (blanks l).
Proof. unfold blanks. exact (map_om_set (fun _ _ => mkDelivery [] 0) k v l). Qed.
Lemma blanks_known l1 l2 k : blanks l1 = blanks l2 ->
  (match om_get k l1 with Some _ => true | None => false end) = (match om_get k l2 with Some _ => true | None => false end).
Proof.
  intros E. pose proof (blanks_get l1 k) as G1. pose proof (blanks_get l2 k) as G2. rewrite E, G2 in G1.
  destruct (om_get k l1), (om_get k l2); try reflexivity; discriminate G1.
Qed.
Lemma known_unknown {U} (o1 o2 : option U) :
  (match o1 with Some _ => true | None => false end) = (match o2 with Some _ => true | None => false end) ->
  (match o1 with Some _ => false | None => true end) = (match o2 with Some _ => false | None => true end).
Proof. destruct o1, o2; congruence. Qed.

(** equal but for the records of deliveries *)
Lemma unsigned_inv x1 x2 : unsigned_mb x1 = unsigned_mb x2 ->
  exists o h d i k r n t l1 l2, x1 = mkMb o h d i k r n t l1 /\ x2 = mkMb o h d i k r n t l2 /\ blanks l1 = blanks l2.
Proof.
  destruct x1 as [o h d i k r n t l1], x2 as [o2 h2 d2 i2 k2 r2 n2 t2 l2].
  unfold unsigned_mb. cbn [mb_own mb_hrp mb_domain mb_ism mb_hook mb_required mb_nonce mb_latest mb_deliveries].
  intros E. injection E as -> -> -> -> -> -> -> -> E.
  exists o2, h2, d2, i2, k2, r2, n2, t2, l1, l2. split; [reflexivity|]. split; [reflexivity|exact E].
Qed.
Lemma unsigned_mk o h d i k r n t l1 l2 : blanks l1 = blanks l2 ->
  unsigned_mb (mkMb o h d i k r n t l1) = unsigned_mb (mkMb o h d i k r n t l2).
Proof.
  intros E. unfold unsigned_mb. cbn [mb_own mb_hrp mb_domain mb_ism mb_hook mb_required mb_nonce mb_latest mb_deliveries].
  unfold blanks in E. rewrite E. reflexivity.
Qed.

Lemma unsigned_cases st1 st2 : unsigned_state st1 = unsigned_state st2 ->
  (exists x1 x2, st1 = SMailbox x1 /\ st2 = SMailbox x2 /\ unsigned_mb x1 = unsigned_mb x2) \/
  (st1 = st2 /\ forall x, st1 <> SMailbox x).
Proof.
  intros E. destruct st1, st2; cbn [unsigned_state] in E; try discriminate E.
  1: { left. exists x, x0. split; [reflexivity|]. split; [reflexivity|].
       exact (f_equal (fun y => match y with SMailbox z => z | _ => unsigned_mb x end) E). }
  all: right; split; [exact E | intros y F; discriminate F].
Qed.

Lemma query_unsigned A q m st1 st2 : unsigned_state st1 = unsigned_state st2 -> c_query A q m st1 = c_query A q m st2.
Proof.
  intros E. apply unsigned_cases in E as [(x1 & x2 & -> & -> & E) | [-> _]]; [|reflexivity].
  apply unsigned_inv in E as (o & h & d & i & k & r & n & t & l1 & l2 & -> & -> & E).
  unfold c_query. destruct (qmsg_ok m); [|reflexivity]. cbn [ensure bind].
  destruct m; try reflexivity. cbn [mb_query mb_deliveries]. rewrite (blanks_known l1 l2 _ E). reflexivity.
Qed.

(** the states and the answer are the same, but for the records of deliveries *)
Definition like (p1 p2 : cstate * response) : Prop := unsigned_state (fst p1) = unsigned_state (fst p2) /\ snd p1 = snd p2.
Lemma like_refl p : like p p.
Proof. split; reflexivity. Qed.

Lemma mailbox_call A Q1 Q2 a h1 h2 i1 i2 m x1 x2 : unsigned_mb x1 = unsigned_mb x2 ->
  (forall y1 y2, unsigned_mb y1 = unsigned_mb y2 -> agree (Q1 y1) (Q2 y2)) -> i1 = i2 \/ relayable m = true ->
  matched (fun p q => unsigned_mb (fst p) = unsigned_mb (fst q) /\ snd p = snd q)
    (mb_execute A Q1 (mkEnv a h1) i1 m x1) (mb_execute A Q2 (mkEnv a h2) i2 m x2).
Proof.
  intros E AG I. pose proof (AG x1 x2 E) as AS.
  apply unsigned_inv in E as (o & h & d & i & k & r & n & t & l1 & l2 & -> & -> & E).
  destruct m; cbn [mb_execute]; try reflexivity;
    try (destruct I as [<-|I]; [|discriminate I]).
  - apply matched_same; intros o' _. split; [apply unsigned_mk, E | reflexivity].
  - unfold mb_set_default_ism. cbn [mb_nonce mb_domain mb_own mb_hrp mb_ism mb_hook mb_required mb_latest mb_deliveries].
    repeat (apply matched_same; intros). split; [apply unsigned_mk, E | reflexivity].
  - unfold mb_set_default_hook. cbn [mb_nonce mb_domain mb_own mb_hrp mb_ism mb_hook mb_required mb_latest mb_deliveries].
    repeat (apply matched_same; intros). split; [apply unsigned_mk, E | reflexivity].
  - unfold mb_set_required_hook. cbn [mb_nonce mb_domain mb_own mb_hrp mb_ism mb_hook mb_required mb_latest mb_deliveries].
    repeat (apply matched_same; intros). split; [apply unsigned_mk, E | reflexivity].
  - unfold mb_dispatch. cbn [mb_nonce mb_domain mb_own mb_hrp mb_ism mb_hook mb_required mb_latest mb_deliveries].
    repeat (first [rewrite (quote_agree _ _ AS) | apply matched_same; intros]). split; [apply unsigned_mk, E | reflexivity].
  - unfold mb_process. cbn [mb_nonce mb_domain mb_own mb_hrp mb_ism mb_hook mb_required mb_latest mb_deliveries].
    apply matched_same; intros msg _. apply matched_same; intros rc _. apply matched_same; intros _ _. apply matched_same; intros _ _.
    cbv zeta. rewrite (recipient_agree _ _ AS). apply matched_same; intros own _. apply matched_same; intros df _.
    rewrite (known_unknown _ _ (blanks_known l1 l2 (msg_id msg) E)). apply matched_same; intros _ _.
    match goal with |- matched _ (bind (ism_verify (Q1 ?y1) _ _ _) _) (bind (ism_verify (Q2 ?y2) _ _ _) _) =>
      assert (E' : unsigned_mb y1 = unsigned_mb y2) by (apply unsigned_mk; rewrite !blanks_set, E; reflexivity);
      rewrite (verify_agree _ _ (AG y1 y2 E')) end.
    apply matched_same; intros v _. apply matched_same; intros _ _. split; [exact E' | reflexivity].
Qed.

Lemma execute_unsigned A Q1 Q2 a h1 h2 i1 i2 m st1 st2 : unsigned_state st1 = unsigned_state st2 ->
  (forall y1 y2, unsigned_state y1 = unsigned_state y2 -> alike (Q1 y1) (Q2 y2)) -> i1 = i2 \/ relayable m = true ->
  matched like (c_execute A Q1 (mkEnv a h1) i1 m st1) (c_execute A Q2 (mkEnv a h2) i2 m st2).
Proof.
  intros E AG I. apply unsigned_cases in E as [(x1 & x2 & -> & -> & E) | [-> NM]].
  - unfold c_execute. apply matched_same; intros _ _. cbv zeta. unfold lift. eapply matched_bind.
    + apply mailbox_call; [exact E | | exact I]. intros y1 y2 Y. apply alike_agree, AG. cbn [unsigned_state]. rewrite Y. reflexivity.
    + intros [y1 r1] [y2 r2] [Y R]. cbn [fst snd] in *. split; [cbn [fst unsigned_state]; rewrite Y; reflexivity | exact R].
  - pose proof (alike_agree _ _ (AG st2 st2 eq_refl)) as AS.
    replace (c_execute A Q1 (mkEnv a h1) i1 m st2) with (c_execute A Q2 (mkEnv a h2) i2 m st2); [apply matched_refl, like_refl|].
    unfold c_execute. destruct (emsg_ok m) eqn:O; [|reflexivity]. cbn [ensure bind].
    destruct I as [<-|I].
    + destruct st2; try reflexivity; destruct m; try reflexivity; try (now destruct (NM x)); unfold lift; f_equal;
        cbn [mk_execute ah_execute fe_execute gp_execute]; symmetry.
      * unfold mk_post_dispatch. rewrite (smart_agree _ _ AS) by reflexivity. reflexivity.
      * unfold ah_post_dispatch. rewrite (agg_post_agree _ _ AS). reflexivity.
      * repeat (apply bind_agree; intros). cbn [e_contract]. rewrite (proj2 (proj2 AS)). reflexivity.
      * unfold gp_post_dispatch. apply bind_agree; intros m0 D. apply decoded_narrow in D as [_ D]. apply bind_agree; intros [g r] _.
        apply (pay_agree _ _ AS), D.
      * apply andb_true_iff in O as [O _]. apply (pay_agree _ _ AS), O.
      * unfold gp_claim. cbn [e_contract]. rewrite (proj1 (proj2 AS)). reflexivity.
    + destruct m; try discriminate I; destruct st2; try reflexivity; now destruct (NM x).
Qed.

Lemma instantiate_unsigned A q1 q2 a h1 h2 i m : alike q1 q2 ->
  c_instantiate A q1 (mkEnv a h1) i m = c_instantiate A q2 (mkEnv a h2) i m.
Proof.
  intros AG. rewrite (instantiate_agree _ _ (alike_agree _ _ AG)). unfold c_instantiate. destruct m; reflexivity.
Qed.
Lemma reply_unsigned A id rr st1 st2 : unsigned_state st1 = unsigned_state st2 ->
  matched like (c_reply A id rr st1) (c_reply A id rr st2).
Proof.
  intros E. apply unsigned_cases in E as [(x1 & x2 & -> & -> & E) | [-> _]]; [reflexivity | apply matched_refl, like_refl].
Qed.

(** ** The chain *)
Notation UI := (map (fun p => (fst p, unsigned_inst (snd p)))).
Lemma ui_get (l : omap addr inst) a : om_get a (UI l) = option_map unsigned_inst (om_get a l).
Proof. exact (map_om_get (fun _ x => unsigned_inst x) l a). Qed.
Lemma ui_set (l : omap addr inst) a x : UI (om_set a x l) = om_set a (unsigned_inst x) (UI l).
Proof. exact (map_om_set (fun _ x => unsigned_inst x) a x l). Qed.

Section Relay.
  Variable C : chain.
  Variable free : bool.
  Hypothesis HX : asks_only_at free (ch_ext C).
  Notation sbr := (same_but_relayers free).

  Lemma sbr_at w1 w2 a : sbr w1 w2 ->
    (om_get a (w_inst w1) = None /\ om_get a (w_inst w2) = None) \/
    (exists st, om_get a (w_inst w1) = Some (IX st) /\ om_get a (w_inst w2) = Some (IX st)) \/
    (exists st1 st2, om_get a (w_inst w1) = Some (IC st1) /\ om_get a (w_inst w2) = Some (IC st2) /\ unsigned_state st1 = unsigned_state st2).
  Proof.
    intros (E & _). pose proof (ui_get (w_inst w1) a) as G. rewrite E, ui_get in G.
    destruct (om_get a (w_inst w1)) as [[st1|st1]|], (om_get a (w_inst w2)) as [[st2|st2]|]; cbn [option_map unsigned_inst] in G; try discriminate G.
    - right. right. exists st1, st2. split; [reflexivity|]. split; [reflexivity|].
      symmetry. exact (f_equal (fun y => match y with Some (IC z) => z | _ => unsigned_state st1 end) G).
    - right. left. injection G as ->. eauto.
    - left. auto.
  Qed.
  Lemma sbr_set w1 w2 a x1 x2 : unsigned_inst x1 = unsigned_inst x2 -> sbr w1 w2 -> sbr (set_inst a x1 w1) (set_inst a x2 w2).
  Proof. intros X (E & S). split; [|exact S]. cbn [w_inst set_inst]. rewrite !ui_set, X, E. reflexivity. Qed.
  Lemma sbr_log w1 w2 x y : sbr w1 w2 -> sbr (add_log x w1) (add_log y w2).
  Proof. intros S. exact S. Qed.
  Lemma sbr_bank w1 w2 b : sbr w1 w2 -> sbr (set_bank b w1) (set_bank b w2).
  Proof. intros (S1 & _ & S). split; [exact S1|]. split; [reflexivity | exact S]. Qed.
  Lemma sbr_admin w1 w2 d a : sbr w1 w2 -> sbr (set_admin d a w1) (set_admin d a w2).
  Proof.
    intros (S1 & S2 & S3 & S). split; [exact S1|]. split; [exact S2|]. split; [cbn [w_admin set_admin]; rewrite S3; reflexivity | exact S].
  Qed.
  Lemma sbr_bump w1 w2 : sbr w1 w2 -> sbr (bump w1) (bump w2).
  Proof.
    intros (S1 & S2 & S3 & S4 & S5). repeat (split; [assumption|]). cbn [w_next bump]. rewrite S5. reflexivity.
  Qed.

  Lemma wq_alike n : forall w1 w2, sbr w1 w2 -> alike (wq C n w1) (wq C n w2).
  Proof.
    induction n as [|n IH]; intros w1 w2 S; pose proof S as (_ & S2 & _ & S4 & _);
    (split; [|split; [intros a d; cbn [wq q_balance]; unfold balance; rewrite S2; reflexivity
                     |intros a; cbn [wq q_all_balances]; unfold all_balances; rewrite S2; reflexivity]]).
    - reflexivity.
    - intros a m. cbn [wq q_smart]. destruct (sbr_at w1 w2 a S) as [[-> ->] | [(st & -> & ->) | (st1 & st2 & -> & -> & E)]].
      + reflexivity.
      + apply HX; [exact S4 | apply IH, S].
      + rewrite (query_unsigned _ _ _ _ _ E). apply query_agree, alike_agree, IH, S.
  Qed.

  Lemma sbr_move f t l w1 w2 : sbr w1 w2 -> matched sbr (move_coins f t l w1) (move_coins f t l w2).
  Proof.
    intros S. unfold move_coins. apply matched_same; intros _ _. rewrite (proj1 (proj2 S)). apply matched_same; intros b _.
    apply sbr_bank, S.
  Qed.

  Definition sbr_with {U} (p1 p2 : world * U) : Prop := sbr (fst p1) (fst p2) /\ snd p1 = snd p2.

  Section Step.
    Variable k : nat.
    Variable rec : addr -> list submsg -> world -> res world.
    Hypothesis HR : forall a l w1 w2, sbr w1 w2 -> matched sbr (rec a l w1) (rec a l w2).

    Lemma invoke_sbr s1 s2 a m f w1 w2 : sbr w1 w2 -> s1 = s2 \/ (relayable m = true /\ not_foreign w1 a) ->
      matched sbr (invoke C k rec s1 a m f w1) (invoke C k rec s2 a m f w2).
    Proof.
      intros S I. unfold invoke. cbv zeta. pose proof S as (_ & _ & _ & S4 & _).
      destruct (sbr_at w1 w2 a S) as [[-> ->] | [(st & E1 & E2) | (st1 & st2 & E1 & E2 & E)]].
      - reflexivity.
      - rewrite E1, E2. destruct I as [<- | [_ I]]; [|now destruct (I st)].
        rewrite ((proj1 HX) a (w_height w1) (w_height w2) _ _ _ _ _ S4 (wq_alike k w1 w2 S)). apply matched_same; intros [st' r] _.
        apply HR, sbr_log, sbr_set; [reflexivity | exact S].
      - rewrite E1, E2. eapply matched_bind.
        + apply execute_unsigned; [exact E | | destruct I as [<- | [I _]]; [left; reflexivity | right; exact I]].
          intros y1 y2 Y. apply wq_alike, sbr_set; [cbn [unsigned_inst]; rewrite Y; reflexivity | exact S].
        + intros [t1 r1] [t2 r2] [T R]. cbn [fst snd] in *. subst r2. apply HR, sbr_log, sbr_set; [cbn [unsigned_inst]; rewrite T; reflexivity | exact S].
    Qed.

    Lemma reply_sbr a id rr w1 w2 : sbr w1 w2 -> matched sbr (give_reply C k rec a id rr w1) (give_reply C k rec a id rr w2).
    Proof.
      intros S. unfold give_reply. pose proof S as (_ & _ & _ & S4 & _).
      destruct (sbr_at w1 w2 a S) as [[-> ->] | [(st & -> & ->) | (st1 & st2 & -> & -> & E)]].
      - reflexivity.
      - rewrite ((proj1 (proj2 HX)) a (w_height w1) (w_height w2) _ _ _ _ _ S4 (wq_alike k w1 w2 S)). apply matched_same; intros [st' r] _.
        apply HR, sbr_log, sbr_set; [reflexivity | exact S].
      - eapply matched_bind; [apply reply_unsigned, E|].
        intros [t1 r1] [t2 r2] [T R]. cbn [fst snd] in *. subst r2. apply HR, sbr_log, sbr_set; [cbn [unsigned_inst]; rewrite T; reflexivity | exact S].
    Qed.

    Lemma sbr_free_addr w1 w2 a : sbr w1 w2 ->
      match om_get a (w_inst w1) with Some _ => True | None => False end <-> match om_get a (w_inst w2) with Some _ => True | None => False end.
    Proof.
      intros S. destruct (sbr_at w1 w2 a S) as [[-> ->] | [(st & -> & ->) | (st1 & st2 & -> & -> & _)]]; tauto.
    Qed.

    Lemma deploy_sbr s m f w1 w2 : sbr w1 w2 -> matched sbr_with (deploy C k rec s m f w1) (deploy C k rec s m f w2).
    Proof.
      intros S. unfold deploy. cbv zeta. pose proof S as (_ & _ & _ & _ & S5). rewrite <- S5.
      destruct (sbr_at w1 w2 (ch_addr C (w_next w1)) S) as [[-> ->] | [(st & -> & ->) | (st1 & st2 & -> & -> & _)]]; [|reflexivity|reflexivity].
      eapply matched_bind; [apply sbr_move, sbr_bump, S|]. intros v1 v2 V.
      rewrite (instantiate_unsigned _ _ _ _ (w_height w1) (w_height w2) _ _ (wq_alike k v1 v2 V)).
      apply matched_same; intros [st r] _.
      eapply matched_bind; [apply HR, sbr_log, sbr_set; [reflexivity | exact V]|]. intros u1 u2 U. split; [exact U | reflexivity].
    Qed.

    Lemma perform_sbr s m w1 w2 : sbr w1 w2 -> matched sbr_with (perform C k rec s m w1) (perform C k rec s m w2).
    Proof.
      intros S0. unfold perform. cbv zeta. assert (S := sbr_log _ _ (LDo s m) (LDo s m) S0).
      set (v1 := add_log _ w1) in *. set (v2 := add_log _ w2) in *. clearbody v1 v2. clear S0.
      pose proof S as (_ & S2 & S3 & _ & _). rewrite <- S3, <- S2.
      destruct m; repeat (apply matched_same; intros ? _).
      - eapply matched_bind; [apply sbr_move, S|]. intros u1 u2 U. eapply matched_bind; [apply invoke_sbr; [exact U | left; reflexivity]|].
        intros t1 t2 T. split; [exact T | reflexivity].
      - eapply matched_bind; [apply sbr_move, S|]. intros u1 u2 U. split; [exact U | reflexivity].
      - destruct (om_get _ (w_admin v1)); [reflexivity|]. split; [apply sbr_admin, S | reflexivity].
      - destruct (om_get _ (w_admin v1)); [|reflexivity]. apply matched_same; intros ? _. split; [exact S | reflexivity].
      - destruct (om_get _ (w_admin v1)); [|reflexivity]. apply matched_same; intros ? _. split; [apply sbr_bank, S | reflexivity].
      - destruct (om_get _ (w_admin v1)); [|reflexivity]. apply matched_same; intros ? _. apply matched_same; intros b _.
        split; [apply sbr_bank, S | reflexivity].
      - eapply matched_bind; [apply deploy_sbr, S|]. intros [u1 a1] [u2 a2] [U A]. cbn [fst snd] in *. subst. split; [exact U | reflexivity].
    Qed.

    Lemma sub_sbr s x w1 w2 : sbr w1 w2 -> matched sbr (run_sub C k rec s x w1) (run_sub C k rec s x w2).
    Proof.
      intros S. unfold run_sub. pose proof (perform_sbr s (sm_msg x) w1 w2 S) as P.
      destruct (perform C k rec s (sm_msg x) w1) as [[v1 r1]|e|], (perform C k rec s (sm_msg x) w2) as [[v2 r2]|e'|];
        cbn [matched] in P; try contradiction.
      - destruct P as [V R]. cbn [fst snd] in *. subst r2. destruct (sm_reply x); try (now apply reply_sbr); exact V.
      - subst e'. destruct (sm_reply x); try (now apply reply_sbr); reflexivity.
      - destruct (sm_reply x); try (now apply reply_sbr); exact I.
    Qed.
  End Step.

  Lemma exec_sbr k : forall a l w1 w2, sbr w1 w2 -> matched sbr (exec C k a l w1) (exec C k a l w2).
  Proof.
    induction k as [|k IH]; intros a l w1 w2 S; [reflexivity|]. destruct l as [|x l]; [exact S|]. cbn [exec].
    eapply matched_bind; [apply (sub_sbr k (exec C k) IH), S|]. intros v1 v2 V. apply IH, V.
  Qed.

  (** any transaction, on chains that differ in relayers only *)
  Lemma tx_sbr k t w1 w2 : sbr w1 w2 -> (forall h, t = TBlock h -> w_height w1 = w_height w2) -> matched sbr (tx_run C k t w1) (tx_run C k t w2).
  Proof.
    intros S T. pose proof (exec_sbr k) as HR. destruct t as [s a m f|s to am|s m f|s st f|h]; cbn [tx_run].
    - apply matched_same; intros _ _. eapply matched_bind; [apply perform_sbr; [exact HR | exact S]|]. intros [u1 r1] [u2 r2] [U _]. exact U.
    - apply matched_same; intros _ _. eapply matched_bind; [apply perform_sbr; [exact HR | exact S]|]. intros [u1 r1] [u2 r2] [U _]. exact U.
    - apply matched_same; intros _ _. eapply matched_bind; [apply deploy_sbr; [exact HR | exact S]|]. intros [u1 r1] [u2 r2] [U _]. exact U.
    - apply matched_same; intros _ _. unfold deploy_ext. cbv zeta. pose proof S as (_ & _ & _ & _ & S5). rewrite <- S5.
      destruct (sbr_at w1 w2 (ch_addr C (w_next w1)) S) as [[-> ->] | [(st' & -> & ->) | (st1 & st2 & -> & -> & _)]]; [|reflexivity|reflexivity].
      eapply matched_bind; [apply sbr_move, sbr_bump, S|]. intros v1 v2 V. apply sbr_log, sbr_set; [reflexivity | exact V].
    - rewrite (T h eq_refl). apply matched_same; intros _ _. destruct S as (S1 & S2 & S3 & S4 & S5).
      split; [exact S1|]. split; [exact S2|]. split; [exact S3|]. split; [intros _; reflexivity | exact S5].
  Qed.

  (** the call of another relayer *)
  Lemma relay_sbr k u v a m w1 w2 : sbr w1 w2 -> relayable m = true -> ch_account C u = true -> ch_account C v = true -> not_foreign w1 a ->
    matched sbr (tx_run C k (TExec u a m []) w1) (tx_run C k (TExec v a m []) w2).
  Proof.
    intros S M U V N. cbn [tx_run]. rewrite U, V. cbn [ensure bind]. unfold perform. cbv zeta.
    change (move_coins u a [] (add_log (LDo u (CExec a m [])) w1)) with (Ok (set_bank (w_bank w1) (add_log (LDo u (CExec a m [])) w1))).
    change (move_coins v a [] (add_log (LDo v (CExec a m [])) w2)) with (Ok (set_bank (w_bank w2) (add_log (LDo v (CExec a m [])) w2))).
    cbn [bind]. apply (matched_bind sbr_with); [|intros [t1 r1] [t2 r2] H; exact (proj1 H)].
    eapply (matched_bind sbr); [|intros t1 t2 T; split; [exact T | reflexivity]].
    apply invoke_sbr; [intros b l v1 v2 W; apply exec_sbr, W | exact S | right; split; [exact M | exact N]].
  Qed.

  Lemma matched_step (t1 t2 : nat * tx) w1 w2 : sbr w1 w2 -> matched sbr (tx_run C (fst t1) (snd t1) w1) (tx_run C (fst t2) (snd t2) w2) ->
    sbr (tx_step C w1 t1) (tx_step C w2 t2).
  Proof.
    intros S M. unfold tx_step. destruct (tx_run C (fst t1) (snd t1) w1), (tx_run C (fst t2) (snd t2) w2); cbn [matched] in M; try contradiction; assumption.
  Qed.
  Lemma block_sbr w1 w2 k h : free = true -> sbr w1 w2 -> sbr (tx_step C w1 (k, TBlock h)) w2 /\ sbr w1 (tx_step C w2 (k, TBlock h)).
  Proof.
    intros F (S1 & S2 & S3 & S4 & S5). split; unfold tx_step; cbn [fst snd tx_run].
    - destruct (w_height w1 <=? h); cbn [ensure bind]; (split; [exact S1|]; split; [exact S2|]; split; [exact S3|]; split; [|exact S5]);
        unfold same_time; congruence.
    - destruct (w_height w2 <=? h); cbn [ensure bind]; (split; [exact S1|]; split; [exact S2|]; split; [exact S3|]; split; [|exact S5]);
        unfold same_time; congruence.
  Qed.
  Lemma step_sbr t w1 w2 : sbr w1 w2 -> sbr (tx_step C w1 t) (tx_step C w2 t).
  Proof.
    intros S. destruct t as [k t]. assert (D : free = true \/ free = false) by (destruct free; auto). destruct D as [F|F].
    - destruct t as [s a m f|s to am|s m f|s st f|h]; try (apply matched_step; [exact S|]; apply tx_sbr; [exact S | discriminate]).
      destruct (block_sbr w1 w2 k h F S) as [B _]. destruct (block_sbr _ w2 k h F B) as [_ B2]. exact B2.
    - apply matched_step; [exact S|]. apply tx_sbr; [exact S|]. intros h _. exact (proj1 (proj2 (proj2 (proj2 S))) F).
  Qed.

  Lemma retold_sbr w1 l1 l2 : retold C free w1 l1 l2 -> forall w2, sbr w1 w2 -> sbr (chain_run C w1 l1) (chain_run C w2 l2).
  Proof.
    induction 1 as [w|w t l1 l2 R IH|w k u v a m l1 l2 M U V N R IH|w k h l1 l2 F R IH|w k h l1 l2 F R IH]; intros w2 S.
    - exact S.
    - apply (IH (tx_step C w2 t)), step_sbr, S.
    - apply (IH (tx_step C w2 (k, TExec v a m []))). apply matched_step; [exact S|]. apply relay_sbr; assumption.
    - apply (IH (tx_step C w2 (k, TBlock h))). apply (block_sbr w w2 k h F S).
    - apply (IH w2). apply (block_sbr w w2 k h F S).
  Qed.
End Relay.

Lemma sbr_refl free w : same_but_relayers free w w.
Proof. repeat split. Qed.

Lemma asks_only_same X : asks_only X -> asks_only_at false X.
Proof.
  intros (H1 & H2 & H3). split; [|split]; intros a h1 h2; intros; match goal with E : same_time false h1 h2 |- _ => rewrite (E eq_refl) end; auto.
Qed.
Lemma mocks_timeless : asks_only_at true mock_ext.
Proof. split; [|split]; intros; reflexivity. Qed.

(** ** Races *)
Lemma contract_not_foreign C w l a st : contract_at w a st -> not_foreign (chain_run C w l) a.
Proof.
  intros H x E. destruct (kind_kept C w _ a st (chain_run_steps C l w) H) as (st' & H' & _). unfold contract_at in H'. rewrite E in H'. discriminate H'.
Qed.
Lemma contract_here w a st : contract_at w a st -> not_foreign w a.
Proof. intros H x E. unfold contract_at in H. rewrite E in H. discriminate H. Qed.
Lemma race_sbr C k u v a m st w : asks_only (ch_ext C) -> contract_at w a st -> relayable m = true ->
  ch_account C u = true -> ch_account C v = true ->
  same_but_relayers false (chain_run C w [(k, TExec u a m []); (k, TExec v a m [])]) (chain_run C w [(k, TExec v a m []); (k, TExec u a m [])]).
Proof.
  intros HX H M U V. apply (retold_sbr C false (asks_only_same _ HX) w); [|apply sbr_refl].
  apply rt_relayer; [exact M | exact U | exact V | exact (contract_not_foreign C w [] a st H)|].
  apply rt_relayer; [exact M | exact V | exact U | exact (contract_not_foreign C w [(k, TExec u a m [])] a st H)|]. apply rt_end.
Qed.
