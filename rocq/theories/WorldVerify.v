(** * Deliveries on a chain are vouched for. *)
From Coq Require Import List NArith Bool Lia Permutation Relation_Operators Operators_Properties.
From Verif Require Import Base BaseFacts OMap Crypto Bech32 Message CodecFacts Coins CoinsFacts Chain Ownable Router
  Mailbox Va Isms Hooks Igp Warp Cw20 Contracts Spec SpecModules StepFacts AccessFacts MailboxConfFacts MailboxFacts
  IsmFacts HookFacts WarpFacts World SpecWorld WorldFacts WorldMailbox WorldMerkle SpecBridge WorldWarp WorldToken SpecVerify.
Import ListNotations.

(** ** One query *)
Definition is_ism (st : cstate) : Prop :=
  match st with SMultisig _ | SAggIsm _ | SRoutingIsm _ | SPausableIsm _ => True | _ => False end.

Lemma verify_is_ism A q md raw st : c_query A q (QVerify md raw) st = Ok (RVerified true) -> is_ism st.
Proof.
  intros H. destruct st; try exact I; exfalso; unfold c_query in H;
    cbn [qmsg_ok ensure bind mb_query va_query mk_query ah_query ph_query rh_query] in H; try discriminate H.
Qed.

Lemma verify_vouched C w (S : addr -> cstate -> Prop) (E : addr -> Prop) :
  (forall y st, contract_at w y st -> is_ism st -> S y st) ->
  (forall y st, om_get y (w_inst w) = Some (IX st) -> E y) ->
  (forall y st d vs t, S y st -> is_multisig st -> reported_enrolled st d = Some (vs, t) -> 0 < t) ->
  forall k x md raw, q_smart (wq C k w) x (QVerify md raw) = Ok (RVerified true) -> vouched (ch_api C) S E x md raw.
Proof.
  intros HS HE HT. induction k as [| k IH]; intros x md raw H; cbn [wq q_smart] in H; [discriminate H |].
  destruct (om_get x (w_inst w)) as [[st | st] |] eqn:G; [| | discriminate H].
  - pose proof (verify_is_ism _ _ _ _ _ H) as Hi. pose proof (HS x st G Hi) as Hs.
    destruct st as [ | |y|y|y|y| | | | | | | | | | | |]; try contradiction Hi.
    + destruct (multisig_sound _ _ _ _ (SMultisig y) I H) as (m & tree & root & index & sigs & vs & t & signers & H1 & H2 & H3 & H4 & H5 & H6).
      eapply vouched_multisig; eauto.
    + destruct (N.eq_dec (ag_threshold y) 0) as [Z | Z].
      * eapply (vouched_aggregate _ _ _ x (SAggIsm y) md raw _ _ []); [exact Hs | reflexivity | constructor | now rewrite Z | intros ? []].
      * assert (Z' : 0 < ag_threshold y) by lia.
        destruct (aggregate_sound _ _ _ _ (SAggIsm y) (ag_isms y) (ag_threshold y) eq_refl Z' H) as (ok & H1 & H2 & H3).
        eapply vouched_aggregate; [exact Hs | reflexivity | exact H1 | exact H2 |].
        rewrite Forall_forall in H3. intros z Hz. destruct (H3 z Hz) as (n & md' & G1 & G2 & G3). exists n, md'. auto.
    + apply (routing_verdict _ _ _ _ (SRoutingIsm y) true I) in H as (a & H1 & H2).
      eapply vouched_routing; [exact Hs | exact I | exact H1 |]. exact (IH _ _ _ H2).
    + eapply vouched_pausable; [exact Hs | exact I |].
      rewrite (pausable_ism _ _ _ _ (SPausableIsm y) (pi_paused y) I eq_refl) in H.
      destruct (pi_paused y) eqn:P; [discriminate H |]. cbn. now rewrite P.
  - eapply vouched_outside. exact (HE _ _ G).
Qed.

(** ** The moment of a call *)
Lemma snoc_split {X} (l l1 l2 : list X) x y : l ++ [x] = l1 ++ y :: l2 ->
  (l2 = [] /\ x = y /\ l = l1) \/ (exists l2', l2 = l2' ++ [x] /\ l = l1 ++ y :: l2').
Proof.
  intros H. destruct (exists_last (l := y :: l2)) as (l3 & z & E); [discriminate |]. rewrite E in H.
  rewrite app_assoc in H. apply app_inj_tail in H as [H ->].
  destruct l3 as [| y' l3].
  - left. injection E as -> ->. rewrite app_nil_r in H. auto.
  - right. injection E as -> ->. exists l3. auto.
Qed.

Definition moment (C : chain) (bank : omap (addr * str) N) (w : world) (l1 : list entry) (a : addr) (e : env) (i : info)
    (m : emsg) (Q : cstate -> querier) (r : response) : Prop :=
  exists w0 w1 k caller f,
    asteps C (genesis bank) w0 /\ asteps C w0 w /\ w_log w1 = l1 /\ l1 = w_log w0 ++ [LDo caller (CExec a m f)] /\
    w_inst w1 = w_inst w0 /\
    ((exists st st', contract_at w1 a st /\ Q = (fun s => wq C k (set_inst a (IC s) w1)) /\
        c_execute (ch_api C) Q e i m st = Ok (st', r)) \/
     (exists st, om_get a (w_inst w1) = Some (IX st))).

Lemma moment_later C bank w w' l1 a e i m Q r :
  asteps C w w' -> moment C bank w l1 a e i m Q r -> moment C bank w' l1 a e i m Q r.
Proof.
  intros H (w0 & w1 & k & c & f & H1 & H2 & H3). exists w0, w1, k, c, f. split; [exact H1 |].
  split; [exact (asteps_trans _ _ _ _ H2 H) | exact H3].
Qed.

Lemma call_moment C bank w : asteps C (genesis bank) w ->
  forall l1 a e i m Q r l2, w_log w = l1 ++ LCall a (EvExec e i m Q) r :: l2 -> moment C bank w l1 a e i m Q r.
Proof.
  intros H. apply clos_rt_rtn1 in H. induction H as [| u v Hs H IH].
  { intros l1 a e i m Q r l2 E. destruct l1; discriminate E. }
  apply clos_rtn1_rt in H. change (clos_refl_trans world (astep C)) with (asteps C) in H.
  intros l1 a e i m Q r l2 L.
  assert (G : forall l2', w_log u = l1 ++ LCall a (EvExec e i m Q) r :: l2' -> moment C bank v l1 a e i m Q r).
  { intros l2' E. apply (moment_later C bank u v); [now apply asteps_one | exact (IH _ _ _ _ _ _ _ _ E)]. }
  pose proof Hs as Hs'.
  destruct Hs; subst;
    repeat match goal with
    | M : move_coins _ _ _ _ = Ok _ |- _ =>
        apply move_coins_same in M as (M & ML & _); cbn [w_inst w_log add_log bump] in M, ML
    end; cbn [w_log w_inst add_log bump set_inst set_admin set_bank set_height] in L.
  all: try (apply snoc_split in L as [(-> & X & L) | (l2' & -> & L)]; [try discriminate X |]).
  all: try rewrite ML in L; cbn [w_log add_log] in L.
  all: try (apply snoc_split in L as [(-> & X' & L) | (l2'' & -> & L)]; [try discriminate X' |]).
  all: try (exact (G _ L)).
  - injection X as <- <- <- <- <- <-. exists w, w1, k, caller, f. split; [exact H |]. split; [now apply asteps_one |].
    split; [congruence |]. split; [congruence |]. split; [assumption |]. left. eauto 10.
  - injection X as <- <- <- <- <- <-. exists w, w1, k, caller, f. split; [exact H |]. split; [now apply asteps_one |].
    split; [congruence |]. split; [congruence |]. split; [assumption |]. right. eauto.
Qed.

Lemma as_of_here C bank w0 w1 l1 c m y st :
  asteps C (genesis bank) w0 -> l1 = w_log w0 ++ [LDo c m] -> w_inst w1 = w_inst w0 ->
  as_of C l1 y st <-> contract_at w1 y st.
Proof.
  intros H -> Hi. pose proof (known_asteps C bank w0 y H) as K. unfold known in K.
  unfold as_of, events_at, contract_at. destruct (quiet_do y (w_log w0) c m) as [-> ->]. rewrite Hi.
  destruct (om_get y (w_inst w0)) as [[st1 | st1] |].
  - destruct K as (e & i & q & im & r & st0 & B & _ & I1 & L). pose proof (lives_run _ _ _ _ L) as R. split.
    + intros (e' & i' & q' & m' & r' & st0' & B' & I2 & ->). rewrite B in B'. injection B' as <- <- <- <- <-.
      rewrite I1 in I2. injection I2 as <-. now rewrite R.
    + intros E. injection E as <-. exists e, i, q, im, r, st0. auto.
  - rewrite K. split; [intros (e & i & q & im & r & st0 & B & _); discriminate B | discriminate].
  - destruct K as [-> _]. split; [intros (e & i & q & im & r & st0 & B & _); discriminate B | discriminate].
Qed.
Lemma outside_here C bank w0 w1 l1 c m y st :
  asteps C (genesis bank) w0 -> l1 = w_log w0 ++ [LDo c m] -> w_inst w1 = w_inst w0 ->
  om_get y (w_inst w1) = Some (IX st) -> outside l1 y.
Proof.
  intros H -> Hi G. pose proof (known_asteps C bank w0 y H) as K. unfold known in K.
  unfold outside. destruct (quiet_do y (w_log w0) c m) as [-> _]. rewrite Hi in G. rewrite G in K. exact K.
Qed.

Lemma multisig_message A q e i m st r : c_instantiate A q e i m = Ok (st, r) -> is_multisig st -> exists owner, m = IMultisig owner.
Proof.
  intros H Hk. unfold c_instantiate, lift in H. destruct m; inv_all; try contradiction Hk. eauto.
Qed.
Lemma as_of_positive C l y st d vs t : as_of C l y st -> is_multisig st -> reported_enrolled st d = Some (vs, t) -> 0 < t.
Proof.
  intros (e & i & q & m & r & st0 & _ & I1 & ->) Hk He.
  assert (Hk0 : is_multisig st0).
  { pose proof (run_kind (ch_api C) st0 (events_at y l)) as K. clear He.
    destruct (c_run (ch_api C) st0 (events_at y l)); try contradiction Hk. destruct st0; try discriminate K. exact I. }
  destruct (multisig_message _ _ _ _ _ _ _ I1 Hk0) as (owner & ->).
  assert (Hd : d < 2 ^ 32).
  { clear - He. unfold reported_enrolled, c_query in He. cbn [qmsg_ok] in He.
    destruct (u32_ok d) eqn:E; [| discriminate He]. now apply N.ltb_lt in E. }
  destruct (validator_sets_ok _ _ _ _ _ _ _ _ d vs t I1 Hd He) as (_ & X & _). exact X.
Qed.

Lemma set_inst_same w (a : addr) x (y : addr) : om_get a (w_inst w) = Some x ->
  om_get y (w_inst (set_inst a x w)) = om_get y (w_inst w).
Proof.
  intros H. cbn [w_inst set_inst]. rewrite om_get_set. destruct (keqb y a) eqn:E; [| reflexivity].
  apply keqb_eq in E. now rewrite E.
Qed.

Lemma processed_vouched C w mb mbst e i md raw Q r :
  reachable C w -> contract_at w mb mbst -> is_mailbox mbst ->
  In (EvExec e i (MProcess md raw) Q, r) (answers_at mb (w_log w)) ->
  exists pre post st1 hrp m rcp o dflt,
    w_log w = pre ++ LCall mb (EvExec e i (MProcess md raw) Q) r :: post /\
    as_of C pre mb st1 /\ reported_hrp st1 = Some hrp /\ reported_domain st1 = Some (m_dest m) /\
    msg_decode raw = Ok m /\ m_version m = 3 /\ bech32_encode hrp (m_recipient m) = Ok rcp /\
    (outside (w_log w) rcp \/ exists st, as_of C pre rcp st /\ reported_conn st QConnIsm = Some o) /\
    reported_default_ism st1 = Some dflt /\
    reported_delivered st1 (keccak256_hash raw) = Some false /\
    vouched (ch_api C) (as_of C pre) (outside pre) (match o with Some x => x | None => dflt end) md raw.
Proof.
  intros Hr Hc Hm Hin. apply reply_in_log in Hin. apply in_split in Hin as (pre & post & L).
  apply reachable_steps in Hr as (bank & _ & Hr).
  destruct (call_moment C bank w Hr _ _ _ _ _ _ _ _ L) as (w0 & w1 & k & c & f & S0 & S1 & L1 & L1' & I1 & K).
  destruct K as [(st & st' & Hst & EQ & Hx) | (st & Hx)].
  2: { exfalso. rewrite I1 in Hx. destruct (asteps_kind C w0 w mb _ S1 Hx) as (y & Hy & SK).
       unfold contract_at in Hc. rewrite Hc in Hy. injection Hy as <-. exact SK. }
  assert (Hms : is_mailbox st).
  { destruct (asteps_kind C w0 w mb (IC st) S1) as (y & Hy & SK); [now rewrite <- I1 |].
    unfold contract_at in Hc. rewrite Hc in Hy. injection Hy as <-. unfold is_mailbox in *. cbn in SK. congruence. }
  assert (Hh : exists hrp dom, reported_hrp st = Some hrp /\ reported_domain st = Some dom).
  { destruct st; try discriminate Hms. eexists _, _. split; reflexivity. }
  destruct Hh as (hrp & dom & Hh & Hd).
  destruct (process_effect _ _ _ _ _ _ _ _ _ _ _ Hh Hd Hx)
    as (m & rcp & o & dflt & P1 & P2 & P3 & P4 & P5 & P6 & P7 & P8 & P9 & _).
  assert (AS : forall y st, as_of C pre y st <-> contract_at w1 y st)
    by (intros; exact (as_of_here C bank w0 w1 pre c _ _ _ S0 L1' I1)).
  assert (OS : forall y st, om_get y (w_inst w1) = Some (IX st) -> outside pre y)
    by (intros y s0; exact (outside_here C bank w0 w1 pre c _ _ _ S0 L1' I1)).
  exists pre, post, st, hrp, m, rcp, o, dflt.
  split; [exact L |]. split; [now apply AS |]. split; [exact Hh |]. split; [now rewrite P3 |]. split; [exact P1 |].
  split; [exact P2 |]. split; [exact P4 |]. split; [| split; [exact P6 |]; split; [exact P8 |]].
  - rewrite EQ in P5. destruct k as [| k]; cbn [wq q_smart] in P5; [discriminate P5 |].
    pose proof (set_inst_same w1 mb (IC st) rcp Hst) as G. cbn beta in P5.
    rewrite G in P5. destruct (om_get (rcp : addr) (w_inst w1)) as [[str | str] |] eqn:E; [| | discriminate P5].
    + right. exists str. split; [now apply AS |].
      destruct str; try discriminate P5; cbn in P5; injection P5 as <-; reflexivity.
    + left. destruct (asteps_kind C w0 w rcp (IX str) S1) as (y & Hy & SK); [now rewrite <- I1 |].
      destruct y; [contradiction SK |]. pose proof (known_asteps C bank w rcp Hr) as K. unfold known in K.
      rewrite Hy in K. exact K.
  - rewrite EQ in P7. revert P7. apply verify_vouched.
    + intros y sty Hy Hi. apply AS. unfold contract_at in *. cbn [w_inst set_inst] in Hy. rewrite om_get_set in Hy.
      destruct (keqb y mb) eqn:E; [| exact Hy]. exfalso. injection Hy as <-.
      assert (Km : kind st' = kind st) by exact (apply_kind (ch_api C) (EvExec e i (MProcess md raw) _) _ _ _ Hx).
      destruct st; try discriminate Hms. destruct st'; try discriminate Km. contradiction Hi.
    + intros y sty Hy. cbn [w_inst set_inst] in Hy. rewrite om_get_set in Hy.
      destruct (keqb y mb) eqn:E; [discriminate Hy |]. exact (OS _ _ Hy).
    + intros y sty d vs t Hy. exact (as_of_positive C pre y sty d vs t Hy).
Qed.

(** ** Warp routes release only what was vouched for *)
Lemma later_state C w pre post x (a : addr) st st1 :
  reachable C w -> contract_at w a st -> w_log w = pre ++ x :: post -> as_of C pre a st1 ->
  exists st0 h, st1 = c_run (ch_api C) st0 (events_at a pre) /\ st = c_run (ch_api C) st0 h.
Proof.
  intros Hr Hc L (e & i & q & m & r & st0 & B & I1 & ->).
  destruct (contract_known C w a st Hr Hc) as (e' & i' & q' & m' & r' & st0' & B' & _ & I2 & L2).
  exists st0, (map fst (answers_at a (w_log w))). split; [reflexivity |].
  rewrite (lives_run (ch_api C) st0 _ st); [reflexivity |].
  rewrite L in B'. unfold births_at in B, B'. rewrite flat_map_app, B in B'.
  destruct (flat_map _ (x :: post)) as [| p l'] in B'; [| discriminate B'].
  injection B' as <- <- <- <- <-. rewrite I1 in I2. injection I2 as ->. exact L2.
Qed.

Lemma release_vouched C w mb mbst route st e i o sd bd Q r :
  chain_ok C -> reachable C w -> contract_at w mb mbst -> is_mailbox mbst ->
  contract_at w route st -> is_warp st -> warp_mailbox st = Some mb ->
  In (EvExec e i (MHandle o sd bd) Q, r) (answers_at route (w_log w)) ->
  exists pre post e' i' md raw Q' r' m st1 mb1 dflt,
    w_log w = pre ++ LCall mb (EvExec e' i' (MProcess md raw) Q') r' :: post /\
    msg_decode raw = Ok m /\ m_origin m = o /\ m_sender m = sd /\ m_body m = bd /\
    as_of C pre mb mb1 /\ reported_default_ism mb1 = Some dflt /\ as_of C pre route st1 /\
    vouched (ch_api C) (as_of C pre) (outside pre)
      (match reported_conn st1 QConnIsm with Some (Some x) => x | _ => dflt end) md raw.
Proof.
  intros HC Hr Hmc Hmm Hwc Hwk Hwm Hin.
  assert (Hh : exists hrp, reported_hrp mbst = Some hrp).
  { destruct mbst; try discriminate Hmm. eexists. reflexivity. }
  destruct Hh as (hrp & Hh).
  pose proof (receiving_facts C w mb route st Hr Hwc Hwk Hwm) as G. rewrite Forall_forall in G.
  destruct (G _ Hin) as (Hs & _).
  destruct (receiving_list C w mb route hrp mbst HC Hr Hmc Hmm Hh) as (l' & F & P).
  assert (Ha : In (o, sd, bd) (flat_map (arrival_from mb) (answers_at route (w_log w)))).
  { apply in_flat_map. eexists. split; [exact Hin |]. cbn [arrival_from]. rewrite Hs, bytes_eqb_refl. now left. }
  apply (Permutation_in _ P) in Ha. apply in_map_iff in Ha as (h & Eh & Hf). apply filter_In in Hf as [Hf Ht].
  unfold handed_to in Ht. apply bytes_eqb_eq in Ht.
  destruct (Forall2_in_r _ _ _ _ F Hf) as (raw & Hraw & (m & M1 & M2 & M3)).
  unfold processed_at in Hraw. apply in_flat_map in Hraw as ([ev r'] & Hraw & Hx).
  destruct ev as [e' i' em Q' |]; [| contradiction Hx]. destruct em; try contradiction Hx. destruct Hx as [-> | []].
  destruct (processed_vouched C w mb mbst e' i' metadata raw Q' r' Hr Hmc Hmm Hraw)
    as (pre & post & mb1 & hrp1 & m1 & rcp & o1 & dflt & L & A1 & A2 & A3 & A4 & A5 & A6 & A7 & A8 & A9 & A10).
  rewrite M1 in A4. apply Ok_inj in A4. subst m1.
  assert (E1 : hrp1 = hrp).
  { destruct (later_state C w pre post _ mb mbst mb1 Hr Hmc L A1) as (st0 & h0 & X1 & X2).
    assert (Hm0 : is_mailbox st0) by (unfold is_mailbox in *; rewrite X2, run_kind in Hmm; exact Hmm).
    destruct (mb_conf_history (ch_api C) st0 (events_at mb pre) Hm0) as (_ & _ & _ & Y1 & _).
    destruct (mb_conf_history (ch_api C) st0 h0 Hm0) as (_ & _ & _ & Y2 & _).
    rewrite X1, Y1 in A2. rewrite X2, Y2, A2 in Hh. now injection Hh. }
  subst hrp1. rewrite M2 in A6. apply Ok_inj in A6. rewrite <- Ht in A6. subst rcp.
  rewrite Eh in M3. injection M3 as E2 E3 E4.
  destruct A7 as [A7 | (st1 & A7 & A7')].
  { exfalso. unfold outside in A7. destruct (contract_known C w route st Hr Hwc) as (? & ? & ? & ? & ? & ? & B & _).
    rewrite A7 in B. discriminate B. }
  exists pre, post, e', i', metadata, raw, Q', r', m, st1, mb1, dflt.
  repeat (split; [assumption || now symmetry |]). rewrite A7'. destruct o1; exact A10.
Qed.
