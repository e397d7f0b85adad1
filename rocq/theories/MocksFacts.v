(** * The mock contracts: proofs. *)
From Coq Require Import List NArith Bool Lia.
From Verif Require Import Base BaseFacts OMap Crypto Bech32 Message CodecFacts Coins CoinsFacts Hex Events EventFacts Json SpecJson JsonFacts JsonGrammar
  Chain Contracts Wire WireFacts WireTexts Spec SpecModules Mailbox MailboxConfFacts MailboxFacts World SpecWorld WorldFacts WorldMailbox SpecLive WorldVerify WorldLive
  SpecSend WorldSend Proto SpecProto ProtoFacts Utils SpecVersion VersionFacts Found Mocks SpecMocks.
Import ListNotations.

Lemma mock_of_bytes k : mock_fits k -> mock_of (mock_bytes k) = Some k.
Proof.
  destruct k as [| [g |] t | h]; intros F; try reflexivity.
  cbn [mock_bytes mock_of]. cbn [mock_fits] in F.
  assert (L : length (be32 g) = 32%nat) by apply be_length.
  rewrite firstn_app, L, PeanoNat.Nat.sub_diag, firstn_O, app_nil_r, firstn_all2 by lia.
  rewrite skipn_app, L, PeanoNat.Nat.sub_diag, skipn_O, skipn_all2 by lia.
  rewrite of_be_be32 by exact F. reflexivity.
Qed.

Lemma mock_hosts C : ch_ext C = mock_ext -> hosts_mocks C.
Proof. intros E k e q. rewrite E. auto. Qed.

(** ** One call *)
Lemma mock_quiet m k k' r : mock_execute m k = Ok (k', r) ->
  r = resp0 /\ (k' = k \/ exists old g t, k = MockHook old t /\ m = KSetGas g /\ k' = MockHook g t).
Proof.
  destruct k as [| gas t | hrp], m; try discriminate; cbn [mock_execute]; intros H.
  - injection H as <- <-. auto.
  - injection H as <- <-. split; [reflexivity |]. right. eauto 6.
  - apply bind_Ok_inv in H as (g & _ & H). injection H as <- <-. auto.
  - apply bind_Ok_inv in H as (a & _ & H). apply bind_Ok_inv in H as (u & _ & H). injection H as <- <-. auto.
Qed.

Lemma hook_posts md raw gas t k' r :
  mock_execute (KPostDispatch md raw) (MockHook gas t) = Ok (k', r) <-> gas <> None /\ k' = MockHook gas t /\ r = resp0.
Proof.
  cbn [mock_execute]. destruct gas as [g |]; cbn [ok_or bind].
  - split; [intros H; injection H as <- <-; split; [discriminate | auto] | intros (_ & -> & ->); reflexivity].
  - split; [discriminate | intros [H _]; contradiction].
Qed.

Lemma hook_quotes md raw gas t r :
  mock_query (QHookQuote md raw) (MockHook gas t) = Ok r <->
  (gas = None /\ r = RFees []) \/ (exists g, gas = Some g /\ g < 2 ^ 128 /\ r = RFees [mkCoin t g]).
Proof.
  cbn [mock_query]. unfold hook_quote. destruct gas as [g |].
  - unfold u128_ok. change u128_max with (2 ^ 128). destruct (g <? 2 ^ 128) eqn:E; cbn [ensure bind].
    + apply N.ltb_lt in E. split.
      * intros H. injection H as <-. right. eauto.
      * intros [[X _] | (g' & X & _ & ->)]; [discriminate X |]. injection X as <-. reflexivity.
    + apply N.ltb_ge in E. split; [discriminate |].
      intros [[X _] | (g' & X & L & _)]; [discriminate X |]. injection X as <-. lia.
  - split; [intros H; injection H as <-; auto |].
    intros [[_ ->] | (g' & X & _)]; [reflexivity | discriminate X].
Qed.

Lemma receiver_takes o sender body hrp k' r :
  mock_execute (KHandle o sender body) (MockReceiver hrp) = Ok (k', r) <->
  (exists a, bech32_encode hrp sender = Ok a) /\ utf8 body /\ k' = MockReceiver hrp /\ r = resp0.
Proof.
  cbn [mock_execute]. split.
  - intros H. apply bind_Ok_inv in H as (a & H1 & H). apply bind_Ok_inv in H as (u & H2 & H). apply ensure_Ok_inv in H2.
    injection H as <- <-. split; [eauto |]. split; [now apply (valid_utf8_sound (length body)) | auto].
  - intros ((a & ->) & U & -> & ->). cbn [bind]. rewrite (valid_utf8_complete _ U). reflexivity.
Qed.

Lemma free_closed md raw t :
  mock_query (QHookQuote md raw) (MockHook None t) = Ok (RFees []) /\
  forall k' r, mock_execute (KPostDispatch md raw) (MockHook None t) <> Ok (k', r).
Proof. split; [reflexivity | discriminate]. Qed.

Lemma receiver_reports i o sender body hrp a :
  bech32_encode hrp sender = Ok a ->
  mock_events i (KHandle o sender body) (MockReceiver hrp) =
  [mkWev (s "mailbox_msg_received") [(s "sender", a); (s "origin", dec o); (s "body", body)]].
Proof. intros H. cbn [mock_events]. rewrite H. reflexivity. Qed.

(** ** Texts *)
Lemma gas_text g :
  set_gas_text g = text (JObj [(s "set_gas_amount", JObj [(s "gas", match g with Some n => JStr (dec n) | None => JNull end)])]).
Proof.
  unfold set_gas_text.
  assert (E : match g with Some n => s """" ++ dec n ++ s """" | None => s "null" end
    = text match g with Some n => JStr (dec n) | None => JNull end).
  { destruct g as [n |]; [| reflexivity]. symmetry. exact (t_u256 n). }
  rewrite E. cbn [text map fst snd commas]. generalize (text match g with Some n => JStr (dec n) | None => JNull end). intros x.
  cbn [app]. rewrite <- !app_assoc. reflexivity.
Qed.

Lemma gas_text_reads gas t g : match g with Some n => n < 2 ^ 256 | None => True end ->
  mock_reads (MockHook gas t) (MOther (set_gas_text g)) = Some (KSetGas g).
Proof.
  intros F. cbn [mock_reads]. rewrite gas_text, parse_text.
  2:{ destruct g; reflexivity. }
  destruct g as [n |]; [| reflexivity].
  cbn -[parse_dec u256_ok dec]. rewrite parse_dec_dec by exact F. unfold u256_ok.
  replace (n <? u256_max) with true by (symmetry; apply N.ltb_lt; exact F). reflexivity.
Qed.

Lemma good_mock_msg k : good (mock_msg_c k).
Proof.
  destruct k as [| gas t | hrp]; cbn [mock_msg_c].
  - assert (G : good (struct none)) by codec_good. unfold ism_msg_c. split; cbn [write read Wire.fits].
    + intros a H. destruct a; try discriminate H. reflexivity.
    + intros a _. reflexivity.
    + intros a _. discriminate.
    + intros j a H. destruct (read (struct none) j); [| discriminate H]. injection H as <-. reflexivity.
    + intros j a H A. destruct a; try discriminate H. rewrite (g_alike _ G j tt eq_refl A). reflexivity.
  - unfold hook_msg_c. enum_good.
  - unfold receiver_msg_c. enum_good.
Qed.

Lemma mock_reads_text k m : Wire.fits (mock_msg_c k) m = true -> mock_reads k (MOther (text (write (mock_msg_c k) m))) = Some m.
Proof.
  intros F. assert (E : forall t, mock_reads k (MOther t) = match parse t with Some j => read (mock_msg_c k) j | None => None end).
  { intros t. destruct k; reflexivity. }
  rewrite E, parse_text by (apply (g_small _ (good_mock_msg k)), F). apply (g_back _ (good_mock_msg k)), F.
Qed.

Lemma mock_reads_fits k t m : mock_reads k (MOther t) = Some m -> Wire.fits (mock_msg_c k) m = true.
Proof.
  intros H. assert (E : mock_reads k (MOther t) = match parse t with Some j => read (mock_msg_c k) j | None => None end).
  { destruct k; reflexivity. }
  rewrite E in H. destruct (parse t) as [j |]; [| discriminate H]. exact (g_fits _ (good_mock_msg k) j m H).
Qed.

(** whatever it is sent, the price stays a [Uint256] *)
Lemma mock_fits_step e i m q k b' r : mock_fits k ->
  x_exec mock_ext e i m q (mock_bytes k) = Ok (b', r) -> exists k', b' = mock_bytes k' /\ mock_fits k'.
Proof.
  intros F H. cbn [x_exec mock_ext] in H. rewrite mock_of_bytes in H by exact F. cbn [ok_or bind] in H.
  apply bind_Ok_inv in H as (m' & H1 & H). apply bind_Ok_inv in H as ([k' r'] & H2 & H). injection H as <- <-.
  exists k'. split; [reflexivity |]. destruct (mock_quiet _ _ _ _ H2) as (_ & [-> | (old & g & t & -> & -> & ->)]); [exact F |].
  destruct g as [n |]; [| exact I]. cbn [mock_fits].
  destruct (mock_reads (MockHook old t) m) as [m1 |] eqn:R; [| discriminate H1]. injection H1 as ->.
  destruct m; try discriminate R. apply mock_reads_fits in R. cbn [mock_msg_c] in R.
  unfold hook_msg_c, enum, Wire.fits in R. apply andb_true_iff in R as [_ R]. apply N.ltb_lt in R. exact R.
Qed.

(** ** Processing *)
Lemma mock_answers C k w (a : addr) x qm : hosts_mocks C -> mock_at w a x -> mock_fits x ->
  q_smart (wq C (S k) w) a qm = mock_query qm x.
Proof.
  intros H Ha F. cbn [wq q_smart]. rewrite Ha. rewrite (proj2 (H x _ _)). cbn [x_query mock_ext].
  rewrite mock_of_bytes by exact F. reflexivity.
Qed.

Lemma mock_called C k rec caller (a : addr) m m' f w x x' r w' : hosts_mocks C -> mock_at w a x -> mock_fits x ->
  mock_reads x m = Some m' -> mock_execute m' x = Ok (x', r) ->
  rec a (r_msgs r) (add_log (LCall a (EvExec (mkEnv a (w_height w)) (mkInfo caller f) m (fun _ => wq C k w)) r)
    (set_inst a (IX (mock_bytes x')) w)) = w' ->
  invoke C k rec caller a m f w = w'.
Proof.
  intros H Ha F R X E. unfold invoke. rewrite Ha, (proj1 (H x _ _)). cbn [x_exec mock_ext].
  rewrite mock_of_bytes by exact F. cbn [ok_or bind]. rewrite R. cbn [ok_or bind]. rewrite X. cbn [bind]. exact E.
Qed.

Lemma mailbox_elsewhere w (a mb : addr) k st : mock_at w a k -> contract_at w mb st -> a <> mb.
Proof. intros H1 H2 ->. unfold mock_at, contract_at in *. congruence. Qed.

(** what a message needs to be processed by a mailbox that trusts the mock module *)
Lemma mock_process C k w mb mbst ism relayer md raw m r hrp :
  hosts_mocks C -> trusting w mb mbst ism -> msg_decode raw = Ok m ->
  (exists h, reported_hrp mbst = Some h /\ bech32_encode h (m_recipient m) = Ok r) -> mock_at w r (MockReceiver hrp) ->
  ch_account C relayer = true -> (2 <= k)%nat ->
  ((exists w', tx_run C k (TExec relayer mb (MProcess md raw) []) w = Ok w') <->
   m_version m = 3 /\ reported_domain mbst = Some (m_dest m) /\ reported_delivered mbst (keccak256_hash raw) = Some false /\
   (exists a, bech32_encode hrp (m_sender m) = Ok a) /\ utf8 (m_body m)) /\
  (forall w', tx_run C k (TExec relayer mb (MProcess md raw) []) w = Ok w' ->
     only_delivered w w' mb raw /\ w_bank w' = w_bank w /\
     (forall a : addr, a <> mb -> om_get a (w_inst w') = om_get a (w_inst w))).
Proof.
  intros HC (Hmb & Hism & Hi) Hm (h & Hh & He) Hr Hacc Hk.
  assert (Hx : exists x, mbst = SMailbox x).
  { unfold reported_default_ism in Hism. destruct mbst; try discriminate Hism; eauto. }
  destruct Hx as (x & ->). cbn in Hh. apply Some_inj in Hh. subst h.
  rewrite reported_ism_of in Hism. rewrite reported_delivered_of.
  change (reported_domain (SMailbox x)) with (Some (mb_domain x)).
  destruct k as [| [| k]]; try lia.
  set (w1 := add_log (LDo relayer (CExec mb (MProcess md raw) [])) w).
  assert (Q : forall s (a : addr) kk qm, mock_at w a kk -> mock_fits kk ->
     q_smart (wq C (S (S k)) (set_inst mb (IC s) w1)) a qm = mock_query qm kk).
  { intros s a kk qm Ha F. apply mock_answers; [exact HC | | exact F]. unfold mock_at. cbn [w_inst set_inst].
    rewrite om_get_set_neq by (eapply mailbox_elsewhere; eauto). exact Ha. }
  set (QQ := fun s : cstate => wq C (S (S k)) (set_inst mb (IC s) w1)) in *.
  set (e := mkEnv mb (w_height w1)). set (i := mkInfo relayer (norm_coins [])).
  set (x' := mb_deliver x (keccak256_hash raw) (mkDelivery relayer (w_height w))).
  set (rp := resp [CExec r (MHandle (m_origin m) (m_sender m) (m_body m)) []]).
  assert (P : forall st' r', c_execute (ch_api C) QQ e i (MProcess md raw) (SMailbox x) = Ok (st', r') <->
    m_version m = 3 /\ m_dest m = mb_domain x /\ om_get (keccak256_hash raw) (mb_deliveries x) = None /\
    st' = SMailbox x' /\ r' = rp).
  { intros st' r'. rewrite mb_exec_inv. cbn [mb_execute]. split.
    - intros (_ & y & -> & H). apply mb_process_iff in H as (m2 & rc & o & d & E1 & E2 & E3 & E4 & E5 & E6 & E7 & -> & E8 & ->).
      rewrite Hm in E1. apply Ok_inj in E1. subst m2. rewrite He in E2. apply Ok_inj in E2. subst rc. auto.
    - intros (H1 & H2 & H3 & -> & ->). split; [reflexivity |]. exists x'. split; [reflexivity |]. apply mb_process_iff.
      exists m, r, None, ism. split; [exact Hm |]. split; [exact He |]. split; [exact H1 |]. split; [exact H2 |].
      split; [unfold QQ; rewrite (Q _ _ _ _ Hr I); reflexivity |]. split; [exact Hism |]. split; [exact H3 |].
      split; [reflexivity |]. split; [unfold QQ; rewrite (Q _ _ _ _ Hi I); reflexivity | reflexivity]. }
  set (w2 := add_log (LCall mb (EvExec e i (MProcess md raw) QQ) rp) (set_inst mb (IC (SMailbox x')) w1)).
  assert (Hr2 : mock_at w2 r (MockReceiver hrp)).
  { unfold mock_at, w2. cbn [w_inst set_inst add_log]. rewrite om_get_set_neq by (eapply mailbox_elsewhere; eauto). exact Hr. }
  set (w3 := add_log (LDo mb (CExec r (MHandle (m_origin m) (m_sender m) (m_body m)) [])) w2).
  assert (R : forall w', exec C (S (S k)) mb (r_msgs rp) w2 = Ok w' <->
    ((exists a, bech32_encode hrp (m_sender m) = Ok a) /\ utf8 (m_body m)) /\
    w' = add_log (LCall r (EvExec (mkEnv r (w_height w3)) (mkInfo mb (norm_coins []))
       (MHandle (m_origin m) (m_sender m) (m_body m)) (fun _ => wq C (S k) w3)) resp0) (set_inst r (IX (mock_bytes (MockReceiver hrp))) w3)).
  { intros w'. cbn [rp resp r_msgs map exec]. unfold run_sub. cbn [sm_msg sm_reply]. unfold perform at 1. rewrite move_none. fold w3. cbn [bind].
    unfold invoke at 1. change (w_inst w3) with (w_inst w2). rewrite Hr2, (proj1 (HC _ _ _)). cbn [x_exec mock_ext].
    rewrite mock_of_bytes by exact I. cbn [ok_or bind mock_reads]. 
    pose proof (receiver_takes (m_origin m) (m_sender m) (m_body m) hrp (MockReceiver hrp) resp0) as T.
    destruct (mock_execute (KHandle (m_origin m) (m_sender m) (m_body m)) (MockReceiver hrp)) as [[k' r'] | |] eqn:X; cbn [bind].
    - destruct (mock_quiet _ _ _ _ X) as (-> & [-> | (o & g & t & A & _)]); [| discriminate A].
      destruct (proj1 T eq_refl) as (A & B & _). cbn [exec resp0 r_msgs]. split; [intros H; injection H as <-; auto | intros (_ & ->); reflexivity].
    - split; [discriminate | intros ((A & B) & _)]. discriminate (proj2 T (conj A (conj B (conj eq_refl eq_refl)))).
    - split; [discriminate | intros ((A & B) & _)]. discriminate (proj2 T (conj A (conj B (conj eq_refl eq_refl)))). }
  set (w4 := add_log (LCall r (EvExec (mkEnv r (w_height w3)) (mkInfo mb (norm_coins []))
       (MHandle (m_origin m) (m_sender m) (m_body m)) (fun _ => wq C (S k) w3)) resp0)
       (set_inst r (IX (mock_bytes (MockReceiver hrp))) w3)) in *.
  assert (T : forall w', tx_run C (S (S k)) (TExec relayer mb (MProcess md raw) []) w = Ok w' <->
    (m_version m = 3 /\ m_dest m = mb_domain x /\ om_get (keccak256_hash raw) (mb_deliveries x) = None /\
     (exists a, bech32_encode hrp (m_sender m) = Ok a) /\ utf8 (m_body m)) /\ w' = w4).
  { intros w'. unfold tx_run. rewrite Hacc. cbn [ensure bind]. unfold perform at 1. rewrite move_none. cbn [bind]. fold w1.
    unfold invoke at 1. change (w_inst w1) with (w_inst w). rewrite Hmb. cbv zeta. fold QQ e i.
    destruct (c_execute (ch_api C) QQ e i (MProcess md raw) (SMailbox x)) as [[st' r'] | |] eqn:X; cbn [bind].
    - destruct (proj1 (P st' r') eq_refl) as (H1 & H2 & H3 & -> & ->). fold w2.
      destruct (exec C (S (S k)) mb (r_msgs rp) w2) as [w5 | |] eqn:Y; cbn [bind].
      + destruct (proj1 (R w5) eq_refl) as ((A & B) & ->). split; [intros H; injection H as <-; tauto | intros (_ & ->); reflexivity].
      + split; [discriminate | intros ((_ & _ & _ & A & B) & _)]. discriminate (proj2 (R w4) (conj (conj A B) eq_refl)).
      + split; [discriminate | intros ((_ & _ & _ & A & B) & _)]. discriminate (proj2 (R w4) (conj (conj A B) eq_refl)).
    - split; [discriminate | intros ((A & B & D & _) & _)].
      discriminate (proj2 (P _ _) (conj A (conj B (conj D (conj eq_refl eq_refl))))).
    - split; [discriminate | intros ((A & B & D & _) & _)].
      discriminate (proj2 (P _ _) (conj A (conj B (conj D (conj eq_refl eq_refl))))). }
  split.
  - split.
    + intros (w' & H). apply T in H as ((A & B & D & E & F) & _). rewrite D, B. auto.
    + intros (A & B & D & E & F). exists w4. apply T. split; [| reflexivity]. apply Some_inj in B, D.
      destruct (om_get (keccak256_hash raw) (mb_deliveries x)); [discriminate D | auto].
  - intros w' H. apply T in H as (_ & ->).
    assert (Hne : r <> mb) by exact (mailbox_elsewhere _ _ _ _ _ Hr Hmb).
    assert (I4 : forall y : addr, om_get y (w_inst w4) = om_get y (w_inst w2)).
    { intros y. exact (set_inst_same w3 r (IX (mock_bytes (MockReceiver hrp))) y Hr2). }
    split; [| split].
    + split; [reflexivity |]. split; [reflexivity |]. exists (SMailbox x'). split.
      * unfold contract_at. rewrite I4. apply om_get_set_eq.
      * split; [reflexivity |]. split.
        { rewrite reported_delivered_of. cbn [x' mb_deliver mb_deliveries]. now rewrite om_get_set, keqb_refl. }
        intros st0 H0. unfold contract_at in Hmb, H0. rewrite Hmb in H0. injection H0 as <-.
        intros A0 q0 qm. apply query_same_but_delivered.
    + reflexivity.
    + intros a Ha. rewrite I4. unfold w2. cbn [w_inst set_inst add_log]. now rewrite om_get_set_neq.
Qed.

(** ** Dispatching *)
Lemma mock_takes C w mb md raw n (h : addr) g t :
  hosts_mocks C -> mock_at w h (MockHook (Some g) t) -> g <> 0 -> g < 2 ^ 128 -> (2 <= n)%nat ->
  takes C w mb md raw n h [mkCoin t g] [(h, mkCoin t g)] [].
Proof.
  intros HC Hh H0 Hg Hn.
  assert (F : mock_fits (MockHook (Some g) t)).
  { cbn [mock_fits]. apply (N.lt_trans _ (2 ^ 128)); [exact Hg | reflexivity]. }
  apply (takes_outside _ _ _ _ _ n h (mock_bytes (MockHook (Some g) t)) [mkCoin t g]); [exact Hh | | | | exact Hn].
  - intros e q _. rewrite (proj2 (HC _ e q)). cbn [x_query mock_ext]. rewrite mock_of_bytes by exact F. cbn [ok_or bind mock_query hook_quote].
    unfold u128_ok. change u128_max with (2 ^ 128). rewrite (proj2 (N.ltb_lt g (2 ^ 128)) Hg). split; [reflexivity |].
    intros c. exists resp0. split; [| reflexivity]. rewrite (proj1 (HC _ e q)). cbn [x_exec mock_ext].
    rewrite mock_of_bytes by exact F. reflexivity.
  - apply norm_one. exact H0.
  - intros d. rewrite amount_of_cons. destruct (bytes_eqb d (c_denom (mkCoin t g))); cbn [c_amount]; [| reflexivity].
    replace (g + amount_of d []) with g; [exact Hg | symmetry; apply N.add_0_r].
Qed.

(** a required hook without a price stops the mailbox *)
Lemma mock_blocks C k w mb mbst h t caller d funds w' :
  hosts_mocks C -> contract_at w mb mbst -> reported_required_hook mbst = Some h -> mock_at w h (MockHook None t) ->
  tx_run C k (TExec caller mb (MDispatch d) funds) w <> Ok w'.
Proof.
  intros HC Hmb Hreq Hh H. unfold tx_run in H. apply bind_Ok_inv in H as (u & _ & H).
  apply bind_Ok_inv in H as ([w1 rr] & H & _). unfold perform at 1 in H.
  apply bind_Ok_inv in H as (w2 & Hmv & H). apply bind_Ok_inv in H as (w3 & H & _).
  assert (I2 : w_inst w2 = w_inst w).
  { destruct (move_coins_same _ _ _ _ _ Hmv) as (E & _). exact E. }
  unfold invoke at 1 in H. rewrite I2, Hmb in H.
  apply bind_Ok_inv in H as ([st' r] & Hx & H).
  destruct mbst as [x| | | | | | | | | | | | | | | | |]; try discriminate Hreq.
  apply (dispatch_split _ _ _ _ _ (SMailbox x) _ _ (mb_nonce x) (mb_domain x) eq_refl eq_refl) in Hx
    as (rq & hk & md & raw & fees & rest & Er & Hrq & _).
  rewrite Hreq in Hrq. apply Some_inj in Hrq. subst rq. rewrite Er in H.
  destruct k as [| k]; [discriminate H |]. cbn [exec] in H. apply bind_Ok_inv in H as (w4 & H & _).
  unfold run_sub in H. cbn [sm_msg sm_reply] in H.
  match type of H with context [perform C k ?rec ?c ?m ?w] => destruct (perform C k rec c m w) as [[w5 rr'] | |] eqn:P end;
    try discriminate H. clear H.
  unfold perform in P. apply bind_Ok_inv in P as (w6 & Hmv2 & P). apply bind_Ok_inv in P as (w7 & P & _).
  destruct (move_coins_same _ _ _ _ _ Hmv2) as (E & _).
  unfold invoke in P. rewrite E in P. cbn [w_inst add_log set_inst] in P.
  rewrite om_get_set_neq in P by exact (mailbox_elsewhere _ _ _ _ _ Hh Hmb).
  rewrite I2, Hh, (proj1 (HC _ _ _)) in P. cbn [x_exec mock_ext] in P. rewrite mock_of_bytes in P by exact I.
  discriminate P.
Qed.

Lemma exec_nothing C k c w : exec C (S k) c [] w = Ok w.
Proof. reflexivity. Qed.

(** anybody sets the price *)
Lemma mock_priced C k w (h : addr) gas t g caller :
  hosts_mocks C -> mock_at w h (MockHook gas t) -> mock_fits (MockHook gas t) -> mock_fits (MockHook g t) ->
  ch_account C caller = true -> (1 <= k)%nat ->
  exists w', tx_run C k (TExec caller h (MOther (set_gas_text g)) []) w = Ok w' /\
    mock_at w' h (MockHook g t) /\ w_bank w' = w_bank w /\
    (forall a : addr, a <> h -> om_get a (w_inst w') = om_get a (w_inst w)).
Proof.
  intros HC Hh F1 F2 Ha Hk. destruct k as [| k]; [lia |]. unfold tx_run. rewrite Ha. cbn [ensure bind]. unfold perform at 1. rewrite move_none. cbn [bind].
  erewrite (mock_called _ _ _ _ _ _ (KSetGas g)); [| exact HC | exact Hh | exact F1 | | |].
  2:{ apply gas_text_reads. destruct g as [n |]; [exact F2 | exact I]. }
  2:{ cbn [mock_execute]. reflexivity. }
  2:{ cbn [resp0 r_msgs]. apply exec_nothing. }
  cbn [bind]. eexists. split; [reflexivity |]. split; [apply om_get_set_eq |]. split; [reflexivity |].
  intros a Hne. cbn [w_inst set_inst add_log]. now rewrite om_get_set_neq.
Qed.

(** what one chain sends, the other receives *)
Lemma mock_ping C1 C2 n k1 k2 w1 w2 mb1 mb2 mbst2 ism caller relayer d raw fees pays marks md r hrp m :
  reachable C1 w1 -> dispatchable C1 n w1 mb1 caller d raw fees pays marks ->
  (forall x, amount_of x fees <= balance w1 caller x) -> ch_account C1 caller = true -> (n + 3 <= k1)%nat ->
  hosts_mocks C2 -> trusting w2 mb2 mbst2 ism -> reported_domain mbst2 = Some (d_dest d) ->
  (exists h, reported_hrp mbst2 = Some h /\ bech32_encode h (d_recipient d) = Ok r) ->
  mock_at w2 r (MockReceiver hrp) -> reported_delivered mbst2 (keccak256_hash raw) = Some false ->
  msg_decode raw = Ok m -> (exists a, bech32_encode hrp (m_sender m) = Ok a) -> utf8 (d_body d) ->
  ch_account C2 relayer = true -> (2 <= k2)%nat ->
  exists w1' w2',
    tx_run C1 k1 (TExec caller mb1 (MDispatch d) fees) w1 = Ok w1' /\ dispatched_one w1 w1' mb1 raw /\
    tx_run C2 k2 (TExec relayer mb2 (MProcess md raw) []) w2 = Ok w2' /\ only_delivered w2 w2' mb2 raw.
Proof.
  intros R1 D1 B1 A1 K1 H2 T2 Dm (h & Hh & He) Hr Hn Hm Hs Hu A2 K2.
  destruct (dispatch_paid C1 n k1 w1 mb1 caller d raw fees pays marks R1 D1 B1 A1 K1) as (w1' & X1 & O1 & _).
  assert (E : m_version m = 3 /\ m_dest m = d_dest d /\ m_recipient m = d_recipient d /\ m_body m = d_body d).
  { destruct D1 as (st & nonce & dom & sender & rq & hk & f1 & p1 & q1 & f2 & p2 & q2 & _ & _ & _ & L1 & L2 & L3 & L4 & Hsd & Er & _).
    rewrite Er in Hm. rewrite msg_decode_encode in Hm.
    - apply Ok_inj in Hm. subst m. auto.
    - unfold msg_wf. cbn [m_version m_nonce m_origin m_dest m_sender m_recipient].
      repeat split; try assumption; [change u32_max with (2 ^ 32); lia | exact (h256_length _ _ Hsd)]. }
  destruct E as (E1 & E2 & E3 & E4).
  destruct (mock_process C2 k2 w2 mb2 mbst2 ism relayer md raw m r hrp H2 T2 Hm) as (I & O); [exists h; rewrite E3; auto | exact Hr | exact A2 | exact K2 |].
  destruct (proj2 I) as (w2' & X2).
  { rewrite E1, E2, E4. auto. }
  exists w1', w2'. split; [exact X1 |]. split; [exact O1 |]. split; [exact X2 |]. exact (proj1 (O w2' X2)).
Qed.

(** ** Migrations *)
Lemma mock_migrates k ver c c' :
  (mock_migrate k ver c = Ok c' <->
   exists old, c = Some old /\ cv_contract old = mock_name k /\ c' = mkCw2 (mock_name k) ver /\ supersedes c' old) /\
  (mock_migrate k ver c = Panic <-> forall x, mock_migrate k ver c <> Ok x).
Proof.
  split.
  - assert (U : mock_migrate k ver c = Ok c' <-> migrate c (mock_name k) ver = Ok c').
    { unfold mock_migrate, unwrap. destruct (migrate c (mock_name k) ver); split; intros H; (exact H || discriminate H). }
    rewrite U, migrate_exactly. split.
    + intros (st & old & new & -> & E & S1 & S2 & N & ->). exists st. split; [reflexivity|]. split; [exact E|]. split; [reflexivity|].
      exists old, new. auto.
    + intros (st & -> & E & -> & va & vb & S1 & S2 & N). exists st, va, vb. auto 10.
  - unfold mock_migrate, unwrap. destruct (migrate c (mock_name k) ver); split; intros H; try discriminate; try reflexivity.
    contradiction (H a eq_refl).
Qed.
