(** * A remote transfer that pays its quote succeeds. *)
From Coq Require Import List Arith NArith Bool Lia.
From Verif Require Import Base BaseFacts OMap Crypto Bech32 Message CodecFacts Merkle MerkleFacts Coins CoinsFacts Chain Ownable
  Router Mailbox Va Isms Hooks Igp Warp Cw20 Contracts Spec SpecModules StepFacts AccessFacts MailboxConfFacts MailboxFacts
  HookFacts IgpFacts WarpFacts World SpecWorld WorldFacts WorldMailbox WorldMerkle SpecBridge WorldWarp WorldToken SpecRoute WorldRoute
  SpecVerify WorldVerify SpecLive WorldLive SpecSend WorldSend SpecTransfer.
Import ListNotations.

(** ** Before the mailbox is called *)
(** from [w] to [v] only token contracts changed, and only routes and token contracts ran *)
Definition ahead (w v : world) : Prop :=
  (forall a st, ~ is_cw20 st -> (contract_at w a st <-> contract_at v a st)) /\
  (forall a st, contract_at w a st -> ~ is_cw20 st -> ~ is_warp st -> answers_at a (w_log v) = answers_at a (w_log w)) /\
  (forall (a : addr) b, om_get a (w_inst w) = Some (IX b) -> om_get a (w_inst v) = Some (IX b)).

Lemma ahead_takes C w v mb md raw : ahead w v ->
  (forall n h fees pays marks, takes C w mb md raw n h fees pays marks -> takes C v mb md raw n h fees pays marks) /\
  (forall n hs fees pays marks, take_all C w mb md raw n hs fees pays marks -> take_all C v mb md raw n hs fees pays marks).
Proof.
  intros (H & _ & HX).
  assert (K : forall a st, contract_at w a st -> ~ is_cw20 st -> contract_at v a st) by (intros a st H1 H2; now apply H).
  apply (takes_both C w mb md raw
    (fun n h fees pays marks _ => takes C v mb md raw n h fees pays marks)
    (fun n hs fees pays marks _ => take_all C v mb md raw n hs fees pays marks)).
  - intros n h st Hc Hi Hm Hn. eapply takes_merkle; eauto. apply K; [exact Hc |]. destruct st; try contradiction Hi; easy.
  - intros n h st Hc Hi Hm Hn. eapply takes_pausable; eauto. apply K; [exact Hc |]. destruct st; try contradiction Hi; easy.
  - intros n h st fee Hc Hf Hz Hb Hn. eapply takes_fee; eauto. apply K; [exact Hc |]. destruct st; try discriminate Hf; easy.
  - intros n h st m gas refund oracle ost price rate Hc Hi Hd Hg Hr Ho Hco Hgd B1 B2 Hf Hz Hb Hn.
    eapply takes_gas with (oracle := oracle) (ost := ost); eauto.
    + apply K; [exact Hc |]. destruct st; try contradiction Hi; easy.
    + apply K; [exact Hco |]. apply gas_data_oracle in Hgd. destruct ost; try contradiction Hgd; easy.
  - intros n h b fees Hc Hq No Lt Hn. apply takes_outside with (b := b); auto.
  - intros n n' h st m x pays marks Hc Hi Hfb Hd Hs Ht IH Hn. eapply takes_router; eauto.
    apply K; [exact Hc |]. destruct st; try contradiction Hi; easy.
  - intros n n' h st m hooks fees pays marks Hc Hh Hd Ht IH Hb Hn. eapply takes_aggregate; eauto.
    apply K; [exact Hc |]. destruct st; try discriminate Hh; easy.
  - intros n. constructor.
  - intros. constructor; assumption.
Qed.

Lemma takes_marks C w mb md raw :
  (forall n h fees pays marks, takes C w mb md raw n h fees pays marks ->
     forall a, occ a marks <> 0 -> exists st, contract_at w a st /\ is_merkle_hook st) /\
  (forall n hs fees pays marks, take_all C w mb md raw n hs fees pays marks ->
     forall a, occ a marks <> 0 -> exists st, contract_at w a st /\ is_merkle_hook st).
Proof.
  apply (takes_both C w mb md raw
    (fun n h fees pays marks _ => forall a, occ a marks <> 0 -> exists st, contract_at w a st /\ is_merkle_hook st)
    (fun n hs fees pays marks _ => forall a, occ a marks <> 0 -> exists st, contract_at w a st /\ is_merkle_hook st));
    try (intros; auto; fail); try (intros; match goal with H : occ _ [] <> 0 |- _ => contradiction H; reflexivity end).
  - intros n h st Hc Hi _ _ a Ha. destruct (bytes_eqb a h) eqn:E.
    + apply bytes_eqb_eq in E. subst a. eauto.
    + apply bytes_eqb_neq in E. rewrite occ_other in Ha by exact E. contradiction.
  - intros n h f p k hooks fees pays marks _ IH1 _ IH2 a Ha. rewrite occ_app in Ha.
    destruct (N.eq_dec (occ a k) 0) as [E | E]; [apply IH2; lia | now apply IH1].
Qed.

Lemma count_kind st c : reported_count st = Some c -> ~ is_cw20 st.
Proof. intros H. destruct st; try discriminate H; easy. Qed.

Lemma ahead_dispatchable C n w v mb caller d raw fees pays marks :
  ahead w v -> dispatchable C n w mb caller d raw fees pays marks -> dispatchable C n v mb caller d raw fees pays marks.
Proof.
  intros Ha (mbst & nonce & domain & sender & required & hook & f1 & p1 & k1 & f2 & p2 & k2 & Hc & Hn & Hd & Hn1 & Hdm & Hdd & Hlr &
    Hs & Hraw & Hreq & Hh & T1 & T2 & Hlt & E1 & E2 & E3 & Hro).
  pose proof Ha as [H _]. destruct (ahead_takes C w v mb (request_metadata d) raw Ha) as [T _].
  exists mbst, nonce, domain, sender, required, hook, f1, p1, k1, f2, p2, k2.
  assert (Hk : ~ is_cw20 mbst) by (apply nonce_mailbox in Hn as (x & -> & _); easy).
  split; [now apply H |]. repeat (split; [auto; fail |]).
  intros a st c Hst Hcnt. apply (Hro a st c); [| exact Hcnt]. apply H; [now apply (count_kind st c) | exact Hst].
Qed.

Lemma ahead_fits w v marks : ahead w v -> fits_in w [] marks -> fits_in v [] marks.
Proof. intros [H _] Hf a x Hx. apply Hf. apply H; [easy | exact Hx]. Qed.

Lemma ahead_marks C n w mb caller d raw fees pays marks a :
  dispatchable C n w mb caller d raw fees pays marks -> occ a marks <> 0 -> exists st, contract_at w a st /\ is_merkle_hook st.
Proof.
  intros (mbst & nonce & domain & sender & required & hook & f1 & p1 & k1 & f2 & p2 & k2 & _ & _ & _ & _ & _ & _ & _ & _ & _ &
    _ & _ & T1 & T2 & _ & _ & _ & -> & _) Ho. rewrite occ_app in Ho.
  destruct (takes_marks C w mb (request_metadata d) raw) as [T _].
  destruct (N.eq_dec (occ a k1) 0) as [E | E]; [eapply T; [exact T2 | lia] | eapply T; [exact T1 | exact E]].
Qed.

(** the dispatch itself *)
Lemma ahead_run C n k w v mb route d raw fees pays marks fs :
  ahead w v -> dispatchable C n w mb route d raw fees pays marks -> fits_in w [] marks ->
  Forall (fun c => c_amount c < 2 ^ 128) fs -> (forall x, amount_of x fs = amount_of x fees) ->
  (forall x, amount_of x fees <= balance v route x) -> (n + 3 <= k)%nat ->
  exists w', perform C k (exec C k) route (CExec mb (MDispatch d) fs) v = Ok (w', RrNone) /\
    dispatched_one w w' mb raw /\ fees_paid v w' route fees pays /\ recorded w w' raw marks /\ others_same v w' mb marks.
Proof.
  intros Ha Hd Hf Hfs Hno Hle Hk.
  assert (En : norm_coins fs = fees).
  { rewrite <- (proj2 (dispatchable_fees C n w mb route d raw fees pays marks Hd)). now apply norm_same. }
  destruct (dispatch_run C n k v mb route d raw fees pays marks fs (ahead_dispatchable _ _ _ _ _ _ _ _ _ _ _ Ha Hd)
    (ahead_fits _ _ _ Ha Hf) Hfs En Hle Hk) as (w' & P & D & F & R & O).
  exists w'. split; [exact P |]. destruct Ha as (H1 & H2 & _).
  split; [| split; [exact F | split; [| exact O]]].
  - destruct D as (D1 & D2 & st & st' & nonce & D3 & D4 & D5 & D6 & D7).
    assert (Hk' : ~ is_cw20 st /\ ~ is_warp st) by (apply nonce_mailbox in D5 as (x & -> & _); easy).
    assert (Hw : contract_at w mb st) by (apply H1; [apply Hk' | exact D3]).
    assert (Ea : answers_at mb (w_log v) = answers_at mb (w_log w)) by (apply (H2 mb st Hw); apply Hk').
    unfold dispatched_at, processed_at in D1, D2. rewrite Ea in D1, D2.
    split; [exact D1 |]. split; [exact D2 |]. exists st, st', nonce. auto.
  - intros a st c Hc Hi Hcnt.
    assert (Hk' : ~ is_cw20 st /\ ~ is_warp st) by (destruct st; try contradiction Hi; easy).
    destruct (R a st c) as (st' & R1 & R2 & R3 & R4 & R5); auto; [apply H1; [apply Hk' | exact Hc] |].
    exists st'. repeat (split; [assumption |]).
    assert (Ea : answers_at a (w_log v) = answers_at a (w_log w)) by (apply (H2 a st Hc); apply Hk').
    unfold posted_at, posts_at in R5 |- *. rewrite Ea in R5. exact R5.
Qed.

Lemma answers_call (a z : addr) l ev r : a <> z -> answers_at a (l ++ [LCall z ev r]) = answers_at a l.
Proof.
  intros H. rewrite answers_at_snoc. apply bytes_eqb_neq in H. unfold answers_at at 2. cbn [flat_map]. rewrite H.
  cbn [app]. apply app_nil_r.
Qed.
Lemma answers_do (a : addr) l c m : answers_at a (l ++ [LDo c m]) = answers_at a l.
Proof. rewrite answers_at_snoc. cbn. apply app_nil_r. Qed.

Lemma elsewhere w (a z : addr) st st' : contract_at w a st -> contract_at w z st' -> st <> st' -> a <> z.
Proof. intros H1 H2 Hn ->. unfold contract_at in *. congruence. Qed.

(** ** Taking the amount out of the coins *)
Lemma take_exists tk amount l : no_repeats l -> Forall (fun c => c_amount c <> 0) l -> amount <> 0 -> amount <= amount_of tk l ->
  exists rest, taken tk amount l rest.
Proof.
  intros Hn Hp H0 Hle. enough (exists rest, take_token tk amount l = Ok rest) as (rest & E).
  { exists rest. now apply take_token_iff. }
  unfold no_repeats in Hn. induction l as [| c l IH]; [change (amount_of tk []) with 0 in Hle; lia |].
  inversion Hp as [| ? ? Hc Hp']; subst. cbn [take_token]. rewrite amount_of_cons in Hle.
  cbn [filter] in Hn. rewrite (proj2 (N.eqb_neq _ _) Hc) in Hn. cbn [negb map] in Hn. inversion Hn as [| ? ? Hni Hn']; subst.
  destruct (bytes_eqb (c_denom c) tk) eqn:E.
  - apply bytes_eqb_eq in E. rewrite <- E, bytes_eqb_refl in Hle.
    assert (Z : amount_of (c_denom c) l = 0).
    { clear -Hni. induction l as [| y l IH]; [reflexivity |]. rewrite amount_of_cons. cbn [filter] in Hni.
      destruct (c_amount y =? 0) eqn:E0; cbn [negb] in Hni.
      - apply N.eqb_eq in E0. rewrite E0, IH by exact Hni. now destruct (bytes_eqb _ _).
      - cbn [map] in Hni. rewrite IH by (intros X; apply Hni; now right).
        destruct (bytes_eqb (c_denom c) (c_denom y)) eqn:Ed; [| reflexivity]. apply bytes_eqb_eq in Ed. destruct Hni. left. congruence. }
    rewrite (proj2 (N.leb_le _ _)) by lia. eauto.
  - replace (bytes_eqb tk (c_denom c)) with false in Hle
      by (symmetry; apply bytes_eqb_neq; apply bytes_eqb_neq in E; congruence).
    destruct IH as (rest & ->); auto. cbn [bind]. eauto.
Qed.

Lemma burn_ok C k rec c n d w :
  n <> 0 -> om_get d (w_admin w) = Some c -> n <= balance w c d ->
  exists b, perform C k rec c (CBurn c n d) w = Ok (set_bank b (add_log (LDo c (CBurn c n d)) w), RrNone) /\
    (forall a d', bal b a d' + (if (bytes_eqb a c && bytes_eqb d' d)%bool then n else 0) = balance w a d').
Proof.
  intros H0 H1 H2. unfold perform. rewrite bytes_eqb_refl. cbn [ensure bind]. rewrite (proj2 (N.eqb_neq _ _) H0).
  cbn [negb ensure bind w_admin add_log]. rewrite H1, bytes_eqb_refl. cbn [ensure bind]. unfold debit. cbn [w_bank add_log].
  unfold balance in H2. rewrite (proj2 (N.leb_le _ _) H2). cbn [bind].
  eexists. split; [reflexivity |]. intros a d'. rewrite bal_set. unfold balance.
  destruct (bytes_eqb a c) eqn:E1, (bytes_eqb d' d) eqn:E2; cbn [andb]; try lia.
  apply bytes_eqb_eq in E1, E2. subst. lia.
Qed.

Lemma own_denom_native st tk x : is_warp_native st -> reported_token st = Some tk -> own_denom st x = bytes_eqb x tk.
Proof.
  intros Hk Ht. destruct st as [ | | | | | | | | | | | | | | |y| |]; try contradiction Hk.
  rewrite (proj1 (wtoken_of y)) in Ht. unfold own_denom, c_query. cbn [qmsg_ok ensure bind wn_query wp_query]. rewrite Ht. reflexivity.
Qed.
Lemma own_denom_cw20 st x : is_warp_cw20 st -> own_denom st x = false.
Proof.
  intros Hk. destruct st as [ | | | | | | | | | | | | | | | |y|]; try contradiction Hk.
  unfold own_denom, c_query. cbn [qmsg_ok ensure bind wc_query wp_query]. destruct (wp_token y); reflexivity.
Qed.

Lemma hook_given C mbst dest router body hook chook md h :
  chosen_hook (ch_api C) mbst (mkDispatch dest router body (match hook with Some h => Some h | None => chook end) md) h ->
  forall h', hook = Some h' -> api_valid (ch_api C) h' = true.
Proof. intros (dflt & _ & H) h' ->. cbn [d_hook] in H. apply H. Qed.

(** ** Native routes *)
Lemma native_sent C n k w mb route st dest recipient amount hook md raw fees pays marks caller funds :
  chain_ok C -> reachable C w -> transferable C n w mb route st dest recipient amount hook md raw fees pays marks ->
  is_warp_native st -> pays_for st amount fees funds -> affords C w route st caller amount funds ->
  ch_account C caller = true -> (n + 6 <= k)%nat ->
  exists w', tx_run C k (TExec caller route (MTransferRemote dest recipient amount hook md) funds) w = Ok w' /\
    dispatched_one w w' mb raw /\ recorded w w' raw marks /\ coins_moved w w' route st caller amount fees pays /\
    tokens_moved w w' route st caller amount /\ rest_same w w' mb st marks.
Proof.
  intros HC Hr (Hc & Hk & Hmb & H0 & H128 & router & Hrt & Hd) Hkn Hpay (Hbal & Htk & _) Hacc Hn.
  destruct (reported_token st) as [tk |] eqn:Et; [| contradiction (Htk Hkn eq_refl)]. clear Htk.
  pose proof (own_denom_native st tk) as Eo.
  assert (Eo' : forall x, own_denom st x = bytes_eqb x tk) by (intros x; apply Eo; auto). clear Eo. rename Eo' into Eo.
  set (d := mkDispatch dest router (recipient ++ be 32 amount) (match hook with Some h => Some h | None => reported_conn_hook st end) md) in *.
  assert (Hf : fits_in w [] marks).
  { apply (room_fits C); [exact Hr |].
    destruct Hd as (? & ? & ? & ? & ? & ? & ? & ? & ? & ? & ? & ? & _ & _ & _ & _ & _ & _ & _ & _ & _ & _ & _ & _ & _ & _ & _ & _ & _ & R). exact R. }
  assert (Hval : dest < 2 ^ 32 /\ forall h, hook = Some h -> api_valid (ch_api C) h = true).
  { destruct Hd as (? & ? & ? & ? & ? & ? & ? & ? & ? & ? & ? & ? & _ & _ & _ & _ & _ & R & _ & _ & _ & _ & Ch & _).
    split; [exact R |]. eapply hook_given. exact Ch. }
  destruct Hval as [Hdest Hhook].
  set (u0 := add_log (LDo caller (CExec route (MTransferRemote dest recipient amount hook md) funds)) w).
  destruct (move_ok caller route funds u0) as (b & Hmv & B).
  { apply coins_bounded. intros x. apply Hpay. }
  { exact Hbal. }
  set (u := set_bank b u0) in *.
  assert (Hamt : amount_of tk funds = amount_of tk fees + amount).
  { destruct (Hpay tk) as [E _]. rewrite Eo, bytes_eqb_refl in E. exact E. }
  destruct (take_exists tk amount (norm_coins funds)) as (rest & Htaken); auto.
  { apply norm_no_repeats. }
  { apply norm_positive. }
  { rewrite norm_amount. lia. }
  assert (Hrest : forall x, amount_of x rest = amount_of x fees).
  { intros x. pose proof (taken_amounts _ _ _ _ x Htaken) as E. rewrite norm_amount in E.
    destruct (Hpay x) as [E1 _]. rewrite Eo in E1. lia. }
  set (Q := fun s => wq C k (set_inst route (IC s) u)).
  set (e := mkEnv route (w_height u)). set (i := mkInfo caller (norm_coins funds)).
  set (r := plain ((if mode_eqb (reported_mode st) Bridged then [CBurn route amount tk] else [])
                ++ [transfer_dispatch st mb dest router recipient amount hook md rest])).
  assert (Hx : c_execute (ch_api C) Q e i (MTransferRemote dest recipient amount hook md) st = Ok (st, r)).
  { apply native_transfer; [exact Hkn |]. split; [exact Hdest |]. split; [exact H128 |]. split; [exact Hhook |].
    split; [reflexivity |]. exists tk, router, mb, rest. auto. }
  set (v0 := add_log (LCall route (EvExec e i (MTransferRemote dest recipient amount hook md) Q) r) (set_inst route (IC st) u)).
  assert (Hcu : contract_at u route st) by exact Hc.
  assert (Hi0 : forall y : addr, om_get y (w_inst v0) = om_get y (w_inst w)) by exact (same_at u route st Hcu).
  assert (Ha0 : forall y : addr, y <> route -> answers_at y (w_log v0) = answers_at y (w_log w)).
  { intros y Hy. change (w_log v0) with ((w_log w ++ [LDo caller (CExec route (MTransferRemote dest recipient amount hook md) funds)])
      ++ [LCall route (EvExec e i (MTransferRemote dest recipient amount hook md) Q) r]).
    rewrite answers_call by exact Hy. apply answers_do. }
  assert (Hroute : forall (z : addr) st', contract_at w z st' -> ~ is_warp st' -> z <> route).
  { intros z st' Hz Hw ->. unfold contract_at in *. assert (st' = st) by congruence. subst st'. contradiction. }
  assert (Hfs : Forall (fun c => c_amount c < 2 ^ 128) rest).
  { apply coins_bounded. intros x. rewrite Hrest. destruct (Hpay x) as [E1 E2]. lia. }
  (* the world in which the mailbox is called *)
  assert (Hv : exists v k', (n + 3 <= k')%nat /\ ahead w v /\
    (forall y : addr, om_get y (w_inst v) = om_get y (w_inst w)) /\
    w_admin v = w_admin w /\ w_height v = w_height w /\ w_next v = w_next w /\
    (forall y x, balance v y x + (if (bytes_eqb y route && bytes_eqb x tk && mode_eqb (reported_mode st) Bridged)%bool then amount else 0)
       = balance v0 y x) /\
    (forall w', perform C k' (exec C k') route (transfer_dispatch st mb dest router recipient amount hook md rest) v = Ok (w', RrNone) ->
       exec C k route (r_msgs r) v0 = Ok w')).
  { assert (Hah : forall v, (forall y : addr, om_get y (w_inst v) = om_get y (w_inst w)) ->
      (forall y : addr, y <> route -> answers_at y (w_log v) = answers_at y (w_log w)) -> ahead w v).
    { intros v E1 E2. split; [| split].
      - intros a s' _. unfold contract_at. rewrite E1. reflexivity.
      - intros a s' Hs _ Hw. apply E2. eapply Hroute; eauto.
      - intros a b1 Hb. rewrite E1. exact Hb. }
    destruct (mode_eqb (reported_mode st) Bridged) eqn:Em.
    - destruct (native_route C w route st tk HC Hr Hc Hkn Et) as [_ Hadm].
      destruct (mode_cases st Hk) as (_ & Eb & _). rewrite (Eb Em) in Hadm. destruct Hadm as [Hadm _].
      destruct k as [| [| k]]; try lia.
      destruct (burn_ok C (S k) (exec C (S k)) route amount tk v0) as (b1 & Hb & B1); [exact H0 | exact Hadm | |].
      { change (balance v0 route tk) with (bal b route tk). specialize (B route tk). rewrite bytes_eqb_refl in B.
        specialize (Hbal tk). change (balance u0 route tk) with (balance w route tk) in B.
        destruct (bytes_eqb route caller) eqn:E; [apply bytes_eqb_eq in E; subst caller |]; lia. }
      exists (set_bank b1 (add_log (LDo route (CBurn route amount tk)) v0)), k.
      split; [lia |]. split; [| split; [exact Hi0 |]].
      + apply Hah; [exact Hi0 |]. intros y Hy.
        change (w_log (set_bank b1 (add_log (LDo route (CBurn route amount tk)) v0))) with (w_log v0 ++ [LDo route (CBurn route amount tk)]).
        rewrite answers_do. now apply Ha0.
      + split; [reflexivity |]. split; [reflexivity |]. split; [reflexivity |]. split.
        * intros y x. rewrite andb_true_r. apply B1.
        * intros w' P. unfold r, plain. cbn [r_msgs app map]. erewrite exec_never by exact Hb.
          erewrite exec_never by exact P. destruct k; [lia | reflexivity].
    - destruct k as [| k]; [lia |]. exists v0, k. split; [lia |].
      split; [apply Hah; [exact Hi0 | exact Ha0] |]. split; [exact Hi0 |]. split; [reflexivity |]. split; [reflexivity |].
      split; [reflexivity |]. split.
      + intros y x. rewrite andb_false_r. lia.
      + intros w' P. unfold r, plain. cbn [r_msgs app map]. erewrite exec_never by exact P. destruct k; [lia | reflexivity]. }
  destruct Hv as (v & k' & Hk' & Hah & Hiv & Hav & Hhv & Hnv & Bv & Pv).
  destruct (ahead_run C n k' w v mb route d raw fees pays marks rest Hah Hd Hf Hfs Hrest) as (w' & P & D & F & R & (O1 & O2 & O3 & O4)).
  { intros x. specialize (Bv route x). specialize (B route x). change (balance v0 route x) with (bal b route x) in Bv.
    rewrite bytes_eqb_refl in B, Bv. specialize (Hbal x). change (balance u0 route x) with (balance w route x) in B.
    destruct (Hpay x) as [E1 _]. rewrite Eo in E1. cbn [andb] in Bv.
    destruct (bytes_eqb route caller) eqn:E; [apply bytes_eqb_eq in E; subst caller |];
    destruct (bytes_eqb x tk); destruct (mode_eqb (reported_mode st) Bridged); cbn [andb] in Bv; lia. }
  { exact Hk'. }
  exists w'. split; [| split; [exact D | split; [exact R | split; [| split]]]].
  - unfold tx_run. rewrite Hacc. cbn [ensure bind]. unfold perform. fold u0. rewrite Hmv. cbn [bind]. fold u.
    erewrite invoke_ok; [reflexivity | exact Hcu | exact Hx |]. fold Q e i. fold v0. apply Pv. exact P.
  - intros a x. rewrite Eo. specialize (F a x). specialize (Bv a x). specialize (B a x).
    change (balance v0 a x) with (bal b a x) in Bv. change (balance u0 a x) with (balance w a x) in B.
    destruct (Hpay x) as [E1 _]. rewrite Eo in E1. destruct (mode_cases st Hk) as (Em & _ & _). rewrite Em.
    destruct (bytes_eqb a caller), (bytes_eqb a route), (bytes_eqb x tk), (mode_eqb (reported_mode st) Bridged); cbn [andb negb] in *; lia.
  - intros X. destruct st; try contradiction Hkn; contradiction X.
  - split; [| split; [| split]]; try congruence. intros a E1 E2 _. rewrite O1 by assumption. apply Hiv.
Qed.

(** ** Cw20 routes *)
Lemma cw_allowed_of x o p : cw_allowed (SCw20 x) o p = match om_get (o, p) (cw_allowances x) with Some n => n | None => 0 end.
Proof. reflexivity. Qed.

Lemma cw_take_ok A i x (owner to : addr) n : cw_sane x -> api_valid A owner = true -> api_valid A to = true -> n <> 0 ->
  n <= cw_balance x owner -> n <= cw_allowed (SCw20 x) owner (i_sender i) ->
  exists x', cw_execute A i (MCw20TransferFrom owner to n) x = Ok (x', resp0) /\ cw_supply x' = cw_supply x /\
    (forall a, cw_balance x' a + (if bytes_eqb a owner then n else 0) = cw_balance x a + (if bytes_eqb a to then n else 0)) /\
    (forall o p, cw_allowed (SCw20 x') o p + (if (bytes_eqb o owner && bytes_eqb p (i_sender i))%bool then n else 0)
       = cw_allowed (SCw20 x) o p).
Proof.
  intros (Hs & He & Hb) Hv Hv' H0 Hn Ha. cbn [cw_execute].
  rewrite (proj2 (addr_validate_iff A to to) (conj Hv' eq_refl)). cbn [bind].
  rewrite (proj2 (addr_validate_iff A owner owner) (conj Hv eq_refl)). cbn [bind].
  rewrite cw_allowed_of in Ha. destruct (om_get (owner, i_sender i) (cw_allowances x)) as [al |] eqn:Eal; [| lia].
  cbn [ok_or bind]. rewrite (proj2 (N.leb_le _ _) Ha). cbn [ensure bind].
  destruct (cw_move (cw_balances x) owner to n) as [b | |] eqn:Ec.
  { cbn [bind]. eexists. split; [reflexivity |]. split; [reflexivity |]. split.
    - intros a. exact (cw_move_spec _ _ _ _ _ a Ec).
    - intros o p. rewrite !cw_allowed_of. cbn [cw_allowances]. rewrite om_get_set.
      replace (keqb (o, p) (owner, i_sender i)) with (bytes_eqb o owner && bytes_eqb p (i_sender i))%bool.
      2:{ destruct (bytes_eqb o owner) eqn:E1, (bytes_eqb p (i_sender i)) eqn:E2; cbn [andb]; symmetry;
          [apply bytes_eqb_eq in E1, E2; subst; apply keqb_refl | ..];
          (destruct (keqb (o, p) (owner, i_sender i)) eqn:E; [| reflexivity]); apply keqb_eq in E;
          injection E as -> ->; rewrite bytes_eqb_refl in *; discriminate. }
      destruct (bytes_eqb o owner) eqn:E1, (bytes_eqb p (i_sender i)) eqn:E2; cbn [andb];
        try (destruct (om_get (o, p) (cw_allowances x)); lia).
      apply bytes_eqb_eq in E1, E2. subst. rewrite Eal. lia. }
  all: exfalso; unfold cw_move in Ec; destruct (cw_debit (cw_balances x) owner n) as [b1 | |] eqn:Ed.
  all: try (unfold cw_debit in Ed; unfold cw_balance in Hn; rewrite (proj2 (N.leb_le _ _) Hn) in Ed; discriminate Ed).
  all: destruct (cw_debit_sum _ _ _ _ Hs Ed) as [S1 E1]; pose proof (cw_sum_bound b1 to) as Bd; unfold bal_in in Bd;
       cbn [bind] in Ec; unfold cw_credit in Ec; rewrite (proj2 (N.ltb_lt _ _)) in Ec; [discriminate Ec |];
       eapply N.le_lt_trans; [| exact Hb]; lia.
Qed.

Lemma cw_burn_ok A i x n : cw_sane x -> n <= cw_balance x (i_sender i) ->
  exists x', cw_execute A i (MCw20Burn n) x = Ok (x', resp0) /\ cw_supply x' + n = cw_supply x /\
    (forall a, cw_balance x' a + (if bytes_eqb a (i_sender i) then n else 0) = cw_balance x a) /\
    (forall o p, cw_allowed (SCw20 x') o p = cw_allowed (SCw20 x) o p).
Proof.
  intros (Hs & He & Hb) Hn. cbn [cw_execute]. pose proof (cw_sum_bound (cw_balances x) (i_sender i)) as Bd.
  change (bal_in (cw_balances x) (i_sender i)) with (cw_balance x (i_sender i)) in Bd.
  destruct (cw_debit (cw_balances x) (i_sender i) n) as [b | |] eqn:Ed.
  2,3: exfalso; unfold cw_debit in Ed; unfold cw_balance in Hn; rewrite (proj2 (N.leb_le _ _) Hn) in Ed; discriminate Ed.
  cbn [bind]. rewrite (proj2 (N.leb_le _ _)) by lia. cbn [ensure bind].
  eexists. split; [reflexivity |]. cbn [cw_supply]. split; [lia |]. split; [| reflexivity].
  intros a. exact (cw_debit_spec _ _ _ _ a Ed).
Qed.

(** one call to the token *)
Lemma token_call C k v (tk : addr) x c m x' :
  contract_at v tk (SCw20 x) -> emsg_ok m = true -> cw_execute (ch_api C) (mkInfo c []) m x = Ok (x', resp0) -> (1 <= k)%nat ->
  exists v', perform C k (exec C k) c (CExec tk m []) v = Ok (v', RrNone) /\ contract_at v' tk (SCw20 x') /\
    (forall y : addr, y <> tk -> om_get y (w_inst v') = om_get y (w_inst v)) /\
    (forall y : addr, y <> tk -> answers_at y (w_log v') = answers_at y (w_log v)) /\
    w_bank v' = w_bank v /\ w_admin v' = w_admin v /\ w_height v' = w_height v /\ w_next v' = w_next v.
Proof.
  intros Hc Hm Hx Hk. destruct k as [| k]; [lia |].
  set (u := add_log (LDo c (CExec tk m [])) v).
  set (Q := fun s => wq C (S k) (set_inst tk (IC s) u)).
  exists (add_log (LCall tk (EvExec (mkEnv tk (w_height u)) (mkInfo c (norm_coins [])) m Q) resp0) (set_inst tk (IC (SCw20 x')) u)).
  split; [| split; [apply om_get_set_eq | split; [| split; [| repeat split]]]].
  - unfold perform. rewrite move_none. fold u. cbn [bind].
    assert (He : c_execute (ch_api C) Q (mkEnv tk (w_height u)) (mkInfo c (norm_coins [])) m (SCw20 x) = Ok (SCw20 x', resp0)).
    { unfold c_execute, lift. rewrite Hm. cbn [ensure bind]. change (norm_coins []) with (@nil coin). rewrite Hx. reflexivity. }
    erewrite invoke_ok; [reflexivity | exact Hc | exact He | reflexivity].
  - intros y Hy. cbn [w_inst add_log set_inst]. now rewrite om_get_set_neq.
  - intros y Hy. cbn [w_log add_log set_inst]. rewrite answers_call by exact Hy. apply answers_do.
Qed.

Lemma cw20_sent C n k w mb route st dest recipient amount hook md raw fees pays marks caller funds :
  chain_ok C -> reachable C w -> transferable C n w mb route st dest recipient amount hook md raw fees pays marks ->
  is_warp_cw20 st -> pays_for st amount fees funds -> affords C w route st caller amount funds ->
  ch_account C caller = true -> (n + 6 <= k)%nat ->
  exists w', tx_run C k (TExec caller route (MTransferRemote dest recipient amount hook md) funds) w = Ok w' /\
    dispatched_one w w' mb raw /\ recorded w w' raw marks /\ coins_moved w w' route st caller amount fees pays /\
    tokens_moved w w' route st caller amount /\ rest_same w w' mb st marks.
Proof.
  intros HC Hr (Hc & Hk & Hmb & H0 & H128 & router & Hrt & Hd) Hkc Hpay (Hbal & _ & Htk) Hacc Hn.
  destruct (Htk Hkc) as (Hvc & Hvr & tk & tst & Et & Hct & Hkt & Hhold & Hal). clear Htk.
  destruct (cw_books C w tk tst Hr Hct Hkt) as (x & -> & Hsane). clear Hkt.
  assert (Eo : forall y, own_denom st y = false) by (intros y; now apply own_denom_cw20).
  assert (Hfe : forall y, amount_of y funds = amount_of y fees).
  { intros y. destruct (Hpay y) as [E _]. rewrite Eo in E. lia. }
  set (d := mkDispatch dest router (recipient ++ be 32 amount) (match hook with Some h => Some h | None => reported_conn_hook st end) md) in *.
  assert (Hf : fits_in w [] marks).
  { apply (room_fits C); [exact Hr |].
    destruct Hd as (? & ? & ? & ? & ? & ? & ? & ? & ? & ? & ? & ? & _ & _ & _ & _ & _ & _ & _ & _ & _ & _ & _ & _ & _ & _ & _ & _ & _ & R). exact R. }
  assert (Hval : dest < 2 ^ 32 /\ forall h, hook = Some h -> api_valid (ch_api C) h = true).
  { destruct Hd as (? & ? & ? & ? & ? & ? & ? & ? & ? & ? & ? & ? & _ & _ & _ & _ & _ & R & _ & _ & _ & _ & Ch & _).
    split; [exact R |]. eapply hook_given. exact Ch. }
  destruct Hval as [Hdest Hhook].
  assert (Hmbk : exists mbst, contract_at w mb mbst /\ is_mailbox mbst).
  { destruct Hd as (mbst & ? & ? & ? & ? & ? & ? & ? & ? & ? & ? & ? & Hm & Hno & _). exists mbst. split; [exact Hm |].
    apply nonce_mailbox in Hno as (z & -> & _). reflexivity. }
  assert (Hnm : tk <> mb).
  { destruct Hmbk as (mbst & M1 & M2). eapply elsewhere; [exact Hct | exact M1 |]. intros <-. discriminate M2. }
  assert (Hnr : route <> tk).
  { eapply elsewhere; [exact Hc | exact Hct |]. intros ->. contradiction Hkc. }
  assert (Hnk : occ tk marks = 0).
  { destruct (N.eq_dec (occ tk marks) 0) as [E | E]; [exact E |].
    destruct (ahead_marks C n w mb route d raw fees pays marks tk Hd E) as (s & S1 & S2).
    unfold contract_at in *. rewrite Hct in S1. injection S1 as <-. contradiction S2. }
  set (u0 := add_log (LDo caller (CExec route (MTransferRemote dest recipient amount hook md) funds)) w).
  destruct (move_ok caller route funds u0) as (b & Hmv & B).
  { apply coins_bounded. intros y. apply Hpay. }
  { exact Hbal. }
  set (u := set_bank b u0) in *.
  set (Q := fun s => wq C k (set_inst route (IC s) u)).
  set (e := mkEnv route (w_height u)). set (i := mkInfo caller (norm_coins funds)).
  set (r := plain (CExec tk (MCw20TransferFrom caller route amount) []
                :: (if mode_eqb (reported_mode st) Bridged then [CExec tk (MCw20Burn amount) []] else [])
                ++ [transfer_dispatch st mb dest router recipient amount hook md (norm_coins funds)])).
  assert (Hx : c_execute (ch_api C) Q e i (MTransferRemote dest recipient amount hook md) st = Ok (st, r)).
  { apply cw20_transfer; [exact Hkc |]. split; [exact Hdest |]. split; [exact H128 |]. split; [exact Hhook |].
    split; [reflexivity |]. exists tk, router, mb. auto. }
  set (v0 := add_log (LCall route (EvExec e i (MTransferRemote dest recipient amount hook md) Q) r) (set_inst route (IC st) u)).
  assert (Hcu : contract_at u route st) by exact Hc.
  assert (Hi0 : forall y : addr, om_get y (w_inst v0) = om_get y (w_inst w)) by exact (same_at u route st Hcu).
  assert (Ha0 : forall y : addr, y <> route -> answers_at y (w_log v0) = answers_at y (w_log w)).
  { intros y Hy. change (w_log v0) with ((w_log w ++ [LDo caller (CExec route (MTransferRemote dest recipient amount hook md) funds)])
      ++ [LCall route (EvExec e i (MTransferRemote dest recipient amount hook md) Q) r]).
    rewrite answers_call by exact Hy. apply answers_do. }
  assert (Hroute : forall (z : addr) st', contract_at w z st' -> ~ is_warp st' -> z <> route).
  { intros z st' Hz Hw ->. unfold contract_at in *. assert (st' = st) by congruence. subst st'. contradiction. }
  destruct k as [| [| [| k]]]; try lia.
  change (cw_holding (SCw20 x) caller) with (cw_balance x caller) in Hhold.
  assert (Hu128 : u128_ok amount = true) by (apply N.ltb_lt; exact H128).
  destruct (cw_take_ok (ch_api C) (mkInfo route []) x caller route amount Hsane Hvc Hvr H0 Hhold Hal)
    as (x1 & X1 & X2 & X3 & X4).
  assert (Hct0 : contract_at v0 tk (SCw20 x)) by (unfold contract_at; rewrite Hi0; exact Hct).
  destruct (token_call C (S (S k)) v0 tk x route (MCw20TransferFrom caller route amount) x1 Hct0 Hu128 X1 ltac:(lia)) as (v1 & P1 & C1 & I1 & L1 & K1 & A1 & G1 & N1).
  assert (Hv : exists v k' x', (n + 3 <= k')%nat /\ contract_at v tk (SCw20 x') /\
    (forall y : addr, y <> tk -> om_get y (w_inst v) = om_get y (w_inst w)) /\
    (forall y : addr, y <> route -> y <> tk -> answers_at y (w_log v) = answers_at y (w_log w)) /\
    w_bank v = w_bank v0 /\ w_admin v = w_admin w /\ w_height v = w_height w /\ w_next v = w_next w /\
    cw_supply x' + (if mode_eqb (reported_mode st) Bridged then amount else 0) = cw_supply x /\
    (forall a, cw_balance x' a + (if bytes_eqb a caller then amount else 0)
       = cw_balance x a + (if (bytes_eqb a route && mode_eqb (reported_mode st) Collateral)%bool then amount else 0)) /\
    (forall o p, cw_allowed (SCw20 x') o p + (if (bytes_eqb o caller && bytes_eqb p route)%bool then amount else 0)
       = cw_allowed (SCw20 x) o p) /\
    (forall w', perform C k' (exec C k') route
         (transfer_dispatch st mb dest router recipient amount hook md (norm_coins funds)) v = Ok (w', RrNone) ->
       exec C (S (S (S k))) route (r_msgs r) v0 = Ok w')).
  { destruct (mode_cases st Hk) as (Em & _ & _).
    assert (J1 : forall y : addr, y <> tk -> om_get y (w_inst v1) = om_get y (w_inst w)) by (intros y Hy; rewrite I1; auto).
    assert (J2 : forall y : addr, y <> route -> y <> tk -> answers_at y (w_log v1) = answers_at y (w_log w))
      by (intros y Hy Hy'; rewrite L1; auto).
    destruct (mode_eqb (reported_mode st) Bridged) eqn:Eb; cbn [negb] in Em.
    - assert (Hs1 : cw_sane x1) by (eapply cw_sane_step; [exact Hsane | exact X1]).
      destruct (cw_burn_ok (ch_api C) (mkInfo route []) x1 amount Hs1) as (x2 & Y1 & Y2 & Y3 & Y4).
      { cbn [i_sender]. specialize (X3 route). rewrite bytes_eqb_refl in X3.
        destruct (bytes_eqb route caller) eqn:E; [apply bytes_eqb_eq in E; subst caller |]; lia. }
      destruct (token_call C (S k) v1 tk x1 route (MCw20Burn amount) x2 C1 Hu128 Y1 ltac:(lia)) as (v2 & P2 & C2 & I2 & L2 & K2 & A2 & G2 & N2).
      exists v2, k, x2. split; [lia |]. split; [exact C2 |].
      split; [intros y Hy; rewrite I2; auto |]. split; [intros y Hy Hy'; rewrite L2; auto |].
      split; [congruence |]. split; [rewrite A2, A1; reflexivity |]. split; [rewrite G2, G1; reflexivity |].
      split; [rewrite N2, N1; reflexivity |]. split; [lia |]. split; [| split].
      + intros a. specialize (X3 a). specialize (Y3 a). cbn [i_sender] in Y3. rewrite Em, andb_false_r.
        destruct (bytes_eqb a caller), (bytes_eqb a route); lia.
      + intros o p. rewrite Y4. apply X4.
      + intros w' P. unfold r, plain. cbn [r_msgs app map]. erewrite exec_never by exact P1. erewrite exec_never by exact P2.
        erewrite exec_never by exact P. destruct k; [lia | reflexivity].
    - exists v1, (S k), x1. split; [lia |]. split; [exact C1 |]. split; [exact J1 |]. split; [exact J2 |].
      split; [exact K1 |]. split; [rewrite A1; reflexivity |]. split; [rewrite G1; reflexivity |].
      split; [rewrite N1; reflexivity |]. split; [lia |]. split; [| split].
      + intros a. rewrite Em, andb_true_r. apply X3.
      + exact X4.
      + intros w' P. unfold r, plain. cbn [r_msgs app map]. erewrite exec_never by exact P1. erewrite exec_never by exact P. reflexivity. }
  destruct Hv as (v & k' & x' & Hk' & Cv & Iv & Lv & Kv & Av & Gv & Nv & Sv & Bv & Wv & Pv).
  assert (Hah : ahead w v).
  { split; [| split].
    - intros a s Hs. destruct (bytes_eqb a tk) eqn:E.
      + apply bytes_eqb_eq in E. subst a. unfold contract_at in *. split; intros X.
        * rewrite Hct in X. injection X as <-. contradiction Hs. exact I.
        * rewrite Cv in X. injection X as <-. contradiction Hs. exact I.
      + apply bytes_eqb_neq in E. unfold contract_at. rewrite Iv by exact E. reflexivity.
    - intros a s Hs Hs1 Hs2. apply Lv; [eapply Hroute; eauto |].
      eapply elsewhere; [exact Hs | exact Hct |]. intros ->. contradiction Hs1. exact I.
    - intros a b1 Hb. rewrite Iv; [exact Hb |]. intros ->. unfold contract_at in Hct. rewrite Hct in Hb. discriminate Hb. }
  destruct (ahead_run C n k' w v mb route d raw fees pays marks (norm_coins funds) Hah Hd Hf) as (w' & P & D & F & R & (O1 & O2 & O3 & O4)).
  { apply coins_bounded. intros y. rewrite norm_amount. apply Hpay. }
  { intros y. rewrite norm_amount. apply Hfe. }
  { intros y. unfold balance. rewrite Kv. specialize (B route y). rewrite bytes_eqb_refl in B. specialize (Hbal y).
    change (w_bank v0) with b. change (balance u0 route y) with (balance w route y) in B. rewrite Hfe in *.
    destruct (bytes_eqb route caller) eqn:E; [apply bytes_eqb_eq in E; subst caller |]; lia. }
  { exact Hk'. }
  exists w'. split; [| split; [exact D | split; [exact R | split; [| split]]]].
  - unfold tx_run. rewrite Hacc. cbn [ensure bind]. unfold perform. fold u0. rewrite Hmv. cbn [bind]. fold u.
    erewrite invoke_ok; [reflexivity | exact Hcu | exact Hx |]. fold Q e i. fold v0. apply Pv. exact P.
  - intros a y. rewrite Eo, andb_false_r. cbn [andb]. specialize (F a y). specialize (B a y).
    assert (E : balance v a y = bal b a y) by (unfold balance; rewrite Kv; reflexivity). rewrite E in F.
    change (balance u0 a y) with (balance w a y) in B. rewrite Hfe in B.
    destruct (bytes_eqb a caller), (bytes_eqb a route); lia.
  - intros _ tk' tst' Et' Hct'. rewrite Et in Et'. apply Some_inj in Et'. subst tk'.
    unfold contract_at in Hct'. rewrite Hct in Hct'. injection Hct' as <-.
    exists (SCw20 x'). split; [unfold contract_at; rewrite O1 by auto; exact Cv |]. split; [exact I |].
    split; [exact Bv |]. split; [exact Sv | exact Wv].
  - split; [| split; [| split]]; try congruence. intros a E1 E2 E3. rewrite O1 by assumption. apply Iv.
    intros ->. apply E3; auto.
Qed.

(** ** Both kinds *)
Lemma transfer_sent C n k w mb route st dest recipient amount hook md raw fees pays marks caller funds :
  chain_ok C -> reachable C w -> transferable C n w mb route st dest recipient amount hook md raw fees pays marks ->
  pays_for st amount fees funds -> affords C w route st caller amount funds ->
  ch_account C caller = true -> (n + 6 <= k)%nat ->
  exists w', tx_run C k (TExec caller route (MTransferRemote dest recipient amount hook md) funds) w = Ok w' /\
    dispatched_one w w' mb raw /\ recorded w w' raw marks /\ coins_moved w w' route st caller amount fees pays /\
    tokens_moved w w' route st caller amount /\ rest_same w w' mb st marks.
Proof.
  intros HC Hr Ht Hp Ha Hacc Hk. pose proof Ht as (_ & Hw & _). destruct (warp_kinds st Hw) as [[H _] | [H _]].
  - eapply native_sent; eauto.
  - eapply cw20_sent; eauto.
Qed.

Lemma transfer_message C n w mb route st dest recipient amount hook md raw fees pays marks :
  transferable C n w mb route st dest recipient amount hook md raw fees pays marks ->
  exists m router, msg_decode raw = Ok m /\ m_version m = 3 /\ m_dest m = dest /\
    reported_route st dest = Some (Some router) /\ m_recipient m = router /\ bech32_to_h256 route = Ok (m_sender m) /\
    m_body m = recipient ++ be 32 amount /\
    (length recipient = 32%nat -> warp_decode (m_body m) = Ok (mkWarp recipient amount [])).
Proof.
  intros (_ & _ & _ & _ & H128 & router & Hrt & mbst & nonce & domain & sender & required & hk & f1 & p1 & k1 & f2 & p2 & k2 & _ & _ & _ &
    Hn1 & Hdm & Hdd & Hlr & Hs & Hraw & _).
  cbn [d_dest d_recipient d_body] in *.
  assert (Ls : length sender = 32%nat).
  { unfold bech32_to_h256 in Hs. apply bind_Ok_inv in Hs as (z & _ & Hs). unfold pad32 in Hs.
    destruct (Nat.leb (length z) 32) eqn:E; [|discriminate]. apply Ok_inj in Hs as <-.
    apply PeanoNat.Nat.leb_le in E. rewrite app_length. unfold zeros. rewrite repeat_length. lia. }
  eexists. exists router. split.
  { rewrite Hraw. apply msg_decode_encode. unfold msg_wf. cbn.
    change u32_max with (2 ^ 32). repeat split; try assumption; try reflexivity. lia. }
  cbn. repeat (split; [auto; fail |]). intros Hl. now apply payload_read.
Qed.

Lemma transfer_quoted C n k w mb route st dest recipient amount hook md raw fees pays marks :
  transferable C n w mb route st dest recipient amount hook md raw fees pays marks ->
  api_valid (ch_api C) route = true -> (n < k)%nat ->
  exists router, reported_route st dest = Some (Some router) /\
    q_smart (wq C k w) mb (QMailboxQuote route (mkDispatch dest router (recipient ++ be 32 amount)
      (match hook with Some h => Some h | None => reported_conn_hook st end) md)) = Ok (RFees fees) /\
    (forall x, amount_of x fees = amount_of x (map snd pays)).
Proof.
  intros (_ & _ & _ & _ & _ & router & Hrt & Hd) Hv Hk. exists router. split; [exact Hrt |].
  exact (dispatch_quoted C n k w mb route _ raw fees pays marks Hd Hv Hk).
Qed.
