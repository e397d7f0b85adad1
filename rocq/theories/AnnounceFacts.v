(** * Announcements on a chain (C98). *)
From Coq Require Import List NArith Bool Lia Permutation Relations.
From Verif Require Import Base BaseFacts OMap Hex Coins Crypto Message Bech32 Chain Contracts
  Mailbox Va Isms Hooks Igp Warp Cw20 FoundFacts Spec SpecModules StepFacts VaFacts MailboxConfFacts MailboxFacts
  World SpecWorld WorldFacts WorldRoute WorldLive SpecAnnounce.
Import ListNotations.

(** ** What the contract lists *)
Lemma announcements_told A st h st' : lives A st h st' ->
  announcements A st (map fst h) =
  flat_map (fun ev => match ev_msg ev with Some (MAnnounce v _ loc) => [(v, loc)] | _ => [] end) (map fst h).
Proof.
  intros L. rewrite <- (lives_accepted _ _ _ _ L) at 2. unfold announcements.
  induction (accepted_calls A st (map fst h)) as [| p l IH]; [reflexivity |]. cbn [flat_map map]. now rewrite IH.
Qed.

Lemma va_kind st : is_va st <-> kind st = 1.
Proof. destruct st; cbn [is_va kind]; split; intros H; try exact I; try contradiction H; try reflexivity; discriminate H. Qed.

Lemma va_at C w a st : reachable C w -> contract_at w a st -> is_va st ->
  exists e i q mbx st0,
    births_at a (w_log w) = [(e, i, q, IVa mbx, resp0)] /\
    c_instantiate (ch_api C) q e i (IVa mbx) = Ok (st0, resp0) /\ is_va st0 /\
    lives (ch_api C) st0 (answers_at a (w_log w)) st /\ st = c_run (ch_api C) st0 (events_at a (w_log w)) /\
    announcements (ch_api C) st0 (events_at a (w_log w)) = announced_at a (w_log w).
Proof.
  intros R Hc Hk. destruct (chain_history C w a st R Hc) as (e & i & q & m & r & st0 & B & _ & Hi & L & E).
  assert (K0 : kind st0 = 1).
  { rewrite <- (run_kind (ch_api C) st0 (events_at a (w_log w))), <- E. now apply va_kind. }
  assert (M : exists mbx, m = IVa mbx).
  { pose proof (kind_founded _ _ _ _ _ _ _ Hi) as F. destruct m; destruct st0; try contradiction F; try discriminate K0. eauto. }
  destruct M as [mailbox ->].
  assert (r = resp0) as ->.
  { pose proof Hi as H0. unfold c_instantiate, lift, va_instantiate in H0. cbn [imsg_ok ensure bind] in H0.
    apply bind_Ok_inv in H0 as ([x0 r1] & H0 & E1). apply Ok_inj, pair_equal_spec in E1 as [_ <-].
    apply bind_Ok_inv in H0 as (m & _ & H0). apply bind_Ok_inv in H0 as (b & _ & H0).
    apply bind_Ok_inv in H0 as (rr & _ & H0). destruct rr; try discriminate H0.
    now apply Ok_inj, pair_equal_spec in H0 as [_ <-]. }
  exists e, i, q, mailbox, st0. split; [exact B |]. split; [exact Hi |]. split; [now apply va_kind |]. split; [exact L |].
  split; [exact E |]. unfold announced_at. exact (announcements_told _ _ _ _ L).
Qed.

Lemma chain_listed C w a st v : reachable C w -> contract_at w a st -> is_va st ->
  announced st v = Some (locations_of v (announced_at a (w_log w))) /\
  NoDup (announced_at a (w_log w)) /\
  (forall v' loc, In (v', loc) (announced_at a (w_log w)) ->
     length v' = 20%nat /\ exists sg, announcement_signed (ch_api C) st v' sg loc).
Proof.
  intros R Hc Hk. destruct (va_at C w a st R Hc Hk) as (e & i & q & mbx & st0 & _ & Hi & K0 & _ & E & <-).
  destruct (va_initial _ _ _ _ _ _ _ v Hi) as (_ & A0 & _).
  destruct (va_frame (ch_api C) st0 (events_at a (w_log w)) K0) as [F1 F2].
  split; [rewrite E; exact (announced_history _ _ _ v [] K0 A0) |].
  split; [exact (announcements_NoDup _ _ _ K0) |].
  intros v' loc Hin. destruct (announcements_signed _ _ _ _ _ K0 Hin) as (H1 & sg & d & mb & D & M & H2).
  split; [exact H1 |]. exists sg, d, mb. rewrite E, F1, F2. auto.
Qed.

(** ** Later *)
Lemma va_later C w txs a st : contract_at w a st -> is_va st ->
  exists st', contract_at (chain_run C w txs) a st' /\ is_va st'.
Proof.
  intros Hc Hk. destruct (asteps_kind C w _ a (IC st) (chain_run_steps C txs w) Hc) as ([st' | y] & Hy & K); [| contradiction K].
  exists st'. split; [exact Hy |]. apply va_kind. apply va_kind in Hk. cbn [same_kind] in K. congruence.
Qed.

Lemma told_later C w txs a : exists new, announced_at a (w_log (chain_run C w txs)) = announced_at a (w_log w) ++ new.
Proof.
  destruct (asteps_extends C _ _ (chain_run_steps C txs w)) as [new ->]. unfold announced_at, events_at, answers_at.
  rewrite flat_map_app, map_app, flat_map_app. eauto.
Qed.

Lemma announced_kept C w txs a st v l0 :
  reachable C w -> contract_at w a st -> is_va st -> announced st v = Some l0 ->
  exists st' l1, contract_at (chain_run C w txs) a st' /\ is_va st' /\ announced st' v = Some (l0 ++ l1).
Proof.
  intros R Hc Hk Hl. destruct (va_later C w txs a st Hc Hk) as (st' & Hc' & Hk').
  destruct (chain_listed C w a st v R Hc Hk) as (E & _).
  destruct (chain_listed C _ a st' v (reachable_later C w txs R) Hc' Hk') as (E' & _).
  destruct (told_later C w txs a) as [new T]. rewrite T in E'. unfold locations_of in E'. rewrite filter_app, map_app in E'.
  exists st', (locations_of v new). split; [exact Hc' |]. split; [exact Hk' |]. rewrite E'.
  rewrite E in Hl. apply Some_inj in Hl. rewrite <- Hl. reflexivity.
Qed.

Lemma frame_later C w txs a st st' :
  reachable C w -> contract_at w a st -> is_va st -> contract_at (chain_run C w txs) a st' ->
  reported_va_domain st' = reported_va_domain st /\ reported_va_mailbox st' = reported_va_mailbox st.
Proof.
  intros R Hc Hk Hc'.
  destruct (va_later C w txs a st Hc Hk) as (st2 & Hc2 & Hk').
  assert (st2 = st') as -> by (unfold contract_at in *; congruence).
  destruct (va_at C w a st R Hc Hk) as (e & i & q & mbx & st0 & B & Hi & K0 & _ & E & _).
  destruct (va_at C _ a st' (reachable_later C w txs R) Hc' Hk') as (e' & i' & q' & mbx' & st0' & B' & Hi' & _ & _ & E' & _).
  destruct (asteps_extends C _ _ (chain_run_steps C txs w)) as [new L].
  unfold births_at in B, B'. rewrite L, flat_map_app, B in B'. cbn [app] in B'. injection B' as -> -> -> -> _.
  rewrite Hi in Hi'. apply Ok_inj in Hi'. injection Hi' as <-.
  destruct (va_frame (ch_api C) st0 (events_at a (w_log w)) K0) as [F1 F2].
  destruct (va_frame (ch_api C) st0 (events_at a (w_log (chain_run C w txs))) K0) as [G1 G2].
  rewrite E, E', F1, F2, G1, G2. auto.
Qed.

(** ** Anybody can enter one *)
Lemma announce_enters C k w a st sender v sg loc :
  reachable C w -> contract_at w a st -> is_va st -> ch_account C sender = true ->
  length v = 20%nat -> announcement_signed (ch_api C) st v sg loc -> unheard w a v loc -> (1 <= k)%nat ->
  exists w', tx_run C k (TExec sender a (MAnnounce v sg loc) []) w = Ok w' /\ entered w w' a v loc.
Proof.
  intros R Hc Hk Hs L Hsg U K. destruct k as [| k]; [lia |].
  destruct (va_at C w a st R Hc Hk) as (e0 & i0 & q & mbx & st0 & _ & Hi & K0 & _ & E & T).
  destruct (va_frame (ch_api C) st0 (events_at a (w_log w)) K0) as [F1 F2].
  set (w1 := add_log (LDo sender (CExec a (MAnnounce v sg loc) [])) w).
  set (Q := fun s => wq C (S k) (set_inst a (IC s) w1)).
  assert (Ha : Contracts.accepted (ch_api C) st (EvExec (mkEnv a (w_height w1)) (mkInfo sender (norm_coins [])) (MAnnounce v sg loc) Q) = true).
  { pose proof (proj2 (announce_accepted _ _ _ _ _ _ _ (events_at a (w_log w)) (mkEnv a (w_height w1))
        (mkInfo sender (norm_coins [])) v sg loc Q Hi)) as X. rewrite <- E in X. apply X. clear X.
    split; [exact L |]. split.
    - destruct Hsg as (d & mb & D & M & Hr). exists d, mb. rewrite <- F1, <- F2, <- E. auto.
    - rewrite T. exact U. }
  pose proof Ha as Ha'. apply c_step_accepted in Ha' as [r Ha'].
  assert (Er : r = resp0).
  { destruct st as [ |x| | | | | | | | | | | | | | | |]; try contradiction Hk.
    destruct (va_step (ch_api C) x _ Ha) as (e1 & i1 & v1 & sg1 & l1 & Q1 & x' & Ev & _ & H). injection Ev as <- <- <- <- <- <-.
    cbn [c_apply] in Ha'. unfold c_execute, lift in Ha'. cbn [emsg_ok ensure bind va_execute] in Ha'. rewrite H in Ha'.
    cbn [bind] in Ha'. apply Ok_inj in Ha'. now injection Ha' as _ <-. }
  subst r. set (st' := c_step (ch_api C) st _) in Ha'. clearbody st'.
  exists (add_log (LCall a (EvExec (mkEnv a (w_height w1)) (mkInfo sender (norm_coins [])) (MAnnounce v sg loc) Q) resp0)
            (set_inst a (IC st') w1)).
  split.
  - unfold tx_run. rewrite Hs. cbn [ensure bind]. unfold perform. rewrite move_none. cbn [bind]. fold w1.
    rewrite (invoke_ok C (S k) (exec C (S k)) sender a (MAnnounce v sg loc) (norm_coins []) w1 st st' resp0
      (add_log (LCall a (EvExec (mkEnv a (w_height w1)) (mkInfo sender (norm_coins [])) (MAnnounce v sg loc) Q) resp0)
            (set_inst a (IC st') w1))); [reflexivity | exact Hc | exact Ha' | reflexivity].
  - unfold entered. cbn [w_log w_bank w_admin w_height w_next w_inst add_log set_inst w1]. split; [| split; [| auto]].
    + unfold announced_at, events_at. rewrite !answers_at_snoc. cbn [answers_at flat_map app]. rewrite bytes_eqb_refl. cbn [app].
      rewrite !map_app, !flat_map_app. cbn [map flat_map fst ev_msg app]. rewrite !app_nil_r. reflexivity.
    + intros b Nb. now apply om_get_set_neq.
Qed.

(** nobody can keep it out: whatever happens first, afterwards it is listed, once *)
Lemma announce_unblockable C w txs a st sender v sg loc k :
  reachable C w -> contract_at w a st -> is_va st -> ch_account C sender = true ->
  length v = 20%nat -> announcement_signed (ch_api C) st v sg loc -> (1 <= k)%nat ->
  let w2 := chain_run C w (txs ++ [(k, TExec sender a (MAnnounce v sg loc) [])]) in
  exists st2 locs, contract_at w2 a st2 /\ announced st2 v = Some locs /\ NoDup locs /\
    (In loc locs \/
     exists v' loc', In (v', loc') (announced_at a (w_log w2)) /\
       v' ++ loc' <> v ++ loc /\ keccak256_hash (v' ++ loc') = keccak256_hash (v ++ loc)).
Proof.
  intros R Hc Hk Hs L Hsg K w2.
  destruct (va_later C w (txs ++ [(k, TExec sender a (MAnnounce v sg loc) [])]) a st Hc Hk) as (st2 & Hc2 & Hk2). fold w2 in Hc2.
  assert (R2 : reachable C w2) by now apply reachable_later.
  destruct (chain_listed C w2 a st2 v R2 Hc2 Hk2) as (E & N & S2).
  assert (Nl : NoDup (locations_of v (announced_at a (w_log w2)))).
  { clear -N. unfold locations_of. induction (announced_at a (w_log w2)) as [| [v1 l1] l IH]; [constructor |].
    inversion N as [| ? ? H1 H2]; subst. cbn [filter fst]. destruct (bytes_eqb v1 v) eqn:B; [| now apply IH].
    apply bytes_eqb_eq in B. subst v1. cbn [map snd]. constructor; [| now apply IH].
    intros H. apply in_map_iff in H as ([v2 l2] & H & I2). apply filter_In in I2 as [I2 B]. cbn [fst snd] in *.
    apply bytes_eqb_eq in B. subst. contradiction. }
  exists st2, (locations_of v (announced_at a (w_log w2))). split; [exact Hc2 |]. split; [exact E |]. split; [exact Nl |].
  assert (Here : In (v, loc) (announced_at a (w_log w2)) -> In loc (locations_of v (announced_at a (w_log w2)))).
  { intros H. unfold locations_of. apply in_map_iff. exists (v, loc). split; [reflexivity |]. apply filter_In. split; [exact H |].
    cbn [fst]. apply bytes_eqb_refl. }
  set (w1 := chain_run C w txs).
  assert (E2 : w2 = tx_step C w1 (k, TExec sender a (MAnnounce v sg loc) [])).
  { unfold w2, w1, chain_run. rewrite fold_left_app. reflexivity. }
  destruct (va_later C w txs a st Hc Hk) as (st1 & Hc1 & Hk1). fold w1 in Hc1.
  destruct (frame_later C w txs a st st1 R Hc Hk Hc1) as [F1 F2].
  assert (Hsg1 : announcement_signed (ch_api C) st1 v sg loc).
  { destruct Hsg as (d & mb & D & M & Hr). exists d, mb. rewrite F1, F2. auto. }
  assert (R1 : reachable C w1) by now apply reachable_later.
  assert (Dec : unheard w1 a v loc \/ exists v' loc', In (v', loc') (announced_at a (w_log w1)) /\
             keccak256_hash (v' ++ loc') = keccak256_hash (v ++ loc)).
  { unfold unheard. clear. induction (announced_at a (w_log w1)) as [| [v1 l1] l IH]; [left; intros ? ? [] |].
    destruct (bytes_eq_dec (keccak256_hash (v1 ++ l1)) (keccak256_hash (v ++ loc))) as [D | D].
    - right. exists v1, l1. split; [now left | exact D].
    - destruct IH as [IH | (v' & loc' & H1 & H2)]; [left | right; exists v', loc'; split; [now right | exact H2]].
      intros v' loc' [H | H]; [apply pair_equal_spec in H as [<- <-]; exact D | now apply IH]. }
  destruct Dec as [U | (v' & loc' & H1 & H2)].
  - destruct (announce_enters C k w1 a st1 sender v sg loc R1 Hc1 Hk1 Hs L Hsg1 U K) as (w' & T & T' & _).
    left. apply Here. unfold tx_step in E2. cbn [fst snd] in E2. rewrite T in E2. rewrite E2, T'. apply in_or_app. right. now left.
  - assert (I2 : In (v', loc') (announced_at a (w_log w2))).
    { destruct (told_later C w1 [(k, TExec sender a (MAnnounce v sg loc) [])] a) as [new T].
      change (chain_run C w1 [(k, TExec sender a (MAnnounce v sg loc) [])]) with (tx_step C w1 (k, TExec sender a (MAnnounce v sg loc) [])) in T.
      rewrite E2, T. apply in_or_app. now left. }
    destruct (bytes_eq_dec (v' ++ loc') (v ++ loc)) as [D | D]; [left | right; exists v', loc'; auto].
    destruct (S2 _ _ I2) as [L' _]. apply app_inj_len in D as [-> ->]; [now apply Here | congruence].
Qed.

(** ** Coins sent along stay there *)
Lemma va_keeps_coins C bank l w a st d :
  chain_ok C -> om_sorted bank -> w = chain_run C (genesis bank) l -> contract_at w a st -> is_va st ->
  balance w a d = bal bank a d + inflow a d (w_log w).
Proof.
  intros HC Hb Hw Hc Hk. assert (R : reachable C w) by (exists bank, l; auto).
  pose proof (contract_money C bank l w a st d HC Hb Hw Hc) as M.
  destruct (va_at C w a st R Hc Hk) as (e & i & q & mbx & st0 & B & _ & K0 & L & _).
  assert (P : asked_by a (w_log w) = []).
  { apply Permutation_nil. symmetry. rewrite (asked_split a (w_log w)), B. cbn [flat_map snd resp0 r_msgs map app].
    assert (N : flat_map (fun p : event * response => map sm_msg (r_msgs (snd p))) (answers_at a (w_log w)) = [] /\ is_va st).
    { clear -L K0. induction L as [| h st1 ev st2 r L IH H]; [auto |]. destruct IH as [IH Hk1].
      assert (Hk2 : is_va st2) by (apply va_kind; apply va_kind in Hk1; rewrite (apply_kind _ _ _ _ _ H); exact Hk1).
      split; [| exact Hk2]. rewrite flat_map_app, IH. cbn [flat_map snd app]. rewrite app_nil_r.
      destruct st1 as [ |x| | | | | | | | | | | | | | | |]; try contradiction Hk1.
      assert (Ha : Contracts.accepted (ch_api C) (SVa x) ev = true) by (unfold Contracts.accepted; rewrite H; reflexivity).
      destruct (va_step (ch_api C) x ev Ha) as (e1 & i1 & v1 & sg1 & l1 & Q1 & x' & -> & _ & Hx).
      cbn [c_apply] in H. unfold c_execute, lift in H. cbn [emsg_ok ensure bind va_execute] in H. rewrite Hx in H.
      cbn [bind] in H. apply Ok_inj in H. injection H as _ <-. reflexivity. }
    rewrite (proj1 N). apply Permutation_refl. }
  rewrite P in M. cbn in M. rewrite N.add_0_r in M. exact M.
Qed.

(** ** The domain is the mailbox's *)
Lemma astep_evolves C w w' (b : addr) x' : astep C w w' -> om_get b (w_inst w') = Some x' ->
  (exists x, om_get b (w_inst w) = Some x /\
     (x' = x \/ (exists st st' ev r, x = IC st /\ x' = IC st' /\ c_apply (ch_api C) ev st = Ok (st', r)) \/
      (exists y y', x = IX y /\ x' = IX y'))) \/
  (om_get b (w_inst w) = None /\ forall st, x' = IC st -> exists k w1 e i m r, w_inst w1 = w_inst w /\
     c_instantiate (ch_api C) (wq C k w1) e i m = Ok (st, r)).
Proof.
  intros H Hx. destruct H; subst;
    try match goal with M : move_coins _ _ _ _ = Ok _ |- _ => pose proof M as M'; apply move_coins_same in M' as (I1 & _) end;
    cbn [w_inst add_log set_inst set_bank set_admin set_height bump] in *;
    unfold contract_at in *; try rewrite om_get_set in Hx; try rewrite I1 in *;
    try (left; exists x'; split; [exact Hx | left; reflexivity]).
  all: destruct (keqb b _) eqn:E; [apply keqb_eq in E; subst b; apply Some_inj in Hx; subst x' | left; exists x'; auto].
  - left. eexists. split; [eassumption |]. right. left. do 2 eexists. exists (EvExec (mkEnv a (w_height w1)) (mkInfo caller (norm_coins f)) m (fun s => wq C k (set_inst a (IC s) w1))). eauto.
  - left. eexists. split; [eassumption |]. right. right. eauto.
  - left. eexists. split; [eassumption |]. right. left. do 2 eexists. exists (EvReply id rr). eauto.
  - left. eexists. split; [eassumption |]. right. right. eauto.
  - right. split; [assumption |]. intros st0 E0. injection E0 as <-. do 6 eexists. split; [exact I1 | eassumption].
  - right. split; [assumption |]. intros st0 E0. injection E0 as <-. do 6 eexists. split; [exact I1 | eassumption].
  - right. split; [assumption |]. intros st0 E0. discriminate E0.
Qed.

Lemma fresh_alone C w w' (a b : addr) x z : astep C w w' ->
  om_get a (w_inst w) = None -> om_get a (w_inst w') = Some x -> om_get b (w_inst w) = Some z -> om_get b (w_inst w') = Some z.
Proof.
  intros H Na Ha Hz. assert (Nb : b <> a) by congruence. destruct H; subst;
    try match goal with M : move_coins _ _ _ _ = Ok _ |- _ => apply move_coins_same in M as (I1 & _) end;
    cbn [w_inst add_log set_inst set_bank set_admin set_height bump] in *; unfold contract_at in *;
    try rewrite om_get_set in *; try rewrite I1 in *; try congruence.
  all: match type of Ha with context [keqb ?u ?v] => destruct (keqb u v) eqn:E; [apply keqb_eq in E | congruence] end.
  all: try congruence.
  all: match goal with |- context [keqb ?u ?v] => destruct (keqb u v) eqn:E'; [apply keqb_eq in E'; congruence | exact Hz] end.
Qed.

(** every validator announce knows the domain of its mailbox:
    /repo/contracts/core/va/src/contract.rs:35-47 *)
Definition va_linked (w : world) : Prop :=
  forall (a : addr) st, contract_at w a st -> is_va st ->
    exists (mbx : addr) mb, bech32_decode mbx = Ok mb /\ reported_va_mailbox st = Some mb /\
      match om_get mbx (w_inst w) with
      | Some (IC mbst) => is_mailbox mbst /\ reported_domain mbst = reported_va_domain st
      | Some (IX _) => True
      | None => False
      end.

Lemma apply_run A ev st st' r : c_apply A ev st = Ok (st', r) -> st' = c_run A st [ev].
Proof. intros H. cbn [c_run fold_left]. unfold c_step. now rewrite H. Qed.

Lemma is_mailbox_kind st : is_mailbox st <-> kind st = 0.
Proof. destruct st; cbn [is_mailbox kind]; split; intros H; try exact I; try contradiction H; try reflexivity; discriminate H. Qed.

Lemma va_linked_step C w w' : va_linked w -> astep C w w' -> va_linked w'.
Proof.
  intros V H a st' Hc' Hk'. destruct (astep_evolves C w w' a (IC st') H Hc') as [(x & Hx & Hev) | [Nx Hi]].
  - assert (X : exists st, x = IC st /\ is_va st /\ reported_va_domain st' = reported_va_domain st /\
                  reported_va_mailbox st' = reported_va_mailbox st).
    { destruct Hev as [<- | [(s1 & s2 & ev & r & -> & E & Ha) | (y & y' & _ & E)]]; [eauto 6 | | discriminate E].
      injection E as <-. exists s1. split; [reflexivity |].
      assert (K1 : is_va s1) by (apply va_kind; rewrite <- (apply_kind _ _ _ _ _ Ha); now apply va_kind).
      rewrite (apply_run _ _ _ _ _ Ha). destruct (va_frame (ch_api C) s1 [ev] K1) as [-> ->]. auto. }
    destruct X as (st & -> & K1 & -> & ->). destruct (V a st Hx K1) as (mbx & mb & D & M & Y).
    exists mbx, mb. split; [exact D |]. split; [exact M |].
    destruct (om_get mbx (w_inst w)) as [z |] eqn:Z; [| contradiction Y].
    destruct (om_get mbx (w_inst w')) as [z' |] eqn:Z'.
    + destruct (astep_evolves C w w' mbx z' H Z') as [(z0 & Hz & Hz') | [N0 _]]; [| discriminate (eq_trans (eq_sym Z) N0)].
      pose proof (eq_trans (eq_sym Z) Hz) as E0. apply Some_inj in E0. subst z0. clear Hz.
      destruct Hz' as [-> | [(s1 & s2 & ev & r & -> & -> & Ha) | (y & y' & _ & ->)]]; [exact Y | | exact I].
      destruct Y as [Y1 Y2]. split.
      * apply is_mailbox_kind. rewrite (apply_kind _ _ _ _ _ Ha). now apply is_mailbox_kind.
      * rewrite (apply_run _ _ _ _ _ Ha). destruct (mb_conf_history (ch_api C) s1 [ev] Y1) as (_ & _ & _ & _ & ->). exact Y2.
    + destruct (astep_kind C w w' mbx z H Z) as (y & Hy & _). discriminate (eq_trans (eq_sym Z') Hy).
  - destruct (Hi st' eq_refl) as (k & w1 & e & i & m & r & I1 & Hin).
    pose proof (kind_founded _ _ _ _ _ _ _ Hin) as F. destruct st'; try contradiction Hk'. destruct m; try contradiction F.
    destruct (va_initial _ _ _ _ _ _ _ [] Hin) as (_ & _ & _ & mb & d & D & Q & M & Dm).
    exists mailbox, mb. split; [exact D |]. split; [exact M |].
    destruct k as [| k]; [discriminate Q |]. cbn [wq q_smart] in Q. rewrite I1 in Q.
    destruct (om_get (mailbox : addr) (w_inst w)) as [z |] eqn:Z; [| discriminate Q].
    rewrite (fresh_alone C w w' a mailbox _ z H Nx Hc' Z). destruct z as [mbst | y]; [| exact I].
    destruct mbst as [x0| | | | | | | | | | | | | | | | |]; unfold c_query in Q; try (apply bind_Ok_inv in Q as (u & _ & Q)); try discriminate Q.
    split; [reflexivity |]. rewrite Dm. cbn [mb_query] in Q. apply Ok_inj in Q. injection Q as Q.
    change (reported_domain (SMailbox x0)) with (Some (mb_domain x0)). now f_equal.
Qed.

Lemma va_domain_true C w a st : reachable C w -> contract_at w a st -> is_va st ->
  exists (mbx : addr) mb, bech32_decode mbx = Ok mb /\ reported_va_mailbox st = Some mb /\
    om_get mbx (w_inst w) <> None /\
    forall mbst, contract_at w mbx mbst -> is_mailbox mbst /\ reported_domain mbst = reported_va_domain st.
Proof.
  intros R Hc Hk. destruct (reachable_steps C w R) as (bank & Hb & St).
  assert (V : va_linked w).
  { refine (asteps_inv C va_linked _ _ _ St _); [intros; eapply va_linked_step; eauto |]. intros b s0 H. discriminate H. }
  destruct (V a st Hc Hk) as (mbx & mb & D & M & Y). exists mbx, mb. split; [exact D |]. split; [exact M |].
  unfold contract_at. destruct (om_get mbx (w_inst w)) as [[mbst | y] |]; [| | contradiction Y].
  - split; [discriminate |]. intros s0 E. injection E as <-. exact Y.
  - split; [discriminate |]. intros s0 E. discriminate E.
Qed.
