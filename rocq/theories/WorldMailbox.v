(** * Mailboxes on a chain: histories, deliveries, coins. *)
From Coq Require Import List NArith Bool Lia Permutation.
From Verif Require Import Base BaseFacts OMap Crypto Bech32 Message Coins CoinsFacts Chain Ownable Mailbox
  Contracts Spec StepFacts MailboxConfFacts MailboxFacts World SpecWorld WorldFacts.
Import ListNotations.

Lemma lives_kind A st h st' : lives A st h st' -> kind st' = kind st.
Proof. intros L. rewrite <- (lives_run _ _ _ _ L). apply run_kind. Qed.

Lemma mailbox_message A q e i m st r :
  c_instantiate A q e i m = Ok (st, r) -> kind st = 0 -> exists hrp owner dom, m = IMailbox hrp owner dom.
Proof.
  intros H Hk. unfold c_instantiate, lift in H. destruct m; [eauto | ..];
    exfalso; inv_all; discriminate Hk.
Qed.

Lemma mailbox_born A w a st :
  known A w a -> contract_at w a st -> is_mailbox st ->
  exists e i q hrp owner dom r st0,
    births_at a (w_log w) = [(e, i, q, IMailbox hrp owner dom, r)] /\ e_contract e = a /\
    c_instantiate A q e i (IMailbox hrp owner dom) = Ok (st0, r) /\
    lives A st0 (answers_at a (w_log w)) st.
Proof.
  intros Hr Hc Hm. unfold known in Hr. rewrite Hc in Hr.
  destruct Hr as (e & i & q & m & r & st0 & B & He & Hi & L).
  pose proof (lives_kind _ _ _ _ L) as Hk. unfold is_mailbox in Hm. rewrite Hm in Hk.
  destruct (mailbox_message _ _ _ _ _ _ _ Hi (eq_sym Hk)) as (hrp & owner & dom & ->).
  exists e, i, q, hrp, owner, dom, r, st0. auto.
Qed.

Lemma mailbox_known C w a st :
  reachable C w -> contract_at w a st -> is_mailbox st ->
  exists e i q hrp owner dom r st0,
    births_at a (w_log w) = [(e, i, q, IMailbox hrp owner dom, r)] /\ e_contract e = a /\
    c_instantiate (ch_api C) q e i (IMailbox hrp owner dom) = Ok (st0, r) /\
    lives (ch_api C) st0 (answers_at a (w_log w)) st.
Proof. intros Hr. exact (mailbox_born _ w a st (known_reachable C w a Hr)). Qed.

(** ** The log and the contract's own history agree *)
Lemma lives_dispatches A st h st' :
  lives A st h st' ->
  dispatches A st (map fst h) =
  flat_map (fun p : event * response => match p with
                     | (EvExec _ _ (MDispatch _) _, r) =>
                         match sent_message r with Some raw => [raw] | None => [] end
                     | _ => [] end) h.
Proof.
  induction 1 as [| h st1 ev st2 r L IH H]; [reflexivity |].
  rewrite map_app, flat_map_app, <- IH. unfold dispatches.
  rewrite accepted_calls_app, flat_map_app, (lives_run _ _ _ _ L). f_equal.
  cbn [map fst accepted_calls]. unfold accepted. rewrite H.
  cbn [is_ok app flat_map fst snd]. rewrite H, !app_nil_r.
  destruct ev as [e i m Q | id rr]; cbn [ev_msg]; [destruct m |]; reflexivity.
Qed.

Lemma lives_processed A st h st' :
  lives A st h st' ->
  map fst (processed A st (map fst h)) =
  flat_map (fun p : event * response => match p with
                     | (EvExec _ _ (MProcess _ raw) _, _) => [raw]
                     | _ => [] end) h.
Proof.
  induction 1 as [| h st1 ev st2 r L IH H]; [reflexivity |].
  rewrite map_app, flat_map_app, <- IH. unfold processed.
  rewrite accepted_calls_app, flat_map_app, map_app, (lives_run _ _ _ _ L). f_equal.
  cbn [map fst accepted_calls]. unfold accepted. rewrite H.
  cbn [is_ok app flat_map fst snd]. rewrite !app_nil_r.
  destruct ev as [e i m Q | id rr]; [destruct m |]; reflexivity.
Qed.

(** ** C17 on a chain *)
Lemma known_nonces A w a st :
  known A w a -> contract_at w a st -> is_mailbox st ->
  let ds := dispatched_at a (w_log w) in
  reported_nonce st = Some (N.of_nat (length ds)) /\
  N.of_nat (length ds) < u32_max /\
  reported_latest st = option_map keccak256_hash (nth_error (rev ds) 0) /\
  (exists dom, reported_domain st = Some dom /\
   forall k raw, nth_error ds k = Some raw ->
     exists m, msg_decode raw = Ok m /\ m_version m = 3 /\
               m_nonce m = N.of_nat k /\ m_origin m = dom) /\
  NoDup ds.
Proof.
  intros Hr Hc Hm ds.
  destruct (mailbox_born A w a st Hr Hc Hm) as (e & i & q & hrp & owner & dom & r & st0 & _ & _ & Hi & L).
  destruct (nonces_gapless _ _ _ _ _ _ _ _ _ (map fst (answers_at a (w_log w))) Hi)
    as (P1 & P2 & _ & P4 & P5 & P6).
  rewrite (lives_dispatches _ _ _ _ L), (lives_run _ _ _ _ L) in *.
  change (flat_map _ _) with ds in *.
  split; [exact P1 |]. split; [exact P2 |]. split; [exact P4 |]. split.
  - exists dom. split; [| exact P5].
    destruct (mb_born _ _ _ _ _ _ _ _ _ Hi) as [Hd0 ->].
    destruct (dispatch_history A (mkMb (own_init owner) hrp dom None None None 0 None [])
      (map fst (answers_at a (w_log w)))) as (x' & R1 & R2 & _).
    { reflexivity. } { exact Hd0. }
    rewrite (lives_run _ _ _ _ L) in R1. subst st. cbn [mb_domain] in R2.
    unfold reported_domain. cbn. rewrite R2. reflexivity.
  - apply NoDup_nth_error. intros j k Hj E.
    destruct (nth_error ds j) as [raw |] eqn:Ej; [| apply nth_error_None in Ej; lia].
    destruct (PeanoNat.Nat.eq_dec j k) as [-> | Hne]; [reflexivity |].
    exfalso. symmetry in E. exact (P6 j k raw raw Hne Ej E eq_refl).
Qed.

Lemma chain_nonces C w a st :
  reachable C w -> contract_at w a st -> is_mailbox st ->
  let ds := dispatched_at a (w_log w) in
  reported_nonce st = Some (N.of_nat (length ds)) /\
  N.of_nat (length ds) < u32_max /\
  reported_latest st = option_map keccak256_hash (nth_error (rev ds) 0) /\
  (exists dom, reported_domain st = Some dom /\
   forall k raw, nth_error ds k = Some raw ->
     exists m, msg_decode raw = Ok m /\ m_version m = 3 /\
               m_nonce m = N.of_nat k /\ m_origin m = dom) /\
  NoDup ds.
Proof. intros Hr. exact (known_nonces _ w a st (known_reachable C w a Hr)). Qed.

(** ** What a mailbox's answers ask for *)
Lemma mb_answer A x ev st' r :
  c_apply A ev (SMailbox x) = Ok (st', r) ->
  exists x', st' = SMailbox x' /\ mb_hrp x' = mb_hrp x /\
  ((exists e i d Q required hook md raw fees rest,
      ev = EvExec e i (MDispatch d) Q /\
      mb_required x = Some required /\
      map sm_msg (r_msgs r) = [CExec required (MPostDispatch md raw) fees;
                               CExec hook (MPostDispatch md raw) rest] /\
      (forall y, amount_of y (i_funds i) = amount_of y fees + amount_of y rest))
   \/ (exists e i md raw Q m recipient,
      ev = EvExec e i (MProcess md raw) Q /\ msg_decode raw = Ok m /\
      bech32_encode (mb_hrp x) (m_recipient m) = Ok recipient /\
      map sm_msg (r_msgs r) = [CExec recipient (MHandle (m_origin m) (m_sender m) (m_body m)) []])
   \/ ((forall d, ev_msg ev <> Some (MDispatch d)) /\
       (forall md raw, ev_msg ev <> Some (MProcess md raw)) /\ r_msgs r = [])).
Proof.
  intros H. destruct ev as [e i m Q|id rr]; [|discriminate].
  cbn [c_apply] in H. pose proof H as H0. apply mb_exec_inv in H as (Hok & x' & -> & H).
  exists x'. split; [reflexivity |].
  destruct m; try discriminate H.
  all: try (cbn [mb_execute] in H;
    unfold mb_set_default_ism, mb_set_default_hook, mb_set_required_hook, mb_set_own in H;
    inv_all; split; [reflexivity |]; right; right; repeat split; discriminate).
  - cbn [mb_execute] in H.
    pose proof H as H1. apply mb_dispatch_iff in H1
      as (sender & dflt & hook & required & fees & rest & _ & _ & _ & _ & H5 & _ & H7 & _ & -> & ->).
    cbn [mb_hrp]. split; [reflexivity |]. left.
    exists e, i, d, Q, required, hook, (d_meta d),
      (msg_encode (the_message (mb_nonce x) (mb_domain x) sender d)), fees, (coins_to_vec rest).
    split; [reflexivity |]. split; [exact H5 |]. split; [reflexivity |].
    apply pay_required_spec in H7 as (_ & _ & Hp). exact Hp.
  - cbn [mb_execute] in H.
    apply mb_process_iff in H as (m & rc & o & dflt & H1 & H2 & H3 & H4 & H5 & H6 & H7 & -> & H8 & ->).
    cbn [mb_deliver mb_hrp]. split; [reflexivity |]. right. left.
    exists e, i, metadata, message, Q, m, rc. repeat split; assumption.
Qed.

(** ** Deliveries *)
Definition handle_msg (a : addr) (m : cmsg) : list (addr * (N * bytes * bytes)) :=
  match m with CExec b (MHandle o sd bd) _ => [(b, (o, sd, bd))] | _ => [] end.

Lemma deliveries_sent a l :
  flat_map (delivery_of a) (calls_sent l) = flat_map (handle_msg a) (done_for a l).
Proof.
  induction l as [| x l IH]; [reflexivity |].
  unfold calls_sent, done_for in *. cbn [flat_map]. rewrite !flat_map_app, IH. f_equal.
  destruct x as [c m | | |]; try reflexivity.
  destruct m as [b m f | | | | | |]; cbn [flat_map app].
  1: destruct m; cbn [flat_map app delivery_of]; destruct (bytes_eqb a c); reflexivity.
  all: destruct (bytes_eqb a c); reflexivity.
Qed.

Lemma lives_deliver A x0 h st :
  lives A (SMailbox x0) h st ->
  exists x, st = SMailbox x /\ mb_hrp x = mb_hrp x0 /\
  Forall2 (delivers (mb_hrp x0))
    (flat_map (fun p : event * response => match p with
                     | (EvExec _ _ (MProcess _ raw) _, _) => [raw]
                     | _ => [] end) h)
    (flat_map (handle_msg []) (flat_map (fun p => map sm_msg (r_msgs (snd p))) h)).
Proof.
  induction 1 as [| h st1 ev st2 r L IH H].
  - exists x0. repeat split. constructor.
  - destruct IH as (x1 & -> & Hh & F).
    destruct (mb_answer _ _ _ _ _ H) as (x2 & -> & Hh2 & Hc).
    exists x2. split; [reflexivity |]. split; [congruence |].
    rewrite !flat_map_app. apply Forall2_app; [exact F |].
    cbn [flat_map snd app]. rewrite !app_nil_r.
    destruct Hc as [(e & i & d & Q & rq & hook & md & raw & fees & rest & -> & _ & Hm & _)
      | [(e & i & md & raw & Q & m & rc & -> & H1 & H2 & Hm) | (Hn1 & Hn2 & Hm)]].
    + rewrite Hm. constructor.
    + rewrite Hm. cbn [flat_map handle_msg app]. constructor; [| constructor].
      exists m. rewrite <- Hh. auto.
    + rewrite Hm. cbn [map flat_map].
      destruct ev as [e i m Q | id rr]; [| constructor].
      destruct m; try constructor. exfalso. eapply Hn2. reflexivity.
Qed.

Lemma chain_deliveries C w a st :
  chain_ok C -> reachable C w -> contract_at w a st -> is_mailbox st ->
  NoDup (map keccak256_hash (processed_at a (w_log w))) /\
  (forall id, reported_delivered st id = Some true <->
     exists raw, In raw (processed_at a (w_log w)) /\ keccak256_hash raw = id) /\
  exists hrp l, reported_hrp st = Some hrp /\
    Forall2 (delivers hrp) (processed_at a (w_log w)) l /\
    Permutation (deliveries_by a (w_log w)) l.
Proof.
  intros HC Hr Hc Hm.
  destruct (mailbox_known C w a st Hr Hc Hm) as (e & i & q & hrp & owner & dom & r & st0 & B & _ & Hi & L).
  destruct (at_most_once _ _ _ _ _ _ _ _ _ (map fst (answers_at a (w_log w))) Hi) as [D1 D2].
  rewrite (lives_run _ _ _ _ L) in D2.
  pose proof (lives_processed _ _ _ _ L) as P. change (flat_map _ (answers_at a (w_log w))) with (processed_at a (w_log w)) in P.
  split; [rewrite <- P, map_map; exact D1 |]. split.
  { intros id. rewrite delivered_recorded, <- P. split.
    - intros [rec Hrec]. apply D2 in Hrec as (raw & Hin & E). exists raw. split; [| exact E].
      apply in_map_iff. exists (raw, rec). auto.
    - intros (raw & Hin & E). apply in_map_iff in Hin as ([raw' rec] & <- & Hin).
      exists rec. apply D2. eauto. }
  destruct (mb_born _ _ _ _ _ _ _ _ _ Hi) as [_ Hb].
  pose proof (messages_settled C w a st HC Hr Hc) as S.
  rewrite (asked_split a (w_log w)), B in S. cbn [flat_map snd] in S.
  assert (Hr0 : r_msgs r = []).
  { unfold c_instantiate, lift, mb_instantiate in Hi. inv_all. reflexivity. }
  rewrite Hr0 in S. cbn [map app] in S.
  rewrite Hb in L. destruct (lives_deliver _ _ _ _ L) as (x & -> & Hh & F). cbn [mb_hrp] in *.
  exists hrp, (flat_map (handle_msg []) (flat_map (fun p => map sm_msg (r_msgs (snd p))) (answers_at a (w_log w)))).
  split; [unfold reported_hrp; cbn; rewrite Hh; reflexivity |]. split; [exact F |].
  unfold deliveries_by. rewrite <- (calls_reachable C w Hr), deliveries_sent.
  change (handle_msg a) with (handle_msg []). apply Permutation_flat_map. exact S.
Qed.

(** ** Coins *)
Lemma lives_dispatch_funds A x0 h st d :
  lives A (SMailbox x0) h st ->
  exists x, st = SMailbox x /\
  summ (msg_out d) (flat_map (fun p => map sm_msg (r_msgs (snd p))) h) = total (dispatch_fund d) h.
Proof.
  induction 1 as [| h st1 ev st2 r L IH H].
  - exists x0. split; reflexivity.
  - destruct IH as (x1 & -> & E).
    destruct (mb_answer _ _ _ _ _ H) as (x2 & -> & Hh2 & Hc).
    exists x2. split; [reflexivity |].
    rewrite flat_map_app, !total_app, E, total_one. cbn [flat_map snd].
    rewrite app_nil_r. f_equal.
    destruct Hc as [(e & i & dm & Q & rq & hook & md & raw & fees & rest & -> & _ & Hm & Hs)
      | [(e & i & md & raw & Q & m & rc & -> & H1 & H2 & Hm) | (Hn1 & Hn2 & Hm)]].
    + rewrite Hm. unfold total. cbn [fold_right msg_out dispatch_fund]. rewrite Hs. lia.
    + rewrite Hm. reflexivity.
    + rewrite Hm. cbn [map]. destruct ev as [e i m Q | id rr]; [| reflexivity].
      destruct m; try reflexivity. exfalso. eapply Hn1. reflexivity.
Qed.

Lemma chain_dispatch_funds C bank l w a st d :
  chain_ok C -> om_sorted bank -> w = chain_run C (genesis bank) l ->
  contract_at w a st -> is_mailbox st ->
  balance w a d + dispatch_funds a d (w_log w) = bal bank a d + inflow a d (w_log w).
Proof.
  intros HC Hs Hw Hc Hm.
  assert (Hr : reachable C w) by (exists bank, l; auto).
  rewrite <- (contract_money C bank l w a st d HC Hs Hw Hc). f_equal.
  destruct (mailbox_known C w a st Hr Hc Hm) as (e & i & q & hrp & owner & dom & r & st0 & B & _ & Hi & L).
  rewrite (summ_perm _ _ _ (asked_split a (w_log w))), B.
  assert (Hr0 : r_msgs r = []).
  { unfold c_instantiate, lift, mb_instantiate in Hi. inv_all. reflexivity. }
  cbn [flat_map snd]. rewrite Hr0. cbn [map app].
  destruct (mb_born _ _ _ _ _ _ _ _ _ Hi) as [_ Hb]. rewrite Hb in L.
  destruct (lives_dispatch_funds _ _ _ _ d L) as (x & _ & E). rewrite E. reflexivity.
Qed.
