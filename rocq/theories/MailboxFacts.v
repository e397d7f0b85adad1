(** * Mailbox: dispatch and process. *)
From Coq Require Import List NArith Lia Bool.
From Verif Require Import Base BaseFacts OMap Coins CoinsFacts Crypto Message CodecFacts Bech32 Bech32Facts
  Chain Ownable Router Mailbox Va Isms Hooks Igp Warp Cw20 Contracts Spec StepFacts MailboxConfFacts.
Import ListNotations.

Lemma smart_inv q a m r : smart q a m = Ok r <-> q_smart q a m = Ok r /\ qres_ok r = true.
Proof.
  unfold smart. destruct (q_smart q a m) as [x| |]; [|split; [discriminate|intros []; discriminate]..].
  destruct (qres_ok x) eqn:E; split.
  - intros H. apply Ok_inj in H as <-. auto.
  - intros [H _]. now apply Ok_inj in H as <-.
  - discriminate.
  - intros [H1 H2]. apply Ok_inj in H1 as <-. congruence.
Qed.

Lemma quote_inv q a md raw f :
  quote_dispatch q a md raw = Ok f <->
  q_smart q a (QHookQuote md raw) = Ok (RFees f) /\ Forall (fun c => c_amount c < u128_max) f.
Proof.
  unfold quote_dispatch. split.
  - intros H. inv_res. apply smart_inv in Hr as [H1 H2].
    destruct v; try discriminate. apply Ok_inj in H as ->. split; [exact H1|].
    cbn [qres_ok] in H2. rewrite forallb_forall in H2. apply Forall_forall. intros c Hc.
    apply H2 in Hc. exact (proj1 (N.ltb_lt _ _) Hc).
  - intros [H1 H2].
    assert (E : smart q a (QHookQuote md raw) = Ok (RFees f)).
    { apply smart_inv. split; [exact H1|]. cbn [qres_ok]. apply forallb_forall. intros c Hc.
      rewrite Forall_forall in H2. apply H2 in Hc. exact (proj2 (N.ltb_lt _ _) Hc). }
    now rewrite E.
Qed.

Lemma pay_required_spec funds fees rest :
  pay_required funds fees = Ok rest ->
  coins_wf rest /\ no_repeats funds /\
  forall x, amount_of x funds = amount_of x fees + amount_of x (coins_to_vec rest).
Proof.
  unfold pay_required. intros H. inv_res.
  apply try_from_spec in Hr as (H1 & H2 & H3).
  destruct (coins_sub_all_spec _ _ _ H1 H) as [H4 H5].
  repeat split; [apply H4|apply H4|exact H3|].
  intros x. rewrite amount_to_vec by apply H4. specialize (H2 x). specialize (H5 x). lia.
Qed.

Lemma pay_required_ok funds fees :
  no_repeats funds -> (forall x, amount_of x fees <= amount_of x funds) ->
  exists rest, pay_required funds fees = Ok rest.
Proof.
  intros Hn Hle. unfold pay_required. destruct (try_from_ok funds Hn) as [m E]. rewrite E. cbn [bind].
  apply try_from_spec in E as (H1 & H2 & _).
  destruct (coins_sub_all_ok fees m H1) as [m' E'].
  { intros d. rewrite H2. apply Hle. }
  rewrite E'. cbn. eauto.
Qed.

(** The message a mailbox builds for a dispatch (specification side). *)
Definition the_message (n dom : N) (sender : bytes) (d : dispatch_msg) : message :=
  mkMessage 3 n dom sender (d_dest d) (d_recipient d) (d_body d).

Lemma addr_validate_iff A a b : addr_validate A a = Ok b <-> api_valid A a = true /\ b = a.
Proof.
  unfold addr_validate. destruct (api_valid A a); split.
  - intros H. apply Ok_inj in H. auto.
  - now intros [_ ->].
  - discriminate.
  - now intros [H _].
Qed.

Lemma get_hook_iff A d dflt h :
  get_hook_addr A d dflt = Ok h <->
  match d_hook d with Some a => h = a /\ api_valid A a = true | None => h = dflt end.
Proof.
  unfold get_hook_addr. destruct (d_hook d).
  - rewrite addr_validate_iff. tauto.
  - split; intros H; [now apply Ok_inj in H|now subst].
Qed.

(** exactly when a dispatch succeeds, and what it does *)
Lemma mb_dispatch_iff A Q i d x x' r :
  mb_dispatch A Q i d x = Ok (x', r) <->
  exists sender dflt hook required fees rest,
    let raw := msg_encode (the_message (mb_nonce x) (mb_domain x) sender d) in
    length (d_recipient d) = 32%nat /\
    bech32_to_h256 (i_sender i) = Ok sender /\
    mb_hook x = Some dflt /\
    get_hook_addr A d dflt = Ok hook /\
    mb_required x = Some required /\
    quote_dispatch (Q x) required (d_meta d) raw = Ok fees /\
    pay_required (i_funds i) fees = Ok rest /\
    mb_nonce x + 1 < u32_max /\
    x' = mkMb (mb_own x) (mb_hrp x) (mb_domain x) (mb_ism x) (mb_hook x) (mb_required x)
           (mb_nonce x + 1) (Some (keccak256_hash raw)) (mb_deliveries x) /\
    r = mkResp [mkSub (CExec required (MPostDispatch (d_meta d) raw) fees) RpNever;
                mkSub (CExec hook (MPostDispatch (d_meta d) raw) (coins_to_vec rest)) RpNever]
               (Some (keccak256_hash raw)).
Proof.
  unfold mb_dispatch, to_msg, get_default_hook, get_required_hook. cbv zeta. split.
  - intros H.
    apply bind_Ok_inv in H as (u & H1 & H). apply ensure_Ok_inv, PeanoNat.Nat.eqb_eq in H1.
    apply bind_Ok_inv in H as (msg & H2 & H). apply bind_Ok_inv in H2 as (sender & H2 & Hm).
    apply Ok_inj in Hm. subst msg.
    apply bind_Ok_inv in H as (dflt & H3 & H). apply expect_Ok_inv in H3.
    apply bind_Ok_inv in H as (hook & H4 & H).
    apply bind_Ok_inv in H as (required & H5 & H). apply expect_Ok_inv in H5.
    apply bind_Ok_inv in H as (fees & H6 & H).
    apply bind_Ok_inv in H as (rest & H7 & H).
    apply bind_Ok_inv in H as (u2 & H8 & H). apply need_Ok_inv, N.ltb_lt in H8.
    apply Ok_inj, pair_equal_spec in H as [Hx Hresp].
    exists sender, dflt, hook, required, fees, rest. symmetry in Hx, Hresp.
    exact (conj H1 (conj H2 (conj H3 (conj H4 (conj H5 (conj H6 (conj H7 (conj H8 (conj Hx Hresp))))))))).
  - intros (sender & dflt & hook & required & fees & rest & H1 & H2 & H3 & H4 & H5 & H6 & H7 & H8 & -> & ->).
    apply PeanoNat.Nat.eqb_eq in H1. rewrite H1. cbn [ensure bind]. rewrite H2. cbn [bind].
    rewrite H3. cbn [expect bind]. rewrite H4. cbn [bind]. rewrite H5. cbn [expect bind].
    unfold the_message in H6. unfold MAILBOX_VERSION. rewrite H6. cbn [bind]. rewrite H7. cbn [bind].
    apply N.ltb_lt in H8. rewrite H8. reflexivity.
Qed.

(** exactly when a delivery succeeds, and what it does *)
Definition mb_deliver (x : mb) (id : bytes) (d : delivery) : mb :=
  mkMb (mb_own x) (mb_hrp x) (mb_domain x) (mb_ism x) (mb_hook x) (mb_required x)
       (mb_nonce x) (mb_latest x) (om_set id d (mb_deliveries x)).

Lemma recipient_ism_iff q a o : recipient_ism q a = Ok o <-> q_smart q a QIsmSpecifier = Ok (RIsm o).
Proof.
  unfold recipient_ism. split.
  - intros H. apply bind_Ok_inv in H as (r & H1 & H). apply smart_inv in H1 as [H1 _].
    destruct r; try discriminate. now apply Ok_inj in H as <-.
  - intros H. assert (E : smart q a QIsmSpecifier = Ok (RIsm o)) by (apply smart_inv; auto).
    now rewrite E.
Qed.

Lemma ism_verify_iff q a md raw b :
  ism_verify q a md raw = Ok b <-> q_smart q a (QVerify md raw) = Ok (RVerified b).
Proof.
  unfold ism_verify. split.
  - intros H. apply bind_Ok_inv in H as (r & H1 & H). apply smart_inv in H1 as [H1 _].
    destruct r; try discriminate. now apply Ok_inj in H as <-.
  - intros H. assert (E : smart q a (QVerify md raw) = Ok (RVerified b)) by (apply smart_inv; auto).
    now rewrite E.
Qed.

Lemma mb_process_iff Q e i md raw x x' r :
  mb_process Q e i md raw x = Ok (x', r) <->
  exists m recipient o dflt,
    msg_decode raw = Ok m /\
    bech32_encode (mb_hrp x) (m_recipient m) = Ok recipient /\
    m_version m = 3 /\ m_dest m = mb_domain x /\
    q_smart (Q x) recipient QIsmSpecifier = Ok (RIsm o) /\
    mb_ism x = Some dflt /\
    om_get (keccak256_hash raw) (mb_deliveries x) = None /\
    x' = mb_deliver x (keccak256_hash raw) (mkDelivery (i_sender i) (e_height e)) /\
    q_smart (Q x') (match o with Some a => a | None => dflt end) (QVerify md raw)
      = Ok (RVerified true) /\
    r = resp [CExec recipient (MHandle (m_origin m) (m_sender m) (m_body m)) []].
Proof.
  unfold mb_process, get_default_ism. cbv zeta. split.
  - intros H.
    apply bind_Ok_inv in H as (m & H1 & H).
    apply bind_Ok_inv in H as (rc & H2 & H).
    apply bind_Ok_inv in H as (u1 & H3 & H). apply ensure_Ok_inv, N.eqb_eq in H3.
    apply bind_Ok_inv in H as (u2 & H4 & H). apply ensure_Ok_inv, N.eqb_eq in H4.
    apply bind_Ok_inv in H as (o & H5 & H). apply recipient_ism_iff in H5.
    apply bind_Ok_inv in H as (dflt & H6 & H). apply expect_Ok_inv in H6.
    apply bind_Ok_inv in H as (u3 & H7 & H). apply ensure_Ok_inv in H7.
    apply bind_Ok_inv in H as (b & H8 & H). apply ism_verify_iff in H8.
    apply bind_Ok_inv in H as (u4 & H9 & H). apply ensure_Ok_inv in H9. subst b.
    apply Ok_inj, pair_equal_spec in H as [Hx Hresp].
    pose proof (msg_decode_Ok_inv raw m H1) as (_ & _ & Hraw).
    unfold msg_id in *. rewrite Hraw in *.
    exists m, rc, o, dflt. symmetry in Hx, Hresp. subst x'.
    assert (H7' : om_get (keccak256_hash raw) (mb_deliveries x) = None)
      by (destruct (om_get (keccak256_hash raw) (mb_deliveries x)); [discriminate|reflexivity]).
    exact (conj H1 (conj H2 (conj H3 (conj H4 (conj H5 (conj H6 (conj H7' (conj eq_refl (conj H8 Hresp))))))))).
  - intros (m & rc & o & dflt & H1 & H2 & H3 & H4 & H5 & H6 & H7 & -> & H8 & ->).
    pose proof (msg_decode_Ok_inv raw m H1) as (_ & _ & Hraw).
    rewrite H1. cbn [bind]. rewrite H2. cbn [bind].
    apply N.eqb_eq in H3, H4. unfold MAILBOX_VERSION. rewrite H3, H4. cbn [ensure bind].
    apply recipient_ism_iff in H5. rewrite H5. cbn [bind]. rewrite H6. cbn [expect bind].
    unfold msg_id. rewrite Hraw, H7. cbn [ensure bind].
    apply ism_verify_iff in H8. unfold mb_deliver in *. rewrite H6 in *. rewrite H8. reflexivity.
Qed.

(** ** From the contract sum to the mailbox *)
Lemma mb_exec_inv A Q e i m x st' r :
  c_execute A Q e i m (SMailbox x) = Ok (st', r) <->
  emsg_ok m = true /\
  exists x', st' = SMailbox x' /\ mb_execute A (fun y => Q (SMailbox y)) e i m x = Ok (x', r).
Proof.
  unfold c_execute, lift. split.
  - intros H. apply bind_Ok_inv in H as (u & H1 & H). apply ensure_Ok_inv in H1.
    apply bind_Ok_inv in H as ([x' r'] & H2 & H).
    apply Ok_inj, pair_equal_spec in H as [<- <-]. eauto.
  - intros (H1 & x' & -> & H2). rewrite H1. cbn [ensure bind]. now rewrite H2.
Qed.

Lemma is_mailbox_inv st : is_mailbox st -> exists x, st = SMailbox x.
Proof. unfold is_mailbox. destruct st; try discriminate; eauto. Qed.

Lemma nonce_mailbox st n : reported_nonce st = Some n -> exists x, st = SMailbox x /\ mb_nonce x = n.
Proof.
  destruct st; try discriminate. intros H. cbn in H. apply Some_inj in H. eauto.
Qed.

Lemma reported_hook_of x : reported_default_hook (SMailbox x) = mb_hook x.
Proof.
  unfold reported_default_hook, c_query. cbn [qmsg_ok ensure bind mb_query]. unfold get_default_hook.
  now destruct (mb_hook x).
Qed.
Lemma reported_req_of x : reported_required_hook (SMailbox x) = mb_required x.
Proof.
  unfold reported_required_hook, c_query. cbn [qmsg_ok ensure bind mb_query]. unfold get_required_hook.
  now destruct (mb_required x).
Qed.
Lemma reported_ism_of x : reported_default_ism (SMailbox x) = mb_ism x.
Proof.
  unfold reported_default_ism, c_query. cbn [qmsg_ok ensure bind mb_query]. unfold get_default_ism.
  now destruct (mb_ism x).
Qed.
Lemma reported_latest_of x : reported_latest (SMailbox x) = mb_latest x.
Proof.
  unfold reported_latest, c_query. cbn [qmsg_ok ensure bind mb_query].
  now destruct (mb_latest x).
Qed.
Lemma reported_delivered_of x id :
  reported_delivered (SMailbox x) id
  = Some (match om_get id (mb_deliveries x) with Some _ => true | None => false end).
Proof. reflexivity. Qed.

(** the storage a call to a mailbox is answered from, apart from three queries *)
Lemma query_same_but_nonce A q qm x n l :
  qm <> QNonce -> qm <> QLatestDispatchId -> (forall sd d, qm <> QMailboxQuote sd d) ->
  c_query A q qm (SMailbox (mkMb (mb_own x) (mb_hrp x) (mb_domain x) (mb_ism x) (mb_hook x)
     (mb_required x) n l (mb_deliveries x))) = c_query A q qm (SMailbox x).
Proof.
  intros H1 H2 H3. unfold c_query. f_equal.
  destruct qm; try reflexivity; try congruence; exfalso; eapply H3; reflexivity.
Qed.

Lemma query_same_but_delivered A q qm x id d :
  qm <> QDelivered id ->
  c_query A q qm (SMailbox (mb_deliver x id d)) = c_query A q qm (SMailbox x).
Proof.
  intros H1. unfold c_query. f_equal.
  destruct qm; try reflexivity.
  cbn [mb_query mb_deliver mb_deliveries]. rewrite om_get_set.
  destruct (keqb id0 id) eqn:E; [apply keqb_eq in E; congruence|reflexivity].
Qed.

(** ** C16, C18 *)

Lemma dispatch_effect A Q e i d st st' r n dom :
  reported_nonce st = Some n -> reported_domain st = Some dom ->
  c_execute A Q e i (MDispatch d) st = Ok (st', r) ->
  exists sender required hook fees rest,
    let raw := msg_encode (mkMessage 3 n dom sender (d_dest d) (d_recipient d) (d_body d)) in
    bech32_to_h256 (i_sender i) = Ok sender /\ length sender = 32%nat /\
    length (d_recipient d) = 32%nat /\ d_dest d < u32_max /\ n + 1 < u32_max /\
    reported_required_hook st = Some required /\ chosen_hook A st d hook /\
    q_smart (Q st) required (QHookQuote (d_meta d) raw) = Ok (RFees fees) /\
    (forall x, amount_of x (i_funds i) = amount_of x fees + amount_of x rest) /\
    no_repeats (i_funds i) /\ no_repeats rest /\ Forall (fun c => c_amount c <> 0) rest /\
    r = mkResp [mkSub (CExec required (MPostDispatch (d_meta d) raw) fees) RpNever;
                mkSub (CExec hook (MPostDispatch (d_meta d) raw) rest) RpNever]
               (Some (keccak256_hash raw)) /\
    reported_latest st' = Some (keccak256_hash raw) /\
    reported_nonce st' = Some (n + 1) /\
    (forall B q qm, qm <> QNonce -> qm <> QLatestDispatchId ->
       (forall sd d, qm <> QMailboxQuote sd d) -> c_query B q qm st' = c_query B q qm st).
Proof.
  intros Hn Hd H. apply nonce_mailbox in Hn as (x & -> & <-).
  cbn in Hd. apply Some_inj in Hd. subst dom.
  apply mb_exec_inv in H as (Hok & x' & -> & H). cbn [mb_execute] in H.
  apply mb_dispatch_iff in H
    as (sender & dflt & hook & required & fees & rest & H1 & H2 & H3 & H4 & H5 & H6 & H7 & H8 & -> & ->).
  exists sender, required, hook, fees, (coins_to_vec rest). cbv zeta.
  apply quote_inv in H6 as [H6 _]. apply pay_required_spec in H7 as (W & Hn & Hsum).
  apply get_hook_iff in H4.
  assert (Hs : length sender = 32%nat).
  { unfold bech32_to_h256 in H2. apply bind_Ok_inv in H2 as (w & _ & H2). unfold pad32 in H2.
    destruct (Nat.leb (length w) 32) eqn:E; [|discriminate]. apply Ok_inj in H2 as <-.
    apply PeanoNat.Nat.leb_le in E. rewrite app_length. unfold zeros. rewrite repeat_length. lia. }
  repeat match goal with |- _ /\ _ => split end; try assumption; try reflexivity.
  - cbn [emsg_ok] in Hok. exact (proj1 (N.ltb_lt _ _) Hok).
  - rewrite reported_req_of. exact H5.
  - exists dflt. rewrite reported_hook_of. auto.
  - apply to_vec_no_repeats. apply W.
  - destruct W as [_ W]. apply Forall_forall. intros c Hc. unfold coins_to_vec in Hc.
    apply in_map_iff in Hc as (p & <- & Hp). rewrite Forall_forall in W. exact (W p Hp).
  - intros B q qm. apply query_same_but_nonce.
Qed.

Lemma dispatch_accepts A Q e i d st n dom sender required hook fees :
  reported_nonce st = Some n -> reported_domain st = Some dom ->
  let raw := msg_encode (mkMessage 3 n dom sender (d_dest d) (d_recipient d) (d_body d)) in
  bech32_to_h256 (i_sender i) = Ok sender ->
  length (d_recipient d) = 32%nat -> d_dest d < u32_max -> n + 1 < u32_max ->
  reported_required_hook st = Some required -> chosen_hook A st d hook ->
  q_smart (Q st) required (QHookQuote (d_meta d) raw) = Ok (RFees fees) ->
  Forall (fun c => c_amount c < u128_max) fees ->
  no_repeats (i_funds i) ->
  (forall x, amount_of x fees <= amount_of x (i_funds i)) ->
  exists st' r, c_execute A Q e i (MDispatch d) st = Ok (st', r).
Proof.
  intros Hn Hd raw H2 H1 Hw H8 H5 (dflt & H3 & H4) H6 Hu Hnr Hle.
  apply nonce_mailbox in Hn as (x & -> & <-). cbn in Hd. apply Some_inj in Hd. subst dom.
  rewrite reported_req_of in H5. rewrite reported_hook_of in H3.
  destruct (pay_required_ok _ _ Hnr Hle) as [rest H7].
  eexists _, _. apply mb_exec_inv. split; [exact (proj2 (N.ltb_lt _ _) Hw)|].
  eexists. split; [reflexivity|]. cbn [mb_execute]. apply mb_dispatch_iff.
  exists sender, dflt, hook, required, fees, rest. cbv zeta.
  repeat match goal with |- _ /\ _ => split end; try assumption; try reflexivity.
  - now apply get_hook_iff.
  - apply quote_inv. auto.
Qed.

(** ** C19 *)
Lemma quote_enough A Q e i d st n total :
  reported_nonce st = Some n -> n + 1 < u32_max ->
  length (d_recipient d) = 32%nat ->
  c_query A (Q st) (QMailboxQuote (i_sender i) d) st = Ok (RFees total) ->
  i_funds i = total ->
  exists st' raw required hook fr fh rest,
    c_execute A Q e i (MDispatch d) st =
      Ok (st', mkResp [mkSub (CExec required (MPostDispatch (d_meta d) raw) fr) RpNever;
                       mkSub (CExec hook (MPostDispatch (d_meta d) raw) rest) RpNever]
                      (Some (keccak256_hash raw))) /\
    reported_required_hook st = Some required /\ chosen_hook A st d hook /\
    q_smart (Q st) required (QHookQuote (d_meta d) raw) = Ok (RFees fr) /\
    q_smart (Q st) hook (QHookQuote (d_meta d) raw) = Ok (RFees fh) /\
    (forall x, amount_of x rest = amount_of x fh) /\
    no_repeats rest /\ Forall (fun c => c_amount c <> 0) rest.
Proof.
  intros Hn Hlt Hlen Hq Hf. apply nonce_mailbox in Hn as (x & -> & <-).
  unfold c_query in Hq. apply bind_Ok_inv in Hq as (u & Hok & Hq). apply ensure_Ok_inv in Hok.
  cbn [mb_query] in Hq. apply bind_Ok_inv in Hq as (tot & Hq & Ht).
  apply Ok_inj in Ht. injection Ht as ->.
  unfold mb_quote_dispatch, to_msg, get_default_hook, get_required_hook in Hq.
  apply bind_Ok_inv in Hq as (sd & H0 & Hq). apply addr_validate_iff in H0 as [_ ->].
  apply bind_Ok_inv in Hq as (msg & H1 & Hq). apply bind_Ok_inv in H1 as (sender & H1 & Hm).
  apply Ok_inj in Hm. subst msg.
  apply bind_Ok_inv in Hq as (dflt & H2 & Hq). apply expect_Ok_inv in H2.
  apply bind_Ok_inv in Hq as (required & H3 & Hq). apply expect_Ok_inv in H3.
  apply bind_Ok_inv in Hq as (hook & H4 & Hq).
  apply bind_Ok_inv in Hq as (fh & H5 & Hq).
  apply bind_Ok_inv in Hq as (fr & H6 & Hq).
  apply bind_Ok_inv in Hq as (acc & H7 & Hq).
  apply bind_Ok_inv in Hq as (totm & H8 & Hq). apply Ok_inj in Hq.
  apply try_from_spec in H7 as (W7 & A7 & _).
  destruct (coins_add_all_spec _ _ _ W7 H8) as [W8 A8].
  assert (Hamt : forall d0, amount_of d0 (i_funds i) = amount_of d0 fh + amount_of d0 fr).
  { intros d0. rewrite Hf, <- Hq, amount_to_vec by apply W8. now rewrite A8, A7. }
  destruct (pay_required_ok (i_funds i) fr) as [rest Hp].
  { rewrite Hf, <- Hq. apply to_vec_no_repeats, W8. }
  { intros d0. rewrite Hamt. lia. }
  pose proof Hp as Hp'. apply pay_required_spec in Hp' as (W & _ & Hsum).
  set (raw := msg_encode (the_message (mb_nonce x) (mb_domain x) sender d)).
  assert (E : mb_dispatch A (fun y => Q (SMailbox y)) i d x =
    Ok (mkMb (mb_own x) (mb_hrp x) (mb_domain x) (mb_ism x) (mb_hook x) (mb_required x)
           (mb_nonce x + 1) (Some (keccak256_hash raw)) (mb_deliveries x),
        mkResp [mkSub (CExec required (MPostDispatch (d_meta d) raw) fr) RpNever;
                mkSub (CExec hook (MPostDispatch (d_meta d) raw) (coins_to_vec rest)) RpNever]
               (Some (keccak256_hash raw)))).
  { apply mb_dispatch_iff. exists sender, dflt, hook, required, fr, rest. cbv zeta.
    repeat match goal with |- _ /\ _ => split end; try assumption; reflexivity. }
  eexists _, raw, required, hook, fr, fh, (coins_to_vec rest).
  split; [apply mb_exec_inv; split; [exact Hok|]; eexists; split; [reflexivity|exact E]|].
  apply quote_inv in H5 as [H5 _]. apply quote_inv in H6 as [H6 _].
  repeat match goal with |- _ /\ _ => split end; try assumption.
  - rewrite reported_req_of. exact H3.
  - exists dflt. rewrite reported_hook_of. split; [exact H2|]. now apply get_hook_iff in H4.
  - intros d0. specialize (Hsum d0). rewrite Hamt in Hsum. lia.
  - apply to_vec_no_repeats, W.
  - destruct W as [_ W]. apply Forall_forall. intros c Hc. unfold coins_to_vec in Hc.
    apply in_map_iff in Hc as (p & <- & Hin). rewrite Forall_forall in W. exact (W p Hin).
Qed.

(** ** C20 *)
Lemma process_effect A Q e i md raw st st' r hrp dom :
  reported_hrp st = Some hrp -> reported_domain st = Some dom ->
  c_execute A Q e i (MProcess md raw) st = Ok (st', r) ->
  exists m recipient o dflt,
    msg_decode raw = Ok m /\ m_version m = 3 /\ m_dest m = dom /\
    bech32_encode hrp (m_recipient m) = Ok recipient /\
    q_smart (Q st) recipient QIsmSpecifier = Ok (RIsm o) /\
    reported_default_ism st = Some dflt /\
    q_smart (Q st') (match o with Some a => a | None => dflt end) (QVerify md raw)
      = Ok (RVerified true) /\
    reported_delivered st (keccak256_hash raw) = Some false /\
    reported_delivered st' (keccak256_hash raw) = Some true /\
    r = mkResp [mkSub (CExec recipient (MHandle (m_origin m) (m_sender m) (m_body m)) []) RpNever] None /\
    (forall B q qm, qm <> QDelivered (keccak256_hash raw) -> c_query B q qm st' = c_query B q qm st).
Proof.
  intros Hh Hd H. destruct st as [x| | | | | | | | | | | | | | | | |]; try discriminate Hh.
  cbn in Hh, Hd. apply Some_inj in Hh, Hd. subst hrp dom.
  apply mb_exec_inv in H as (_ & x' & -> & H). cbn [mb_execute] in H.
  apply mb_process_iff in H as (m & rc & o & dflt & H1 & H2 & H3 & H4 & H5 & H6 & H7 & -> & H8 & ->).
  exists m, rc, o, dflt.
  repeat match goal with |- _ /\ _ => split end; try assumption; try reflexivity.
  - rewrite reported_ism_of. exact H6.
  - rewrite reported_delivered_of, H7. reflexivity.
  - rewrite reported_delivered_of. cbn [mb_deliver mb_deliveries]. now rewrite om_get_set, keqb_refl.
  - intros B q qm. apply query_same_but_delivered.
Qed.

Lemma process_accepts A Q e i md raw st hrp dom m recipient o dflt :
  reported_hrp st = Some hrp -> reported_domain st = Some dom ->
  msg_decode raw = Ok m -> m_version m = 3 -> m_dest m = dom ->
  bech32_encode hrp (m_recipient m) = Ok recipient ->
  q_smart (Q st) recipient QIsmSpecifier = Ok (RIsm o) ->
  reported_default_ism st = Some dflt ->
  reported_delivered st (keccak256_hash raw) = Some false ->
  (forall st1, reported_delivered st1 (keccak256_hash raw) = Some true ->
     q_smart (Q st1) (match o with Some a => a | None => dflt end) (QVerify md raw)
       = Ok (RVerified true)) ->
  exists st' r, c_execute A Q e i (MProcess md raw) st = Ok (st', r).
Proof.
  intros Hh Hd H1 H3 H4 H2 H5 H6 H7 H8.
  destruct st as [x| | | | | | | | | | | | | | | | |]; try discriminate Hh.
  cbn in Hh, Hd. apply Some_inj in Hh, Hd. subst hrp dom.
  rewrite reported_ism_of in H6. rewrite reported_delivered_of in H7. apply Some_inj in H7.
  eexists _, _. apply mb_exec_inv. split; [reflexivity|]. eexists. split; [reflexivity|].
  cbn [mb_execute]. apply mb_process_iff. exists m, recipient, o, dflt.
  repeat match goal with |- _ /\ _ => split end; try assumption; try reflexivity.
  - destruct (om_get (keccak256_hash raw) (mb_deliveries x)); [discriminate|reflexivity].
  - apply H8. rewrite reported_delivered_of. cbn [mb_deliver mb_deliveries].
    now rewrite om_get_set, keqb_refl.
Qed.

(** ** Histories *)
Lemma c_step_Ok A st ev st' r : c_apply A ev st = Ok (st', r) -> c_step A st ev = st'.
Proof. unfold c_step. now intros ->. Qed.

(** what one accepted call does to the nonce, the latest id and the deliveries *)
Lemma mb_step_cases A x ev x' r :
  c_apply A ev (SMailbox x) = Ok (SMailbox x', r) ->
  (exists e i d Q sender,
     ev = EvExec e i (MDispatch d) Q /\
     let raw := msg_encode (the_message (mb_nonce x) (mb_domain x) sender d) in
     msg_wf (the_message (mb_nonce x) 0 sender d) /\
     mb_nonce x + 1 < u32_max /\ sent_message r = Some raw /\
     mb_nonce x' = mb_nonce x + 1 /\ mb_latest x' = Some (keccak256_hash raw) /\
     mb_deliveries x' = mb_deliveries x /\ mb_domain x' = mb_domain x)
  \/ (exists e i md raw Q,
     ev = EvExec e i (MProcess md raw) Q /\
     om_get (keccak256_hash raw) (mb_deliveries x) = None /\
     mb_deliveries x' = om_set (keccak256_hash raw) (mkDelivery (i_sender i) (e_height e)) (mb_deliveries x) /\
     mb_nonce x' = mb_nonce x /\ mb_latest x' = mb_latest x /\ mb_domain x' = mb_domain x)
  \/ ((forall d, ev_msg ev <> Some (MDispatch d)) /\
      (forall md raw, ev_msg ev <> Some (MProcess md raw)) /\
      mb_deliveries x' = mb_deliveries x /\
      mb_nonce x' = mb_nonce x /\ mb_latest x' = mb_latest x /\ mb_domain x' = mb_domain x).
Proof.
  intros H. destruct ev as [e i m Q|id rr]; [|discriminate].
  cbn [c_apply] in H. pose proof H as H0. apply mb_exec_inv in H as (Hok & y & E & H).
  injection E as <-.
  destruct m; try discriminate H.
  all: try (right; right; cbn [mb_execute] in H;
    unfold mb_set_default_ism, mb_set_default_hook, mb_set_required_hook, mb_set_own in H;
    inv_all; cbn; repeat split; congruence).
  - left. cbn [mb_execute] in H.
    pose proof (dispatch_effect A Q e i d (SMailbox x) (SMailbox x') r (mb_nonce x) (mb_domain x)
      eq_refl eq_refl H0) as (sd0 & _ & _ & _ & _ & Hs0 & Hl0 & Hr0 & Hd0 & _).
    apply mb_dispatch_iff in H
      as (sender & dflt & hook & required & fees & rest & H1 & H2 & H3 & H4 & H5 & H6 & H7 & H8 & -> & ->).
    rewrite H2 in Hs0. apply Ok_inj in Hs0. subst sd0.
    exists e, i, d, Q, sender. cbv zeta. split; [reflexivity|]. split.
    { unfold msg_wf, the_message.
      cbn [m_version m_nonce m_origin m_sender m_dest m_recipient m_body].
      repeat match goal with |- _ /\ _ => split end; try assumption; try reflexivity. lia. }
    split; [exact H8|]. repeat split.
  - right. left. cbn [mb_execute] in H.
    apply mb_process_iff in H as (m & rc & o & dflt & H1 & H2 & H3 & H4 & H5 & H6 & H7 & -> & H8 & ->).
    exists e, i, metadata, message, Q. repeat split; auto.
Qed.

Lemma dispatches_cons A st ev h :
  dispatches A st (ev :: h) =
  (if accepted A st ev
   then match ev_msg ev, c_apply A ev st with
        | Some (MDispatch _), Ok (_, r) =>
            match sent_message r with Some raw => [raw] | None => [] end
        | _, _ => []
        end
   else []) ++ dispatches A (c_step A st ev) h.
Proof.
  unfold dispatches. cbn [accepted_calls]. rewrite flat_map_app. f_equal.
  destruct (accepted A st ev); [|reflexivity]. cbn [flat_map fst snd]. now rewrite app_nil_r.
Qed.

Lemma processed_cons A st ev h :
  processed A st (ev :: h) =
  (if accepted A st ev
   then match ev with
        | EvExec e i (MProcess _ raw) _ => [(raw, (i_sender i, e_height e))]
        | _ => []
        end
   else []) ++ processed A (c_step A st ev) h.
Proof.
  unfold processed. cbn [accepted_calls]. rewrite flat_map_app. f_equal.
  destruct (accepted A st ev); [|reflexivity]. cbn [flat_map fst snd]. now rewrite app_nil_r.
Qed.

Lemma mb_apply_mailbox A x ev st' r :
  c_apply A ev (SMailbox x) = Ok (st', r) -> exists x', st' = SMailbox x'.
Proof.
  intros H. apply is_mailbox_inv. pose proof (is_mailbox_step A (SMailbox x) ev eq_refl) as K.
  now rewrite (c_step_Ok _ _ _ _ _ H) in K.
Qed.

Lemma dispatch_history A x h :
  mb_nonce x < u32_max -> mb_domain x < u32_max ->
  let ds := dispatches A (SMailbox x) h in
  exists x', c_run A (SMailbox x) h = SMailbox x' /\
    mb_domain x' = mb_domain x /\
    mb_nonce x' = mb_nonce x + N.of_nat (length ds) /\ mb_nonce x' < u32_max /\
    mb_latest x' = (match rev ds with [] => mb_latest x | raw :: _ => Some (keccak256_hash raw) end) /\
    forall k raw, nth_error ds k = Some raw ->
      exists m, msg_decode raw = Ok m /\ m_version m = 3 /\
                m_nonce m = mb_nonce x + N.of_nat k /\ m_origin m = mb_domain x.
Proof.
  cbv zeta. revert x. induction h as [|ev h IH]; intros x Hn Hd.
  - exists x. cbn [c_run fold_left dispatches accepted_calls flat_map length rev].
    split; [reflexivity|]. split; [reflexivity|]. split; [lia|]. split; [exact Hn|].
    split; [reflexivity|]. intros [|k] raw; discriminate.
  - rewrite c_run_cons, dispatches_cons.
    destruct (c_apply A ev (SMailbox x)) as [[st' r]|er|] eqn:E.
    2,3: assert (Ha : accepted A (SMailbox x) ev = false) by (unfold accepted; now rewrite E);
         rewrite Ha, (c_step_rejected _ _ _ Ha); cbn [app]; now apply IH.
    assert (Ha : accepted A (SMailbox x) ev = true) by (unfold accepted; now rewrite E).
    rewrite Ha, (c_step_Ok _ _ _ _ _ E).
    destruct (mb_apply_mailbox _ _ _ _ _ E) as [y ->].
    destruct (mb_step_cases _ _ _ _ _ E) as
      [(e & i & d & Q & sender & -> & W & Hlt & Hs & Hy1 & Hy2 & Hy3 & Hy4)
      |[(e & i & md & raw0 & Q & -> & _ & _ & Hy1 & Hy2 & Hy4)|(Hnd & _ & _ & Hy1 & Hy2 & Hy4)]].
    + cbn [ev_msg]. rewrite Hs.
      set (raw0 := msg_encode (the_message (mb_nonce x) (mb_domain x) sender d)) in *.
      destruct (IH y) as (z & Hz1 & Hz2 & Hz3 & Hz4 & Hz5 & Hz6); [lia|lia|].
      set (ds := dispatches A (SMailbox y) h) in *. clearbody ds.
      exists z. cbn [app length]. split; [exact Hz1|]. split; [lia|]. split; [lia|]. split; [exact Hz4|]. split.
      { rewrite Hz5. cbn [rev]. destruct (rev ds) as [|a l]; [exact Hy2|reflexivity]. }
      intros [|k] raw Hk; cbn [nth_error] in Hk.
      * apply Some_inj in Hk as <-.
        exists (the_message (mb_nonce x) (mb_domain x) sender d).
        cbn [the_message m_version m_nonce m_origin].
        split; [|split; [reflexivity|split; [lia|reflexivity]]].
        apply msg_decode_encode. unfold msg_wf, the_message in *.
        cbn [m_version m_nonce m_origin m_sender m_dest m_recipient] in *. tauto.
      * destruct (Hz6 k raw Hk) as (m & M1 & M2 & M3 & M4). exists m.
        split; [exact M1|]. split; [exact M2|]. split; [lia|congruence].
    + cbn [ev_msg app].
      destruct (IH y) as (z & Hz1 & Hz2 & Hz3 & Hz4 & Hz5 & Hz6); [lia|lia|].
      exists z. rewrite Hy1, Hy2, Hy4 in *. auto 10.
    + assert (En : (match ev_msg ev with
        | Some (MDispatch _) => match sent_message r with Some raw => [raw] | None => [] end
        | _ => [] end) = ([] : list bytes)).
      { destruct (ev_msg ev) as [m0|] eqn:Em; [|reflexivity].
        destruct m0; try reflexivity. exfalso. eapply Hnd. reflexivity. }
      rewrite En. cbn [app].
      destruct (IH y) as (z & Hz1 & Hz2 & Hz3 & Hz4 & Hz5 & Hz6); [lia|lia|].
      exists z. rewrite Hy1, Hy2, Hy4 in *. auto 10.
Qed.

Lemma delivery_history A x h :
  let ps := processed A (SMailbox x) h in
  NoDup (map (fun p => keccak256_hash (fst p)) ps) /\
  (forall p, In p ps -> delivery_record (SMailbox x) (keccak256_hash (fst p)) = None) /\
  forall id rec, delivery_record (c_run A (SMailbox x) h) id = Some rec <->
    (delivery_record (SMailbox x) id = Some rec \/
     exists raw, In (raw, rec) ps /\ keccak256_hash raw = id).
Proof.
  cbv zeta. revert x. induction h as [|ev h IH]; intros x.
  - cbn [processed accepted_calls flat_map map]. split; [constructor|]. split; [intros p []|].
    intros id rec. cbn [c_run fold_left]. split; [auto|]. intros [H|(raw & [] & _)]; exact H.
  - rewrite c_run_cons, processed_cons.
    destruct (c_apply A ev (SMailbox x)) as [[st' r]|er|] eqn:E.
    2,3: assert (Ha : accepted A (SMailbox x) ev = false) by (unfold accepted; now rewrite E);
         rewrite Ha, (c_step_rejected _ _ _ Ha); cbn [app]; now apply IH.
    assert (Ha : accepted A (SMailbox x) ev = true) by (unfold accepted; now rewrite E).
    rewrite Ha, (c_step_Ok _ _ _ _ _ E).
    destruct (mb_apply_mailbox _ _ _ _ _ E) as [y ->].
    assert (Hsame : mb_deliveries y = mb_deliveries x ->
      forall id, delivery_record (SMailbox y) id = delivery_record (SMailbox x) id).
    { intros Hy id. cbn [delivery_record]. now rewrite Hy. }
    destruct (IH y) as (I1 & I2 & I3).
    destruct (mb_step_cases _ _ _ _ _ E) as
      [(e & i & d & Q & sender & -> & _ & _ & _ & _ & _ & Hy & _)
      |[(e & i & md & raw0 & Q & -> & Hnone & Hy & _)|(_ & Hnp & Hy & _)]].
    + specialize (Hsame Hy). cbn [app]. split; [exact I1|]. split.
      * intros p Hp. rewrite <- Hsame. now apply I2.
      * intros id rec. rewrite I3, Hsame. reflexivity.
    + set (ps := processed A (SMailbox y) h) in *. clearbody ps.
      assert (Hrec : forall id, delivery_record (SMailbox y) id =
        if keqb id (keccak256_hash raw0) then Some (i_sender i, e_height e)
        else delivery_record (SMailbox x) id).
      { intros id. cbn [delivery_record]. rewrite Hy, om_get_set.
        now destruct (keqb id (keccak256_hash raw0)). }
      cbn [app map fst]. split; [|split].
      * constructor; [|exact I1]. intros Hin. apply in_map_iff in Hin as (p & Hp & Hin).
        apply I2 in Hin. rewrite Hp, Hrec, keqb_refl in Hin. discriminate.
      * intros p [<-|Hp].
        -- cbn [fst delivery_record]. now rewrite Hnone.
        -- apply I2 in Hp. rewrite Hrec in Hp. destruct (keqb _ _); [discriminate|exact Hp].
      * intros id rec. rewrite I3, Hrec. destruct (keqb id (keccak256_hash raw0)) eqn:Ek.
        -- apply keqb_eq in Ek. subst id. split.
           ++ intros [H|(raw & H1 & H2)].
              ** apply Some_inj in H as <-. right. exists raw0. split; [left|]; reflexivity.
              ** right. exists raw. split; [right|]; assumption.
           ++ intros [H|(raw & [H1|H1] & H2)].
              ** cbn [delivery_record] in H. rewrite Hnone in H. discriminate.
              ** left. apply pair_equal_spec in H1 as [_ <-]. reflexivity.
              ** right. eauto.
        -- apply keqb_neq in Ek. split.
           ++ intros [H|(raw & H1 & H2)]; [now left|]. right. exists raw. split; [now right|exact H2].
           ++ intros [H|(raw & [H1|H1] & H2)]; [now left| |right; eauto].
              apply pair_equal_spec in H1 as [<- _]. congruence.
    + specialize (Hsame Hy).
      assert (En : (match ev with
        | EvExec e i (MProcess _ raw) _ => [(raw, (i_sender i, e_height e))]
        | _ => [] end) = ([] : list (bytes * (addr * N)))).
      { destruct ev as [e i m0 Q|]; [|reflexivity].
        destruct m0; try reflexivity. exfalso. eapply Hnp. reflexivity. }
      rewrite En. cbn [app]. split; [exact I1|]. split.
      * intros p Hp. rewrite <- Hsame. now apply I2.
      * intros id rec. rewrite I3, Hsame. reflexivity.
Qed.


Lemma dispatch_count A x h :
  length (dispatches A (SMailbox x) h) = length (filter is_dispatch (accepted_calls A (SMailbox x) h)).
Proof.
  revert x. induction h as [|ev h IH]; intros x; [reflexivity|].
  rewrite dispatches_cons. cbn [accepted_calls]. rewrite filter_app, !app_length.
  destruct (c_apply A ev (SMailbox x)) as [[st' r]|er|] eqn:E.
  2,3: assert (Ha : accepted A (SMailbox x) ev = false) by (unfold accepted; now rewrite E);
       rewrite Ha, (c_step_rejected _ _ _ Ha), IH; reflexivity.
  assert (Ha : accepted A (SMailbox x) ev = true) by (unfold accepted; now rewrite E).
  rewrite Ha, (c_step_Ok _ _ _ _ _ E).
  destruct (mb_apply_mailbox _ _ _ _ _ E) as [y ->]. rewrite IH. f_equal.
  cbn [filter]. unfold is_dispatch. cbn [snd].
  destruct (mb_step_cases _ _ _ _ _ E) as
    [(e & i & d & Q & sender & -> & _ & _ & Hs & _)
    |[(e & i & md & raw0 & Q & -> & _)|(Hnd & _)]].
  - cbn [ev_msg]. now rewrite Hs.
  - reflexivity.
  - destruct (ev_msg ev) as [m0|] eqn:Em; [|reflexivity].
    destruct m0; try reflexivity. exfalso. eapply Hnd. reflexivity.
Qed.

Lemma mb_born A q e i hrp owner dom st0 r :
  c_instantiate A q e i (IMailbox hrp owner dom) = Ok (st0, r) ->
  dom < u32_max /\ st0 = SMailbox (mkMb (own_init owner) hrp dom None None None 0 None []).
Proof.
  unfold c_instantiate, lift, mb_instantiate. intros H. inv_all.
  apply addr_validate_iff in Hr2 as [_ ->]. split; [exact (proj1 (N.ltb_lt _ _) Hr)|reflexivity].
Qed.

Lemma nonces_gapless A q e i hrp owner dom st0 r h :
  c_instantiate A q e i (IMailbox hrp owner dom) = Ok (st0, r) ->
  let ds := dispatches A st0 h in
  reported_nonce (c_run A st0 h) = Some (N.of_nat (length ds)) /\
  N.of_nat (length ds) < u32_max /\
  length ds = length (filter is_dispatch (accepted_calls A st0 h)) /\
  reported_latest (c_run A st0 h) = option_map keccak256_hash (nth_error (rev ds) 0) /\
  (forall k raw, nth_error ds k = Some raw ->
     exists m, msg_decode raw = Ok m /\ m_version m = 3 /\
               m_nonce m = N.of_nat k /\ m_origin m = dom) /\
  (forall j k a b, j <> k -> nth_error ds j = Some a -> nth_error ds k = Some b -> a <> b).
Proof.
  intros H. apply mb_born in H as [Hd ->]. cbv zeta.
  set (x0 := mkMb _ _ _ _ _ _ _ _ _) in *.
  pose proof (dispatch_count A x0 h) as Hc.
  destruct (dispatch_history A x0 h) as (z & Hz1 & Hz2 & Hz3 & Hz4 & Hz5 & Hz6); [reflexivity|exact Hd|].
  set (ds := dispatches A (SMailbox x0) h) in *. clearbody ds.
  cbn [x0 mb_nonce mb_domain mb_latest] in Hz2, Hz3, Hz5, Hz6.
  rewrite Hz1, reported_latest_of, Hz5.
  split; [change (Some (mb_nonce z) = Some (N.of_nat (length ds))); f_equal; lia|].
  split; [lia|]. split; [exact Hc|]. split; [now destruct (rev ds)|].
  split; [exact Hz6|].
  intros j k a b Hjk Ha Hb ->.
  destruct (Hz6 _ _ Ha) as (m1 & M1 & _ & M3 & _). destruct (Hz6 _ _ Hb) as (m2 & M4 & _ & M6 & _).
  rewrite M1 in M4. apply Ok_inj in M4. subst m2. lia.
Qed.

Lemma nonce_exhausted A st n e i d Q :
  reported_nonce st = Some n -> u32_max <= n + 1 ->
  accepted A st (EvExec e i (MDispatch d) Q) = false.
Proof.
  intros Hn Hle. apply nonce_mailbox in Hn as (x & -> & Hx).
  unfold accepted. destruct (c_apply _ _ _) as [[st' r]| |] eqn:E; try reflexivity. exfalso.
  cbn [c_apply] in E. apply (dispatch_effect A Q e i d (SMailbox x) st' r (mb_nonce x) (mb_domain x)) in E;
    try reflexivity.
  destruct E as (sd & rq & hk & fs & rs & _ & _ & _ & _ & H & _). lia.
Qed.

Lemma at_most_once A q e i hrp owner dom st0 r h :
  c_instantiate A q e i (IMailbox hrp owner dom) = Ok (st0, r) ->
  NoDup (map (fun p => keccak256_hash (fst p)) (processed A st0 h)) /\
  (forall id rec, delivery_record (c_run A st0 h) id = Some rec <->
     exists raw, In (raw, rec) (processed A st0 h) /\ keccak256_hash raw = id).
Proof.
  intros H. apply mb_born in H as [Hd ->].
  set (x0 := mkMb _ _ _ _ _ _ _ _ _) in *.
  destruct (delivery_history A x0 h) as (H1 & _ & H3). split; [exact H1|].
  intros id rec. rewrite H3. split; [|now right].
  intros [H|H]; [discriminate|exact H].
Qed.

Lemma delivery_permanent A st h id rec :
  delivery_record st id = Some rec -> delivery_record (c_run A st h) id = Some rec.
Proof.
  destruct st as [x| | | | | | | | | | | | | | | | |]; try discriminate.
  intros H. apply delivery_history. now left.
Qed.

Lemma delivered_recorded st id :
  reported_delivered st id = Some true <-> exists rec, delivery_record st id = Some rec.
Proof.
  destruct st as [x| | | | | | | | | | | | | | | | |]; try (split; [discriminate|now intros [? ?]]).
  rewrite reported_delivered_of. cbn [delivery_record].
  destruct (om_get id (mb_deliveries x)); cbn [option_map]; split; eauto; try discriminate.
  now intros [? ?].
Qed.

Lemma processed_again A st e i md raw Q :
  reported_delivered st (keccak256_hash raw) = Some true ->
  accepted A st (EvExec e i (MProcess md raw) Q) = false.
Proof.
  intros H. destruct st as [x| | | | | | | | | | | | | | | | |]; try discriminate H.
  unfold accepted. destruct (c_apply _ _ _) as [[st' r]| |] eqn:E; try reflexivity. exfalso.
  cbn [c_apply] in E. apply (process_effect A Q e i md raw (SMailbox x) st' r (mb_hrp x) (mb_domain x)) in E;
    try reflexivity.
  destruct E as (? & ? & ? & ? & _ & _ & _ & _ & _ & _ & _ & E & _). congruence.
Qed.

(** ** C18: too little money *)
Lemma dispatch_underpaid A Q e i d st n dom sender required fees x :
  reported_nonce st = Some n -> reported_domain st = Some dom ->
  bech32_to_h256 (i_sender i) = Ok sender ->
  reported_required_hook st = Some required ->
  q_smart (Q st) required (QHookQuote (d_meta d)
    (msg_encode (mkMessage 3 n dom sender (d_dest d) (d_recipient d) (d_body d)))) = Ok (RFees fees) ->
  amount_of x (i_funds i) < amount_of x fees ->
  accepted A st (EvExec e i (MDispatch d) Q) = false.
Proof.
  intros Hn Hd Hs Hr Hq Hlt. unfold accepted.
  destruct (c_apply _ _ _) as [[st' r]| |] eqn:E; try reflexivity. exfalso.
  cbn [c_apply] in E. apply (dispatch_effect A Q e i d st st' r n dom Hn Hd) in E.
  destruct E as (sd & rq & hk & fs & rs & H1 & _ & _ & _ & _ & H2 & _ & H3 & H4 & _).
  rewrite Hs in H1. apply Ok_inj in H1. subst sd.
  rewrite Hr in H2. apply Some_inj in H2. subst rq.
  rewrite Hq in H3. apply Ok_inj in H3. injection H3 as <-. specialize (H4 x). lia.
Qed.

(** ** C23 *)
Lemma dispatch_needs_default A st e i d Q :
  reported_default_hook st = None -> accepted A st (EvExec e i (MDispatch d) Q) = false.
Proof.
  intros H. unfold accepted. destruct (c_apply _ _ _) as [[st' r]| |] eqn:E; try reflexivity. exfalso.
  cbn [c_apply] in E.
  destruct st as [x| | | | | | | | | | | | | | | | |].
  2-18: unfold c_execute, lift in E; inv_all; discriminate.
  apply (dispatch_effect A Q e i d (SMailbox x) st' r (mb_nonce x) (mb_domain x)) in E; try reflexivity.
  destruct E as (sd & rq & hk & fs & rs & _ & _ & _ & _ & _ & _ & (dflt & Hd & _) & _). congruence.
Qed.

Lemma process_needs_default A st e i md raw Q :
  reported_default_ism st = None -> accepted A st (EvExec e i (MProcess md raw) Q) = false.
Proof.
  intros H. unfold accepted. destruct (c_apply _ _ _) as [[st' r]| |] eqn:E; try reflexivity. exfalso.
  cbn [c_apply] in E.
  destruct st as [x| | | | | | | | | | | | | | | | |].
  2-18: unfold c_execute, lift in E; inv_all; discriminate.
  apply (process_effect A Q e i md raw (SMailbox x) st' r (mb_hrp x) (mb_domain x)) in E; try reflexivity.
  destruct E as (m & rc & o & dflt & _ & _ & _ & _ & _ & Hd & _). congruence.
Qed.

Lemma dispatch_split A Q e i d st st' r n dom :
  reported_nonce st = Some n -> reported_domain st = Some dom ->
  c_execute A Q e i (MDispatch d) st = Ok (st', r) ->
  exists required hook md raw fees rest,
    r_msgs r = [mkSub (CExec required (MPostDispatch md raw) fees) RpNever;
                mkSub (CExec hook (MPostDispatch md raw) rest) RpNever] /\
    reported_required_hook st = Some required /\ chosen_hook A st d hook /\
    q_smart (Q st) required (QHookQuote md raw) = Ok (RFees fees) /\
    (forall x, amount_of x (i_funds i) = amount_of x fees + amount_of x rest) /\
    no_repeats rest /\ Forall (fun c => c_amount c <> 0) rest.
Proof.
  intros Hn Hd H. apply (dispatch_effect A Q e i d st st' r n dom Hn Hd) in H.
  destruct H as (sd & rq & hk & fs & rs & _ & _ & _ & _ & _ & H2 & H3 & H4 & H5 & _ & H6 & H7 & -> & _).
  do 6 eexists. split; [reflexivity|]. eauto 10.
Qed.

Lemma ids_distinct A q e i hrp owner dom st0 r h j k a b :
  c_instantiate A q e i (IMailbox hrp owner dom) = Ok (st0, r) ->
  j <> k -> nth_error (dispatches A st0 h) j = Some a -> nth_error (dispatches A st0 h) k = Some b ->
  keccak256_hash a <> keccak256_hash b \/ (a <> b /\ keccak256_hash a = keccak256_hash b).
Proof.
  intros H Hjk Ha Hb. destruct (bytes_eq_dec (keccak256_hash a) (keccak256_hash b)) as [E|E]; [right|now left].
  split; [|exact E].
  destruct (nonces_gapless A q e i hrp owner dom st0 r h H) as (_ & _ & _ & _ & _ & Hd). eauto.
Qed.
