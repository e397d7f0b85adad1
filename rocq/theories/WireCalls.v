(** * What contracts send and ask.

    Contracts send only the messages of [sent] and ask only the queries of [asked],
    with numbers that fit; so what a call does depends on nothing else the chain would
    answer. *)
From Coq Require Import List NArith Bool Lia Arith.
From Verif Require Import Base BaseFacts OMap Crypto Coins Hex Merkle Json JsonFacts Message CodecFacts Chain Ownable Router Utils Mailbox Va
  Isms Hooks Igp Warp Cw20 Contracts Wire WireQuery SpecQuery SpecWire WireFacts WireQueryFacts StepFacts QueryFacts InitFacts WireAnswers WireWidths.
Import ListNotations.

Lemma decoded_narrow raw m : msg_decode raw = Ok m -> u32_ok (m_origin m) = true /\ u32_ok (m_dest m) = true.
Proof. intros H. apply msg_decode_Ok_inv in H as (_ & W & _). unfold msg_wf in W. split; apply N.ltb_lt; apply W. Qed.

(** ** Messages *)
Definition sends_well (r : response) : Prop :=
  Forall (fun x => match sm_msg x with CExec _ m _ => sent m = true /\ emsg_ok m = true | _ => True end) (r_msgs r).

Lemma born_sends A q e i m st r : c_instantiate A q e i m = Ok (st, r) -> sends_well r.
Proof.
  intros H. unfold c_instantiate, lift in H. apply bind_Ok_inv in H as (u & O & H). apply ensure_Ok_inv in O. unfold sends_well.
  destruct m; cbn [imsg_ok] in O; inv_all;
   unfold mb_instantiate, va_instantiate, ms_instantiate, ag_instantiate,
    ri_instantiate, pi_instantiate, mk_instantiate, ah_instantiate, 
    ph_instantiate, rh_instantiate, cu_instantiate, fb_instantiate, 
    fe_instantiate, or_instantiate, gp_instantiate, wn_instantiate, 
    wc_instantiate in *; inv_all; split_matches; cbn [r_msgs resp0]; try (repeat constructor; fail).
  destruct md; repeat constructor.
Qed.

Lemma mapM_sends q md msg l : forall r,
  mapM (fun h => f <- quote_dispatch q h md msg ;; Ok (post_dispatch h md msg f)) l = Ok r -> sends_well (resp r).
Proof.
  induction l as [|h l IH]; intros r H; cbn [mapM] in H; [apply Ok_inj in H as <-; constructor|].
  apply bind_Ok_inv in H as (x & H1 & H). apply bind_Ok_inv in H as (y & H2 & H). apply Ok_inj in H as <-.
  apply bind_Ok_inv in H1 as (f & _ & H1). apply Ok_inj in H1 as <-. constructor; [cbn; auto|]. exact (IH y H2).
Qed.

Lemma call_sends A ev st st' r : c_apply A ev st = Ok (st', r) -> sends_well r.
Proof.
  intros H. destruct ev as [e i m Q|id rr]; cbn [c_apply] in H.
  - unfold c_execute, lift in H. apply bind_Ok_inv in H as (u & O & H). apply ensure_Ok_inv in O.
    destruct st; inv_all; unfold_execs; destruct m; try discriminate; inv_all.
    all: unfold_helpers; unfold wp_check_handle in *; inv_all; split_matches; unfold sends_well; try (constructor; fail).
    all: try (repeat constructor; fail).
    + match goal with HD : msg_decode _ = Ok ?v |- _ => apply decoded_narrow in HD as [HD _] end. repeat constructor. assumption.
    + eapply mapM_sends. eassumption.
    + destruct (_ =? 0); repeat constructor.
    + destruct (_ =? 0); repeat constructor.
    + destruct (_ =? 0); repeat constructor.
    + destruct (wp_mode _); repeat constructor.
    + cbn [emsg_ok] in O. apply andb_true_iff in O as [O _]. destruct (wp_mode _); repeat constructor; exact O.
    + unfold to_uint128 in *. split_matches. destruct (wp_mode _); repeat constructor; assumption.
    + cbn [emsg_ok] in O. apply andb_true_iff in O as [O O2]. destruct (wp_mode _); repeat constructor; assumption.
  - unfold c_reply, lift in H. destruct st; try discriminate H; inv_all; unfold_helpers; inv_all; split_matches; constructor.
Qed.

(** ** Queries *)
(** two chains that agree on what contracts ask *)
Definition agree (q1 q2 : querier) : Prop :=
  (forall a m, asked m = true -> qmsg_ok m = true -> q_smart q1 a m = q_smart q2 a m) /\
  (forall a d, q_balance q1 a d = q_balance q2 a d) /\ (forall a, q_all_balances q1 a = q_all_balances q2 a).

Lemma bind_agree {X Y} (r : res X) (f g : X -> res Y) : (forall x, r = Ok x -> f x = g x) -> bind r f = bind r g.
Proof. intros H. destruct r as [x|e|]; [apply H; reflexivity|reflexivity|reflexivity]. Qed.

Section Agree.
  Variables q1 q2 : querier.
  Hypothesis AG : agree q1 q2.

  Lemma smart_agree a m : asked m = true -> qmsg_ok m = true -> smart q1 a m = smart q2 a m.
  Proof. intros H O. unfold smart. rewrite (proj1 AG a m H O). reflexivity. Qed.
  Lemma quote_agree h md msg : quote_dispatch q1 h md msg = quote_dispatch q2 h md msg.
  Proof. unfold quote_dispatch. rewrite smart_agree by reflexivity. reflexivity. Qed.
  Lemma recipient_agree r : recipient_ism q1 r = recipient_ism q2 r.
  Proof. unfold recipient_ism. rewrite smart_agree by reflexivity. reflexivity. Qed.
  Lemma verify_agree a md msg : ism_verify q1 a md msg = ism_verify q2 a md msg.
  Proof. unfold ism_verify. rewrite smart_agree by reflexivity. reflexivity. Qed.
  Lemma oracle_agree a d : u32_ok d = true -> query_oracle q1 a d = query_oracle q2 a d.
  Proof. intros O. unfold query_oracle. rewrite smart_agree; [reflexivity|reflexivity|exact O]. Qed.
  Lemma igp_agree x d g : u32_ok d = true -> gp_quote q1 x d g = gp_quote q2 x d g.
  Proof.
    intros O. unfold gp_quote. destruct (ok_or _ _) as [a|e|]; [|reflexivity|reflexivity]. cbn [bind]. rewrite (oracle_agree a d O). reflexivity.
  Qed.
  Lemma pay_agree i x d g r : u32_ok d = true -> gp_pay_for_gas q1 i d g r x = gp_pay_for_gas q2 i d g r x.
  Proof. intros O. unfold gp_pay_for_gas. rewrite (igp_agree x d g O). reflexivity. Qed.
  Lemma ag_loop_agree msg l : forall t, ag_loop q1 msg l t = ag_loop q2 msg l t.
  Proof.
    induction l as [|[a md] l IH]; intros t; [reflexivity|]. cbn [ag_loop]. rewrite verify_agree.
    destruct (ism_verify q2 a md msg) as [v|e|]; [|reflexivity|reflexivity]. cbn [bind].
    destruct (if v then _ else _) as [t'|e|]; [|reflexivity|reflexivity]. cbn [bind]. rewrite IH. reflexivity.
  Qed.
  Lemma agg_sum_agree md msg l : forall acc,
    foldM (fun acc h => f <- quote_dispatch q1 h md msg ;; foldM coins_add f acc) l acc =
    foldM (fun acc h => f <- quote_dispatch q2 h md msg ;; foldM coins_add f acc) l acc.
  Proof.
    induction l as [|h l IH]; intros acc; [reflexivity|]. cbn [foldM]. rewrite quote_agree.
    apply bind_agree; intros b _. apply IH.
  Qed.
  Lemma agg_post_agree md msg l :
    mapM (fun h => f <- quote_dispatch q1 h md msg ;; Ok (post_dispatch h md msg f)) l =
    mapM (fun h => f <- quote_dispatch q2 h md msg ;; Ok (post_dispatch h md msg f)) l.
  Proof. induction l as [|h l IH]; [reflexivity|]. cbn [mapM]. rewrite quote_agree, IH. reflexivity. Qed.

  Lemma instantiate_agree A e i m : c_instantiate A q1 e i m = c_instantiate A q2 e i m.
  Proof.
    unfold c_instantiate. destruct (ensure (imsg_ok m) EParse); [|reflexivity|reflexivity]. cbn [bind].
    destruct m; try reflexivity. unfold va_instantiate. unfold lift. f_equal. repeat (apply bind_agree; intros).
    rewrite smart_agree by reflexivity. reflexivity.
  Qed.

  Lemma query_agree A m st : c_query A q1 m st = c_query A q2 m st.
  Proof.
    unfold c_query. destruct (qmsg_ok m) eqn:O; [|reflexivity]. cbn [ensure bind].
    destruct st; try reflexivity; destruct m; try reflexivity;
      cbn [mb_query va_query ms_query ag_query ri_query pi_query mk_query ah_query ph_query rh_query cu_query fb_query fe_query or_query
         gp_query].
    - unfold mb_recipient_ism. repeat (apply bind_agree; intros). rewrite recipient_agree. reflexivity.
    - f_equal. unfold mb_quote_dispatch. repeat (rewrite quote_agree || (apply bind_agree; intros)). reflexivity.
    - f_equal. unfold ag_verify. apply bind_agree; intros. rewrite ag_loop_agree. reflexivity.
    - apply bind_agree; intros. rewrite verify_agree. reflexivity.
    - apply bind_agree; intros. rewrite smart_agree by reflexivity. reflexivity.
    - f_equal. unfold ah_quote. rewrite agg_sum_agree. reflexivity.
    - apply bind_agree; intros. rewrite quote_agree. reflexivity.
    - apply bind_agree; intros. rewrite quote_agree. reflexivity.
    - apply bind_agree; intros. rewrite quote_agree. reflexivity.
    - f_equal. unfold gp_quote_dispatch. apply bind_agree; intros m0 D. apply decoded_narrow in D as [_ D]. apply bind_agree; intros g _.
      rewrite (igp_agree x _ g D). reflexivity.
    - f_equal. apply andb_true_iff in O as [O _]. apply igp_agree, O.
    - apply bind_agree; intros. rewrite oracle_agree by exact O. reflexivity.
  Qed.
End Agree.

Lemma execute_agree A Q1 Q2 e i m st : (forall x, narrow x -> agree (Q1 x) (Q2 x)) -> narrow st ->
  c_execute A Q1 e i m st = c_execute A Q2 e i m st.
Proof.
  intros AG W. unfold c_execute. destruct (emsg_ok m) eqn:O; [|reflexivity]. cbn [ensure bind]. pose proof (AG st W) as AS.
  destruct st; try reflexivity; destruct m; try reflexivity; unfold lift; f_equal;
    cbn [mb_execute mk_execute ah_execute fe_execute gp_execute].
  - unfold mb_dispatch. repeat (rewrite (quote_agree _ _ AS) || (apply bind_agree; intros)). reflexivity.
  - unfold mb_process. repeat (rewrite (recipient_agree _ _ AS) || (apply bind_agree; intros)). match goal with |- bind (ism_verify (Q1 ?z) _ _ _) _ = _ => rewrite (verify_agree _ _ (AG z W)) end. reflexivity.
  - unfold mk_post_dispatch. rewrite (smart_agree _ _ AS) by reflexivity. reflexivity.
  - unfold ah_post_dispatch. rewrite (agg_post_agree _ _ AS). reflexivity.
  - repeat (apply bind_agree; intros). rewrite (proj2 (proj2 AS)). reflexivity.
  - unfold gp_post_dispatch. apply bind_agree; intros m0 D. apply decoded_narrow in D as [_ D]. apply bind_agree; intros [g r] _.
    apply (pay_agree _ _ AS), D.
  - apply andb_true_iff in O as [O _]. apply (pay_agree _ _ AS), O.
  - unfold gp_claim. rewrite (proj1 (proj2 AS)). reflexivity.
Qed.
