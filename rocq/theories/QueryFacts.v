(** * Proofs about interfaces and queries. *)
From Coq Require Import List NArith Bool Lia.
From Verif Require Import Base BaseFacts OMap Coins Crypto Message Bech32 Chain Ownable Router Utils Mailbox Va Isms Hooks Igp Warp Cw20
  Contracts Spec SpecModules SpecWorld SpecQuery StepFacts MailboxFacts MailboxConfFacts IgpFacts.
Import ListNotations.

Lemma not_understood A Q e i m st : understands st m = false -> c_execute A Q e i m st = Err EParse.
Proof.
  unfold c_execute. destruct (emsg_ok m); [| reflexivity].
  destruct st, m; intros H; try discriminate H; reflexivity.
Qed.

Lemma not_answered A q m st : answers_to st m = false -> c_query A q m st = Err EParse.
Proof.
  unfold c_query. destruct (qmsg_ok m); [| reflexivity].
  destruct st, m; intros H; try discriminate H; reflexivity.
Qed.

Lemma module_type A q st t : c_query A q QModuleType st = Ok (RModuleType t) <-> declared_type st = Some t.
Proof.
  unfold c_query. cbn [qmsg_ok ensure bind].
  destruct st; cbn; split; intros H; try discriminate H;
    try (apply Ok_inj in H; injection H as <-; reflexivity); apply Some_inj in H as <-; reflexivity.
Qed.

Lemma hook_mailbox A q st a :
  c_query A q QHookMailbox st = Ok (RMailbox a) <->
  reported_hook_mailbox st = Some a.
Proof.
  unfold reported_hook_mailbox, c_query. cbn [qmsg_ok ensure bind].
  destruct st; cbn; split; intros H; try discriminate H;
    try (apply Ok_inj in H; injection H as <-; reflexivity); apply Some_inj in H as <-; reflexivity.
Qed.

Lemma recipient_module A q st r x : is_mailbox st ->
  (c_query A q (QRecipientIsm r) st = Ok (RRecipientIsm x) <->
   exists o dflt, api_valid A r = true /\ q_smart q r QIsmSpecifier = Ok (RIsm o) /\
     reported_default_ism st = Some dflt /\ x = match o with Some y => y | None => dflt end).
Proof.
  intros Hk. destruct st as [x0| | | | | | | | | | | | | | | | |]; try discriminate Hk. rewrite reported_ism_of.
  unfold c_query. cbn [qmsg_ok ensure bind mb_query]. unfold mb_recipient_ism, get_default_ism. split.
  - intros H. apply bind_Ok_inv in H as (d & H1 & H). apply bind_Ok_inv in H as (a & H2 & H).
    apply bind_Ok_inv in H as (o & H3 & H). apply Ok_inj in H. injection H as <-.
    apply addr_validate_iff in H2 as [H2 ->]. apply recipient_ism_iff in H3.
    exists o, d. destruct (mb_ism x0); [| discriminate H1]. apply Ok_inj in H1 as ->. auto.
  - intros (o & d & H1 & H2 & H3 & ->). rewrite H3. cbn [expect bind].
    rewrite (proj2 (addr_validate_iff A r r) (conj H1 eq_refl)). cbn [bind].
    rewrite (proj2 (recipient_ism_iff q r o) H2). reflexivity.
Qed.

Lemma consulted_module A Q e i md raw st st' r hrp dom :
  reported_hrp st = Some hrp -> reported_domain st = Some dom ->
  c_execute A Q e i (MProcess md raw) st = Ok (st', r) ->
  exists m recipient,
    msg_decode raw = Ok m /\ bech32_encode hrp (m_recipient m) = Ok recipient /\
    (api_valid A recipient = true ->
     exists x, c_query A (Q st) (QRecipientIsm recipient) st = Ok (RRecipientIsm x) /\
       q_smart (Q st') x (QVerify md raw) = Ok (RVerified true)).
Proof.
  intros H1 H2 H. destruct (process_effect A Q e i md raw st st' r hrp dom H1 H2 H)
    as (m & rc & o & d & E1 & _ & _ & E4 & E5 & E6 & E7 & _).
  exists m, rc. split; [exact E1 |]. split; [exact E4 |]. intros V. eexists. split; [| exact E7].
  apply recipient_module; [| exists o, d; auto].
  unfold reported_hrp in H1. destruct st; try discriminate H1. reflexivity.
Qed.

Lemma oracle_answer A q st d price rate : is_igp st -> d < 2 ^ 32 ->
  (c_query A q (QOracle d) st = Ok (ROracle price rate) <-> gas_terms q st d price rate).
Proof.
  intros Hi Hd. destruct st; try contradiction Hi. unfold c_query. cbn [qmsg_ok].
  replace (u32_ok d) with true by (symmetry; apply N.ltb_lt; exact Hd). cbn [ensure bind gp_query].
  unfold gas_terms. rewrite reported_route_of by exact Hd. cbn [routes_of option_map]. split.
  - intros H. apply bind_Ok_inv in H as (o & H1 & H). apply ok_or_Ok_inv in H1.
    apply bind_Ok_inv in H as ([p r] & H2 & H). apply query_oracle_iff in H2. apply Ok_inj in H. injection H as <- <-.
    exists o. rewrite H1. auto.
  - intros (o & H1 & H2). apply Some_inj in H1. rewrite H1. cbn [ok_or bind].
    apply query_oracle_iff in H2. rewrite H2. reflexivity.
Qed.

Lemma hook_mailbox_fixed A st h : reported_hook_mailbox (c_run A st h) = reported_hook_mailbox st.
Proof.
  revert st. induction h as [| ev h IH]; intros st; [reflexivity |]. unfold c_run in *. cbn [fold_left]. rewrite IH. clear IH.
  unfold c_step. destruct (c_apply A ev st) as [[st' r] | |] eqn:E; try reflexivity.
  assert (K : kind st' = kind st) by (exact (apply_kind _ _ _ _ _ E)).
  destruct st, st'; try discriminate K; try reflexivity.
  destruct ev as [e i m Q | id rr]; cbn [c_apply] in E; [| discriminate E].
  unfold c_execute in E. apply bind_Ok_inv in E as (u & _ & E). cbn [lift] in E.
  destruct m; cbn [mk_execute lift bind] in E; try discriminate E.
  unfold lift in E. apply bind_Ok_inv in E as ([y o] & E & E'). apply Ok_inj in E'. injection E' as <- <-.
  unfold mk_post_dispatch in E. cbn.
  apply bind_Ok_inv in E as (rr & _ & E). destruct rr; try discriminate E.
  repeat (apply bind_Ok_inv in E as (? & _ & E)). apply Ok_inj in E. injection E as <- _. reflexivity.
Qed.
