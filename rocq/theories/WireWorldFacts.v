(** * Contracts that talk in JSON do what contracts that hand over values do. *)
From Coq Require Import List NArith Bool Permutation.
From Verif Require Import Base BaseFacts OMap Coins Json Chain Contracts World SpecWorld SpecQuery SpecWire StepFacts QueryFacts WorldFacts Wire WireQuery
  WireWorld WireFacts WireQueryFacts WireAnswers WireWidths WireCalls.
Import ListNotations.

(** ** One call, one query *)
Lemma call_same A Q e i m st : sent m = true -> emsg_ok m = true -> call_json A Q e i m st = c_execute A Q e i m st.
Proof.
  intros H O. unfold call_json. rewrite (sent_read st m H O). destruct (understands st m) eqn:U; [reflexivity|].
  rewrite (not_understood A Q e i m st U). reflexivity.
Qed.

Lemma asked_answer st m : answers_to st m = true -> asked m = true -> is_token st = false /\ answer_c (program_of st) m = expected_c m.
Proof. intros U H. destruct m; try discriminate H; destruct st; try discriminate U; split; reflexivity. Qed.

Lemma ask_same A q m st : asked m = true -> qmsg_ok m = true -> narrow st -> ask_json A q m st = c_query A q m st.
Proof.
  intros H O W. unfold ask_json. rewrite (asked_read st m H O). destruct (answers_to st m) eqn:U; [|now rewrite (not_answered A q m st U)].
  destruct (asked_answer st m U H) as [T E]. destruct (c_query A q m st) as [r|e|] eqn:R; [|reflexivity|reflexivity]. cbn [bind].
  pose proof (answer_back _ _ _ (answer_shape A q m st r T R (answer_wide A q m st r W R))) as B.
  unfold read_answer in B. rewrite E in B. unfold read_expected. unfold answer_text in *. rewrite E in *. rewrite B. reflexivity.
Qed.

(** ** The whole chain *)
Definition all_narrow (w : world) : Prop := forall a st, contract_at w a st -> narrow st.

Lemma wqj_same C w : all_narrow w -> forall n, agree (wqj C n w) (wq C n w).
Proof.
  intros W n. induction n as [|n IH]; (split; [|split; intros; reflexivity]); intros a m H O; cbn [wqj wq q_smart]; [reflexivity|].
  destruct (om_get a (w_inst w)) as [[st|st]|] eqn:E; [|reflexivity|reflexivity].
  rewrite (ask_same _ _ _ _ H O (W a st E)). apply query_agree. exact IH.
Qed.

Lemma deployed_narrow A st : deployed A st -> narrow st.
Proof. intros (q & e & i & m & r & st0 & h & B & ->). apply narrow_run. exact (narrow_born A q e i m st0 r B). Qed.
Lemma reachable_deployed C w a st : reachable C w -> contract_at w a st -> deployed (ch_api C) st.
Proof.
  intros Hr Hc. destruct (chain_history C w a st Hr Hc) as (e & i & q & m & r & st0 & _ & _ & B & _ & ->).
  exists q, e, i, m, r, st0, (events_at a (w_log w)). auto.
Qed.

Lemma all_narrow_set w a st : all_narrow w -> narrow st -> all_narrow (set_inst a (IC st) w).
Proof.
  intros W S b x H. unfold contract_at in H. cbn [set_inst w_inst] in H. rewrite om_get_set in H. destruct (keqb b a).
  - injection H as <-. exact S.
  - exact (W b x H).
Qed.

Lemma calls_same C w a st k e i m :
  (forall b x, contract_at w b x -> deployed (ch_api C) x) -> contract_at w a st -> sent m = true -> emsg_ok m = true ->
  call_json (ch_api C) (fun x => wqj C k (set_inst a (IC x) w)) e i m st =
  c_execute (ch_api C) (fun x => wq C k (set_inst a (IC x) w)) e i m st.
Proof.
  intros D Hc H O. rewrite (call_same _ _ _ _ _ _ H O).
  assert (W : all_narrow w) by (intros b x Hb; exact (deployed_narrow _ _ (D b x Hb))).
  apply execute_agree; [|exact (W a st Hc)]. intros x Hx. apply wqj_same, all_narrow_set; assumption.
Qed.

Lemma queries_same C w a k m :
  (forall b x, contract_at w b x -> deployed (ch_api C) x) -> asked m = true -> qmsg_ok m = true ->
  q_smart (wqj C k w) a m = q_smart (wq C k w) a m.
Proof.
  intros D H O. assert (W : all_narrow w) by (intros b x Hb; exact (deployed_narrow _ _ (D b x Hb))).
  exact (proj1 (wqj_same C w W k) a m H O).
Qed.

Lemma births_same C w k e i m :
  (forall b x, contract_at w b x -> deployed (ch_api C) x) ->
  c_instantiate (ch_api C) (wqj C k w) e i m = c_instantiate (ch_api C) (wq C k w) e i m.
Proof.
  intros D. assert (W : all_narrow w) by (intros b x Hb; exact (deployed_narrow _ _ (D b x Hb))).
  apply instantiate_agree, wqj_same, W.
Qed.

(** every message a contract ever sent another was one of [sent] *)
Lemma sent_in_log C w a st b m f : chain_ok C -> reachable C w -> contract_at w a st ->
  In (LDo a (CExec b m f)) (w_log w) -> sent m = true /\ emsg_ok m = true.
Proof.
  intros HC Hr Hc Hin.
  assert (D : In (CExec b m f) (done_for a (w_log w))).
  { unfold done_for. apply in_flat_map. exists (LDo a (CExec b m f)). split; [exact Hin|]. rewrite bytes_eqb_refl. now left. }
  apply (Permutation_in _ (messages_settled C w a st HC Hr Hc)) in D.
  unfold asked_by in D. apply in_flat_map in D as (x & X1 & X2).
  destruct (chain_history C w a st Hr Hc) as (e & i & q & im & r & st0 & B & _ & Hi & L & _).
  assert (S : forall r, sends_well r -> In (CExec b m f) (map sm_msg (r_msgs r)) -> sent m = true /\ emsg_ok m = true).
  { intros r0 Sw Hm. apply in_map_iff in Hm as (y & Y1 & Y2). apply (proj1 (Forall_forall _ _) Sw) in Y2. rewrite Y1 in Y2. exact Y2. }
  destruct x as [c cm|c e' i' q' m' r'|c i' x|c ev r']; try contradiction X2; destruct (bytes_eqb a c) eqn:E; try contradiction X2;
    apply bytes_eqb_eq in E; subst c; apply (S r'); try exact X2.
  - assert (In (e', i', q', m', r') (births_at a (w_log w))) as HB.
    { unfold births_at. apply in_flat_map. eexists. split; [exact X1|]. cbv beta iota. rewrite bytes_eqb_refl. now left. }
    rewrite B in HB. destruct HB as [HB|[]]. injection HB as <- <- <- <- <-. exact (born_sends _ _ _ _ _ _ _ Hi).
  - assert (In (ev, r') (answers_at a (w_log w))) as HB.
    { unfold answers_at. apply in_flat_map. eexists. split; [exact X1|]. cbv beta iota. rewrite bytes_eqb_refl. now left. }
    clear - L HB. induction L as [|h st1 ev1 st2 r1 L IH Hs]; [contradiction HB|]. apply in_app_or in HB as [HB|[HB|[]]]; [exact (IH HB)|].
    injection HB as -> ->. exact (call_sends _ _ _ _ _ Hs).
Qed.
