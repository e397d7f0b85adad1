(** * What contracts answer is of the type they declare. *)
From Coq Require Import List NArith Bool Lia Arith.
From Verif Require Import Base BaseFacts OMap Coins Hex Json JsonFacts Message Chain Ownable Router Utils Mailbox Va Isms Hooks Igp Warp Cw20
  Contracts Wire WireQuery SpecQuery SpecWire WireFacts WireQueryFacts StepFacts QueryFacts.
Import ListNotations.

Lemma answered A q m st r : c_query A q m st = Ok r -> answers_to st m = true /\ qmsg_ok m = true.
Proof.
  intros H. split.
  - destruct (answers_to st m) eqn:E; [reflexivity|]. rewrite (not_answered A q m st E) in H. discriminate.
  - unfold c_query in H. destruct (qmsg_ok m); [reflexivity|discriminate].
Qed.

(** the answers of cw20 tokens are not modelled *)
Definition is_token (st : cstate) : bool := match st with SCw20 _ => true | _ => false end.

Ltac open_ans :=
  cbn [answer_c ans fits one_string_c fees_c local_domain_c mailbox_c conn_c verified_c oracle_c gas_list_c branch_c ism_type_c
       token_mode_c program_of option_map wide]; open_fits; cbn [fits sfits option_map].

Lemma answer_shape A q m st r : is_token st = false -> c_query A q m st = Ok r -> wide r = true ->
  fits (answer_c (program_of st) m) r = true.
Proof.
  intros T H W. destruct (answered A q m st r H) as [U O]. unfold c_query in H. rewrite O in H. cbn [ensure bind] in H.
  destruct st; try discriminate T; destruct m; try discriminate U; clear U T.
  all: cbn [mb_query va_query ms_query ag_query ri_query pi_query mk_query ah_query ph_query rh_query cu_query fb_query fe_query or_query
         gp_query wn_query wc_query wp_query own_query router_query conn_query pause_query] in H;
    try unfold mb_recipient_ism in H; try unfold ms_verify_info in H; inv_all; cbn [wide] in W.
  all: try match goal with H : match ?v with _ => _ end = Ok _ |- _ => destruct v; try discriminate H; apply Ok_inj in H as <- end.
  all: open_ans; widths.
  apply forallb_forall. intros y _. cbn [andb]. apply forallb_yes.
Qed.
