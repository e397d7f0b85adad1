(** * [query] on the raw database. *)
From Coq Require Import List NArith Bool Lia Arith.
From Verif Require Import Base BaseFacts OMap Crypto Coins Hex Bech32 Metadata Merkle Message Json Chain Ownable Router Utils Mailbox Va
  Isms Hooks Igp Warp Cw20 Contracts Wire WireQuery SpecWire WireFacts StepFacts WireWidths WireCalls Store StoreFacts SpecStore StoreState
  StoreFrame StorePages Raw SpecRaw RawFacts RawExec.
Import ListNotations.

Lemma mapM_same {X Y} (f g : X -> res Y) l : (forall x, In x l -> f x = g x) -> mapM f l = mapM g l.
Proof.
  induction l as [|x l IH]; intros H; cbn [mapM]; [reflexivity|]. rewrite (H x (or_introl eq_refl)), IH; [reflexivity|].
  intros y Hy. apply H. now right.
Qed.
Lemma mapM_all {X Y} (f : X -> Y) l : mapM (fun x => Ok (f x)) l = Ok (map f l).
Proof. induction l as [|x l IH]; cbn [mapM map bind]; [reflexivity|]. now rewrite IH. Qed.

Section Query.
  Context (A : api) (v : cw2) (d : db) (q : querier) (m : qmsg).
  Hypothesis O : qmsg_ok m = true.

  Ltac asked o := match goal with W : wrote (info_cell ?v :: cells ?st) ?d |- _ =>
    rewrite ?(raw_own_query_eq o (info_cell v :: cells st) d W) by (right; seek) end.
  Ltac directed h r := match goal with W : wrote (info_cell ?v :: cells ?st) ?d |- _ =>
    rewrite ?(raw_router_query_eq (info_cell v :: cells st) d W h r) by first [assumption|right; seek] end.
  Ltac answer := opened; fetch; unfold addr in *; fetch; try reflexivity; repeat step1.

  Lemma raw_mb_query_eq x : stored (SMailbox x) -> wrote (info_cell v :: cells (SMailbox x)) d -> raw_mb_query A q m d = mb_query A q m x.
  Proof.
    intros (S1 & S2 & S3) W. unfold raw_mb_query, mb_query. destruct m; try reflexivity; cbn [qmsg_ok] in O; wide; asked (mb_own x); try reflexivity;
      unfold raw_mb_quote, raw_config, mb_quote_dispatch, mb_recipient_ism, get_default_ism, get_default_hook, get_required_hook; answer.
  Qed.
  Lemma raw_va_query_eq x : stored (SVa x) -> wrote (info_cell v :: cells (SVa x)) d -> raw_va_query m d = va_query m x.
  Proof.
    intros (S1 & S2 & S3 & S4) W. unfold raw_va_query, va_query. destruct m; try reflexivity.
    - opened. erewrite mapM_same; [rewrite mapM_all; reflexivity|]. intros b _. cbv beta. fetch. reflexivity.
    - opened. rewrite (wrote_keys any (fun k => k) octets_back kind_bytes nothing_c _ d (s "validators") (va_validators x) W)
        by first [solve [seek]|fit|now apply tame_name]. reflexivity.
    - answer.
    - answer.
  Qed.
  Lemma raw_ms_query_eq x : stored (SMultisig x) -> wrote (info_cell v :: cells (SMultisig x)) d -> raw_ms_query A m d = ms_query A m x.
  Proof.
    intros (S1 & S2) W. unfold raw_ms_query, ms_query. destruct m; try reflexivity; cbn [qmsg_ok] in O; wide; asked (ms_own x); try reflexivity.
    - unfold ms_verify. step1. step1. step1. narrowed. answer.
    - unfold ms_verify_info. step1. narrowed. answer.
    - answer.
  Qed.
  Lemma raw_ag_query_eq x : stored (SAggIsm x) -> wrote (info_cell v :: cells (SAggIsm x)) d -> raw_ag_query q m d = ag_query q m x.
  Proof.
    intros S1 W. cbn [stored] in S1. unfold raw_ag_query, ag_query. destruct m; try reflexivity; asked (ag_own x); try reflexivity;
      unfold raw_isms, raw_threshold, ag_verify; answer.
  Qed.
  Lemma raw_ri_query_eq x : stored (SRoutingIsm x) -> wrote (info_cell v :: cells (SRoutingIsm x)) d -> raw_ri_query q m d = ri_query q m x.
  Proof.
    intros S1 W. cbn [stored] in S1. unfold raw_ri_query, ri_query. destruct m; try reflexivity; asked (ri_own x); try reflexivity;
      unfold raw_module, ri_module; step1; narrowed; answer.
  Qed.
  Lemma raw_pi_query_eq x : wrote (info_cell v :: cells (SPausableIsm x)) d -> raw_pi_query m d = pi_query m x.
  Proof.
    intros W. unfold raw_pi_query, pi_query. destruct m; try reflexivity; asked (pi_own x); try reflexivity; unfold raw_paused; answer.
  Qed.
  Lemma raw_ph_query_eq x : wrote (info_cell v :: cells (SPausableHook x)) d -> raw_ph_query m d = ph_query m x.
  Proof.
    intros W. unfold raw_ph_query, ph_query. destruct m; try reflexivity; asked (ph_own x); try reflexivity; unfold raw_paused; answer.
  Qed.
  Lemma raw_mk_query_eq x : fits tree_c (mk_tree x) = true -> wrote (info_cell v :: cells (SMerkle x)) d -> raw_mk_query m d = mk_query m x.
  Proof. intros F W. unfold raw_mk_query, mk_query. cbv zeta. destruct m; try reflexivity; unfold raw_tree; answer. Qed.
  Lemma raw_ah_query_eq x : wrote (info_cell v :: cells (SAggHook x)) d -> raw_ah_query q m d = ah_query q m x.
  Proof.
    intros W. unfold raw_ah_query, ah_query. destruct m; try reflexivity; asked (ah_own x); try reflexivity; unfold raw_hooks, ah_quote; answer.
  Qed.
  Lemma raw_rh_query_eq x : stored (SRoutingHook x) -> wrote (info_cell v :: cells (SRoutingHook x)) d -> raw_rh_query q m d = rh_query q m x.
  Proof.
    intros S1 W. cbn [stored] in S1. unfold raw_rh_query, rh_query. destruct m; try reflexivity; asked (rh_own x); directed false (rh_routes x); try reflexivity.
    unfold raw_forward_quote, raw_rh_route, rh_route. step1. narrowed. answer.
  Qed.
  Lemma raw_cu_query_eq x : stored (SCustomHook x) -> wrote (info_cell v :: cells (SCustomHook x)) d -> raw_cu_query q m d = cu_query q m x.
  Proof.
    intros (S1 & S2) W. unfold raw_cu_query, cu_query. destruct m; try reflexivity; asked (cu_own x); directed false (cu_routes x); try reflexivity.
    - unfold raw_forward_quote, raw_cu_route, cu_route. step1. narrowed. opened. fetch. unfold addr in *.
      match goal with |- context [om_get ?k (cu_hooks x)] => destruct (om_get k (cu_hooks x)) end; cbn [bind]; [reflexivity|]. fetch. reflexivity.
    - cbn [qmsg_ok] in O. step1. opened. fetch. reflexivity.
    - cbn [qmsg_ok] in O. wide. unfold cu_list. step1. opened.
      rewrite (proj2 W), (load_page_sub _ (s "custom_hooks") (cu_hooks x)) by first [exact (proj1 W)|solve [seek]|assumption]. step1.
  Qed.
  Lemma raw_fb_query_eq x : stored (SFallbackHook x) -> wrote (info_cell v :: cells (SFallbackHook x)) d -> raw_fb_query q m d = fb_query q m x.
  Proof.
    intros S1 W. cbn [stored] in S1. unfold raw_fb_query, fb_query. destruct m; try reflexivity; asked (fb_own x); directed false (fb_routes x); try reflexivity.
    unfold raw_forward_quote, raw_fb_route, fb_route. step1. narrowed. answer.
  Qed.
  Lemma raw_fe_query_eq x : stored (SFeeHook x) -> wrote (info_cell v :: cells (SFeeHook x)) d -> raw_fe_query m d = fe_query m x.
  Proof.
    intros S1 W. cbn [stored] in S1. unfold raw_fe_query, fe_query. destruct m; try reflexivity; asked (fe_own x); try reflexivity; unfold raw_fee; answer.
  Qed.
  Lemma raw_or_query_eq x : stored (SOracle x) -> wrote (info_cell v :: cells (SOracle x)) d -> raw_or_query m d = or_query m x.
  Proof.
    intros S1 W. cbn [stored] in S1. unfold raw_or_query, or_query. destruct m; try reflexivity; cbn [qmsg_ok] in O; asked (or_own x); try reflexivity; answer.
  Qed.
  Lemma raw_gp_query_eq x : stored (SIgp x) -> wrote (info_cell v :: cells (SIgp x)) d -> raw_gp_query q m d = gp_query q m x.
  Proof.
    intros S W. pose proof S as (S1 & S2 & S3). unfold raw_gp_query, gp_query.
    destruct m; try reflexivity; asked (gp_own x); directed false (gp_routes x); try reflexivity; cbn [qmsg_ok] in O; wide.
    - unfold gp_quote_dispatch. step1. narrowed. rewrite (raw_default_eq v d x _ S W) by assumption. step1.
      rewrite (raw_quote_eq v d q x _ _ S1 W) by assumption. step1. opened. fetch.
      match goal with |- context [?n =? 0] => destruct (n =? 0) end; cbn [bind]; [reflexivity|]. step1.
    - answer.
    - rewrite forallb_forall in O. opened. erewrite mapM_same; [reflexivity|]. intros n I. cbv beta. pose proof (O n I) as On. fetch. reflexivity.
    - opened. rewrite (wrote_page u32_ok u32_key u32_back kind_u32 u128_c _ d (s "gas_for_domain") (gp_gas x) W)
        by first [solve [seek]|fit|now apply tame_name|match goal with |- match ?x with _ => _ end => destruct x; [assumption|exact Logic.I] end]. reflexivity.
    - answer.
    - rewrite (raw_quote_eq v d q x _ _ S1 W) by assumption. reflexivity.
    - opened. fetch. reflexivity.
  Qed.
  Lemma raw_wp_query_eq tt x : routes_held true (wp_routes x) -> wrote (info_cell v :: warp_cells x) d -> raw_wp_query tt m d = wp_query tt m x.
  Proof.
    intros S1 W. change (warp_cells x) with (cells (SWarpNative x)) in W. unfold raw_wp_query, wp_query.
    destruct m; try reflexivity; asked (wp_own x); directed true (wp_routes x); try reflexivity; unfold raw_conn_query, conn_query; answer.
  Qed.
End Query.

Lemma raw_query_eq A q m v st : stored st -> (forall x, st <> SCw20 x) ->
  raw_query A q m (program_of st) (storage v st) = c_query A q m st.
Proof.
  intros S N. pose proof (stored_wrote v st S) as W. unfold raw_query, c_query.
  destruct (qmsg_ok m) eqn:O; cbn [ensure bind]; [|reflexivity].
  destruct st; cbn [program_of].
  - now apply (raw_mb_query_eq A v).
  - now apply (raw_va_query_eq v).
  - now apply (raw_ms_query_eq A v).
  - now apply (raw_ag_query_eq v).
  - now apply (raw_ri_query_eq v).
  - now apply (raw_pi_query_eq v).
  - now apply (raw_mk_query_eq v).
  - now apply (raw_ah_query_eq v).
  - now apply (raw_ph_query_eq v).
  - now apply (raw_rh_query_eq v).
  - now apply (raw_cu_query_eq v).
  - now apply (raw_fb_query_eq v).
  - now apply (raw_fe_query_eq v).
  - now apply (raw_or_query_eq v).
  - now apply (raw_gp_query_eq v).
  - now apply (raw_wp_query_eq v).
  - now apply (raw_wp_query_eq v).
  - now elim (N x).
Qed.
