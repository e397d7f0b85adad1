(** * [instantiate], [migrate] and histories on the raw database. *)
From Coq Require Import List NArith Bool Lia Arith.
From Verif Require Import Base BaseFacts OMap Crypto Coins Hex Bech32 Metadata Merkle Message Json Chain Ownable Router Utils Mailbox Va
  Isms Hooks Igp Warp Cw20 Contracts Wire WireQuery SpecWire WireFacts StepFacts WireWidths WireCalls Store StoreFacts SpecStore StoreState
  StoreFrame StorePages Raw SpecRaw RawFacts RawExec RawQuery.
Import ListNotations.

(** ** A new contract *)
Definition bare (c : cell) : cell := match c with One k _ => One k None | Many ns _ => Many ns [] end.
Lemma bare_title c : title (bare c) = title c.
Proof. now destruct c. Qed.
Lemma bare_wrote l : forallb plain l = true -> NoDup (map title l) -> wrote (map bare l) [].
Proof.
  intros P T. split.
  - split.
    + rewrite <- P. clear. induction l as [|c l IH]; cbn [map forallb]; [reflexivity|]. now rewrite IH, (title_plain _ _ (bare_title c)).
    + rewrite map_map, (map_ext _ title bare_title). exact T.
    + clear. induction l as [|[]]; cbn [map bare]; constructor; first [exact I|assumption].
  - unfold layout. replace (flat_map entries (map bare l)) with (@nil (bytes * bytes)); [reflexivity|].
    clear. induction l as [|[]]; cbn [map bare flat_map entries app]; auto.
Qed.
Lemma blank v st : wrote (map bare (info_cell v :: cells st)) [].
Proof.
  apply bare_wrote.
  - destruct st; spread; cbn [forallb plain]; lazy; reflexivity.
  - apply apart_NoDup. destruct st; spread; cbn [map title]; vm_compute; reflexivity.
Qed.
Ltac born v st := let W := fresh "W" in pose proof (blank v st) as W;
  cbn [map cells own_cells warp_cells conn_cells app] in W; unfold info_cell, routes_cell, pause_cell, item, maybe, table in W; cbn [map bare] in W.
Ltac made := cbn [kept_as lift bind]; match goal with |- _ = Ok (storage ?v ?st, _) => born v st end; repeat write1; closing.

Lemma raw_instantiate_eq A q e i m v : (forall x y, m <> ICw20 x y) ->
  raw_instantiate A q e m v = kept_as v (c_instantiate A q e i m).
Proof.
  intros N. unfold raw_instantiate, c_instantiate. destruct (imsg_ok m) eqn:O; cbn [ensure bind]; [|reflexivity].
  destruct m; cbn [imsg_ok] in O; cbv zeta; unfold written;
    unfold raw_mb_instantiate, mb_instantiate, raw_va_instantiate, va_instantiate, raw_owned, ms_instantiate, rh_instantiate, cu_instantiate,
      fb_instantiate, or_instantiate, raw_ag_instantiate, ag_instantiate, raw_ri_instantiate, ri_instantiate, raw_pausable, pi_instantiate,
      ph_instantiate, raw_mk_instantiate, mk_instantiate, raw_ah_instantiate, ah_instantiate, raw_fe_instantiate, fe_instantiate,
      raw_gp_instantiate, gp_instantiate, raw_wn_instantiate, wn_instantiate, raw_wc_instantiate, wc_instantiate, raw_warp_init, raw_own_init;
    try (repeat step1; fail).
  - step1. step1. step1. match goal with r : qres |- _ => destruct r end; reflexivity.
  - step1. unfold ri_save_all. match goal with |- context [save string_c (s "owner") ?o _] => born v (SRoutingIsm (mkRi (own_init o) [])) end.
    write1. write1.
    rewrite (foldM_wrote (fun mm => info_cell v :: cells (SRoutingIsm (mkRi (own_init a) mm))) (holds u32_ok string_c) (raw_set_module A)
      (fun m p => a <- addr_validate A (snd p) ;; Ok (om_set (fst p) a m)) isms) with (m := []).
    + step1.
    + rewrite forallb_forall in O. intros m0 p d2 I H W2. unfold raw_set_module.
      destruct (addr_validate A (snd p)); cbn [bind]; auto. split; [apply holds_set; fit|]. eexists. split; [reflexivity|].
      cbn [cells own_cells app] in *. eapply save_wrote; [|exact W2]. pose proof (O p I). put.
    + apply holds_nil.
    + assumption.
  - step1. step1. destruct t; reflexivity.
  - step1. step1. destruct t; [reflexivity|]. step1.
  - now elim (N _ _ eq_refl).
Qed.

(** ** The version *)
Lemma raw_migrate_eq name ver v st : stored st ->
  raw_migrate name ver (storage v st) = (v' <- migrate (Some v) name ver ;; Ok (storage v' st)).
Proof.
  intros S. pose proof (stored_wrote v st S) as W. unfold raw_migrate, migrate. rewrite (read_version v st S). cbn [bind ok_or]. step1. step1. step1.
  match goal with |- (if ?b then _ else _) = _ => destruct b end; cbn [bind]; [|reflexivity]. f_equal.
  assert (W' : wrote (info_cell (mkCw2 name ver) :: cells st) (save version_c (s "contract_info") (mkCw2 name ver) (storage v st))).
  { eapply save_wrote; [|exact W]. apply in_here. apply changed_one. }
  exact (proj2 W').
Qed.

(** ** Histories *)
Lemma raw_step_eq A v st ev : stored st -> (forall x, st <> SCw20 x) -> raw_timely ev ->
  raw_step A (program_of st) (storage v st) ev = (let '(v', st') := record_step A (v, st) ev in storage v' st').
Proof.
  intros S N T. unfold raw_step, raw_apply, record_step, c_step, c_apply. destruct ev as [e i m Q|id r|name ver]; cbn [raw_timely] in T.
  - rewrite (raw_execute_eq A Q e i m v st S N T). now destruct (c_execute A (fun y => Q (storage v y)) e i m st) as [[]| |].
  - rewrite (raw_reply_eq A id r v st S N). now destruct (c_reply A id r st) as [[]| |].
  - rewrite (raw_migrate_eq name ver v st S). now destruct (migrate (Some v) name ver).
Qed.
Lemma program_kept A ev st st' o : c_apply A ev st = Ok (st', o) -> program_of st' = program_of st.
Proof.
  unfold c_apply, c_execute, c_reply. destruct ev as [e i m Q|id r]; intros H.
  - apply bind_Ok_inv in H as (u & _ & H). destruct st; unfold lift in H; apply bind_Ok_inv in H as ([x' o'] & _ & H); apply Ok_inj in H; now injection H as <- _.
  - destruct st; try discriminate H; unfold lift in H; apply bind_Ok_inv in H as ([x' o'] & _ & H); apply Ok_inj in H; now injection H as <- _.
Qed.
Lemma program_step A st ev : program_of (c_step A st ev) = program_of st.
Proof. unfold c_step. destruct (c_apply A ev st) as [[st' o]| |] eqn:E; [exact (program_kept A ev st st' o E)|reflexivity|reflexivity]. Qed.
Lemma raw_run_eq A v st h : stored st -> (forall x, st <> SCw20 x) -> Forall raw_timely h ->
  raw_run A (program_of st) (storage v st) h = (let '(v', st') := record_run A (v, st) h in storage v' st').
Proof.
  unfold raw_run, record_run. revert v st. induction h as [|ev h IH]; intros v st S N T; [reflexivity|].
  inversion T as [|? ? T1 T2]; subst. cbn [fold_left]. rewrite (raw_step_eq A v st ev S N T1).
  assert (K : stored (snd (record_step A (v, st) ev)) /\ program_of (snd (record_step A (v, st) ev)) = program_of st).
  { destruct ev as [e i m Q|id r|name ver]; cbn [record_step snd]; [| |now split]; (split; [|apply program_step]);
      unfold c_step; match goal with |- stored (match ?a with _ => _ end) => destruct a as [[st' o]| |] eqn:E end; try exact S;
      refine (stored_step A _ st st' o S _ E); [exact T1|exact I]. }
  destruct (record_step A (v, st) ev) as [v' st'] eqn:E. cbn [snd] in K. destruct K as [K1 K2]. rewrite <- K2. apply IH; auto.
  intros x ->. cbn [program_of] in K2. destruct st; try discriminate K2. now elim (N x0).
Qed.
Lemma raw_life A q e i m v d o h : raw_instantiate A q e m v = Ok (d, o) -> Forall raw_timely h ->
  exists st, c_instantiate A q e i m = Ok (st, o) /\
    raw_run A (program_of st) d h = (let '(v', st') := record_run A (v, st) h in storage v' st').
Proof.
  intros H T. assert (N : forall x y, m <> ICw20 x y).
  { intros x y ->. unfold raw_instantiate in H. apply bind_Ok_inv in H as (u & _ & H). discriminate H. }
  rewrite (raw_instantiate_eq A q e i m v N) in H. destruct (c_instantiate A q e i m) as [[st o']| |] eqn:E; try discriminate H.
  apply Ok_inj in H. injection H as <- <-. exists st. split; [reflexivity|]. apply raw_run_eq; [exact (stored_born _ _ _ _ _ _ _ E)| |exact T].
  intros x ->. unfold c_instantiate in E. apply bind_Ok_inv in E as (u & _ & E).
  destruct m; try (unfold lift in E; apply bind_Ok_inv in E as ([y o1] & _ & E); apply Ok_inj in E; now injection E as E _).
  now elim (N _ _ eq_refl).
Qed.
