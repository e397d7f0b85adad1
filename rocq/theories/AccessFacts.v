(** * Ownership, pausing, routes and connections along histories. *)
From Coq Require Import List NArith Lia Bool.
From Verif Require Import Base BaseFacts OMap Coins Message Chain Ownable Router
  Mailbox Va Isms Hooks Igp Warp Cw20 Contracts Spec StepFacts.
Import ListNotations.

(** ** Ownership *)
(** what an accepted ownership request does, read off the query answers *)
Lemma own_step A st ev om :
  accepted A st ev = true -> own_request ev = Some om ->
  let st' := c_step A st ev in
  exists a sender, reported_owner st = Some a /\ ev_sender ev = Some sender /\
  match om with
  | InitOwnershipTransfer b =>
      sender = a /\ reported_pending st = None /\
      reported_pending st' = Some b /\ reported_owner st' = Some a /\ api_valid A b = true
  | RevokeOwnershipTransfer =>
      sender = a /\ reported_pending st <> None /\
      reported_pending st' = None /\ reported_owner st' = Some a
  | ClaimOwnership =>
      reported_pending st = Some sender /\
      reported_pending st' = None /\ reported_owner st' = Some sender
  end.
Proof.
  intros Hacc Hreq st'. apply c_step_accepted in Hacc as [r Hap]. fold st' in Hap.
  apply apply_own in Hap as [(om' & e & i & Q & m & o & o' & -> & Hom & Ho & Hh & Ho')|[Hn _]];
    [|congruence].
  assert (om' = om) as -> by congruence.
  rewrite !reported_owner_own, !reported_pending_own, Ho, Ho'.
  exists (o_owner o), (i_sender i). split; [reflexivity|]. split; [reflexivity|].
  destruct om; cbn [own_handle] in Hh;
    unfold addr_validate, init_ownership_transfer, revoke_ownership_transfer, claim_ownership in Hh.
  - destruct (api_valid A next_owner) eqn:Ev; [|discriminate].
    inv_all. apply bytes_eqb_eq in Hr0. destruct (o_pending o); [discriminate|].
    cbn. auto.
  - inv_all. apply bytes_eqb_eq in Hr. destruct (o_pending o); [|discriminate].
    cbn. repeat split; congruence.
  - inv_all. apply bytes_eqb_eq in Hr1. cbn. subst. auto.
Qed.

Lemma own_step_other A st ev :
  own_request ev = None ->
  reported_owner (c_step A st ev) = reported_owner st /\
  reported_pending (c_step A st ev) = reported_pending st.
Proof.
  intros Hn. destruct (accepted A st ev) eqn:E.
  - apply c_step_accepted in E as [r Hap].
    apply apply_own in Hap as [(om' & e & i & Q & m & o & o' & -> & Hom & _)|[_ Hs]];
      [congruence|].
    rewrite !reported_owner_own, !reported_pending_own, Hs. auto.
  - now rewrite c_step_rejected.
Qed.

(** an open offer was made by the owner and has been left alone since *)
Definition offered (A : api) (st0 : cstate) (h : list event) (a b : addr) : Prop :=
  exists h1 offer h2,
    h = h1 ++ offer :: h2 /\
    own_request offer = Some (InitOwnershipTransfer b) /\
    ev_sender offer = Some a /\
    reported_owner (c_run A st0 h1) = Some a /\
    reported_pending (c_run A st0 h1) = None /\
    accepted A (c_run A st0 h1) offer = true /\
    (forall h3 ev h4, h2 = h3 ++ ev :: h4 ->
       accepted A (c_run A st0 (h1 ++ offer :: h3)) ev = true -> own_request ev = None).

Lemma pending_offered A st0 h :
  reported_pending st0 = None ->
  forall b, reported_pending (c_run A st0 h) = Some b ->
  exists a, reported_owner (c_run A st0 h) = Some a /\ offered A st0 h a b.
Proof.
  intros H0. induction h as [|ev h IH] using rev_ind; intros b Hb.
  - cbn in Hb. congruence.
  - rewrite c_run_app in *. cbn [c_run fold_left] in *.
    fold (c_run A st0 h) in *.
    set (st := c_run A st0 h) in *.
    assert (Hext : reported_owner (c_step A st ev) = reported_owner st ->
                   reported_pending (c_step A st ev) = reported_pending st ->
                   (accepted A st ev = true -> own_request ev = None) ->
                   exists a, reported_owner (c_step A st ev) = Some a /\
                             offered A st0 (h ++ [ev]) a b).
    { intros Eo Ep Hnone. rewrite Ep in Hb. destruct (IH b Hb) as (a & Ha & h1 & offer & h2 &
        -> & E1 & E2 & E3 & E4 & E5 & E6).
      exists a. split; [congruence|].
      exists h1, offer, (h2 ++ [ev]). split; [now rewrite <- app_assoc|].
      repeat (split; [assumption|]).
      intros h3 ev' h4 Hh Hacc.
      destruct h4 as [|x h4] using rev_ind.
      - apply app_inj_tail in Hh as [-> ->]. apply Hnone. exact Hacc.
      - clear IHh4. rewrite app_comm_cons, app_assoc in Hh.
        apply app_inj_tail in Hh as [-> _].
        eapply E6; eauto. }
    destruct (own_request ev) as [om|] eqn:Er.
    + destruct (accepted A st ev) eqn:Ea.
      * pose proof (own_step A st ev om Ea Er) as (a & sender & Ha & Hs & Hm).
        destruct om.
        -- destruct Hm as (-> & Hp & Hp' & Ho' & _).
           rewrite Hp' in Hb. apply Some_inj in Hb as <-.
           exists a. split; [exact Ho'|].
           exists h, ev, []. split; [reflexivity|].
           repeat (split; [assumption|]).
           intros [|? ?] ? ? Hh; discriminate.
        -- destruct Hm as (_ & _ & Hp' & _). congruence.
        -- destruct Hm as (_ & Hp' & _). congruence.
      * apply Hext; try (rewrite c_step_rejected by assumption; reflexivity). discriminate.
    + destruct (own_step_other A st ev Er) as [E1 E2]. apply Hext; auto.
Qed.

Lemma ownership_two_step A q e i m st0 r h c :
  c_instantiate A q e i m = Ok (st0, r) ->
  reported_owner (c_run A st0 (h ++ [c])) <> reported_owner (c_run A st0 h) ->
  exists a b,
    reported_owner (c_run A st0 h) = Some a /\
    reported_owner (c_run A st0 (h ++ [c])) = Some b /\
    own_request c = Some ClaimOwnership /\ ev_sender c = Some b /\
    accepted A (c_run A st0 h) c = true /\
    offered A st0 h a b.
Proof.
  intros Hi Hne.
  assert (H0 : reported_pending st0 = None).
  { rewrite reported_pending_own. destruct (own_of st0) as [o|] eqn:E; [|reflexivity].
    eapply instantiate_own; eauto. }
  rewrite c_run_app in *. cbn [c_run fold_left] in *. fold (c_run A st0 h) in *.
  set (st := c_run A st0 h) in *.
  destruct (accepted A st c) eqn:Ea; [|now rewrite c_step_rejected in Hne].
  destruct (own_request c) as [om|] eqn:Er.
  - pose proof (own_step A st c om Ea Er) as (a & sender & Ha & Hs & Hm).
    destruct om.
    + destruct Hm as (_ & _ & _ & Ho' & _). congruence.
    + destruct Hm as (_ & _ & _ & Ho'). congruence.
    + destruct Hm as (Hp & Hp' & Ho').
      destruct (pending_offered A st0 h H0 sender Hp) as (a' & Ha' & Hoff).
      fold st in Ha'. assert (a' = a) as -> by congruence.
      exists a, sender. auto 10.
  - destruct (own_step_other A st c Er) as [E1 _]. congruence.
Qed.

Lemma ownership_calls A st ev om :
  accepted A st ev = true -> own_request ev = Some om ->
  match om with
  | InitOwnershipTransfer _ =>
      ev_sender ev = reported_owner st /\ reported_pending st = None
  | RevokeOwnershipTransfer =>
      ev_sender ev = reported_owner st /\ reported_pending st <> None
  | ClaimOwnership => ev_sender ev = reported_pending st /\ reported_pending st <> None
  end.
Proof.
  intros Ha Hr. pose proof (own_step A st ev om Ha Hr) as (a & sd & H1 & H2 & H3).
  destruct om.
  - destruct H3 as (-> & ? & _). split; congruence.
  - destruct H3 as (-> & ? & _). split; congruence.
  - destruct H3 as (? & _). split; congruence.
Qed.

(** ** Pausing *)
Lemma pause_step A st ev pm :
  accepted A st ev = true -> pause_request ev = Some pm ->
  ev_sender ev = reported_owner st /\
  match pm with
  | Pause => reported_paused st = Some false /\ reported_paused (c_step A st ev) = Some true
  | Release => reported_paused st = Some true /\ reported_paused (c_step A st ev) = Some false
  end.
Proof.
  intros Hacc Hreq. apply c_step_accepted in Hacc as [r Hap].
  apply apply_pause in Hap as [(pm' & e & i & Q & m & o & b & b' & -> & Hpm & Ho & Hb & Hh & Hb')|[Hn _]];
    [|congruence].
  assert (pm' = pm) as -> by congruence.
  rewrite !reported_paused_of, reported_owner_own, Ho, Hb, Hb'.
  unfold pause_handle, only_owner in Hh. inv_all. apply bytes_eqb_eq in Hr.
  split; [cbn; congruence|].
  destruct pm, b; cbn in Hh; try discriminate; apply Ok_inj in Hh as <-; auto.
Qed.

Lemma pause_step_other A st ev :
  (accepted A st ev = true -> pause_request ev = None) ->
  reported_paused (c_step A st ev) = reported_paused st.
Proof.
  intros Hn. destruct (accepted A st ev) eqn:E.
  - apply c_step_accepted in E as [r Hap].
    apply apply_pause in Hap as [(pm' & e & i & Q & m & o & b & b' & -> & Hpm & _)|[_ Hs]].
    + rewrite Hn in Hpm by reflexivity. discriminate.
    + rewrite !reported_paused_of. auto.
  - now rewrite c_step_rejected.
Qed.

Lemma pauses_cons A st ev h :
  pauses A st (ev :: h) =
  (if accepted A st ev then match pause_request ev with Some m => [m] | None => [] end else [])
  ++ pauses A (c_step A st ev) h.
Proof.
  unfold pauses. cbn [accepted_calls]. rewrite flat_map_app.
  destruct (accepted A st ev); cbn; [now rewrite app_nil_r|reflexivity].
Qed.

Lemma paused_after_cons b m l :
  paused_after b (m :: l)
  = paused_after (match m with Pause => true | Release => false end) l.
Proof.
  unfold paused_after. destruct l as [|x l]; [destruct m; reflexivity|].
  assert (H : forall (l : list pausable_msg) x d d', last (x :: l) d = last (x :: l) d').
  { clear. induction l as [|y l IH]; intros x d d'; [reflexivity|]. apply (IH y). }
  change (last (m :: x :: l)) with (last (x :: l)).
  now rewrite (H l x _ (if match m with Pause => true | Release => false end
                        then Pause else Release)).
Qed.

Lemma pause_history A st h b :
  reported_paused st = Some b ->
  alternates b (pauses A st h) /\
  reported_paused (c_run A st h) = Some (paused_after b (pauses A st h)).
Proof.
  revert st b. induction h as [|ev h IH]; intros st b Hb.
  - cbn. split; [exact I|]. rewrite Hb. unfold paused_after. cbn. now destruct b.
  - rewrite c_run_cons, pauses_cons.
    destruct (accepted A st ev) eqn:Ea; [destruct (pause_request ev) as [pm|] eqn:Er|].
    + destruct (pause_step A st ev pm Ea Er) as [_ Hm].
      destruct pm; destruct Hm as [H1 H2]; rewrite H1 in Hb; apply Some_inj in Hb as <-;
        destruct (IH _ _ H2) as [I1 I2]; cbn [app alternates]; rewrite paused_after_cons; auto.
    + cbn [app]. apply IH. rewrite pause_step_other; auto.
    + cbn [app]. apply IH. rewrite pause_step_other; auto. rewrite Ea. discriminate.
Qed.

(** ** Routes *)
Lemma last_update_app d l1 l2 r0 :
  last_update d (l1 ++ l2) r0 = last_update d l2 (last_update d l1 r0).
Proof.
  unfold last_update. rewrite rev_app_distr.
  generalize (rev l1) as m1. generalize (rev l2) as m2. clear.
  induction m2 as [|x m2 IH]; intros m1; cbn [app find]; [reflexivity|].
  destruct (rs_domain x =? d); auto.
Qed.

Lemma get_route_set r st d :
  rs_route (get_route (set_route r st) d)
  = if rs_domain st =? d then rs_route st else rs_route (get_route r d).
Proof.
  unfold get_route, set_route, load_route. cbn.
  rewrite om_get_set. destruct (keqb d (rs_domain st)) eqn:E.
  - apply keqb_eq in E as ->. rewrite N.eqb_refl. now destruct (rs_route st).
  - apply keqb_neq in E. destruct (rs_domain st =? d) eqn:E2; [|reflexivity].
    apply N.eqb_eq in E2. congruence.
Qed.

Lemma get_route_sets r l d :
  rs_route (get_route (set_routes r l) d) = last_update d l (rs_route (get_route r d)).
Proof.
  unfold set_routes. revert r. induction l as [|x l IH]; intros r; [reflexivity|].
  cbn [fold_left]. rewrite IH, get_route_set.
  change (x :: l) with ([x] ++ l). rewrite last_update_app. f_equal.
  unfold last_update. cbn. now destruct (rs_domain x =? d).
Qed.

Lemma routes_step A st ev d r0 :
  d < u32_max -> reported_route st d = Some r0 ->
  reported_route (c_step A st ev) d
  = Some (last_update d (if accepted A st ev then route_updates ev else []) r0).
Proof.
  intros Hd. rewrite !reported_route_of by assumption. intros H0.
  destruct (accepted A st ev) eqn:E.
  - apply c_step_accepted in E as [r Hap].
    apply apply_routes in Hap as [(rm & e & i & Q & m & o & t & t' & -> & Hrm & Ho & Ht & Hh & Ht')|[Hn Hs]].
    + rewrite Ht in H0. rewrite Ht'. cbn [option_map] in H0 |- *. apply Some_inj in H0. f_equal.
      unfold router_handle in Hh. unfold router_request, ev_msg in Hrm.
      unfold route_updates, ev_msg. destruct m; try discriminate. apply Some_inj in Hrm as ->.
      inv_all. destruct rm; inv_all.
      * rewrite get_route_set. unfold last_update. cbn.
        now destruct (rs_domain set =? d).
      * now rewrite get_route_sets.
    + rewrite Hs. assert (Hu : route_updates ev = []).
      { unfold route_updates. unfold router_request in Hn.
        destruct (ev_msg ev) as [[]|]; try reflexivity. discriminate. }
      rewrite Hu. exact H0.
  - rewrite c_step_rejected by assumption. exact H0.
Qed.

Lemma updates_cons A st ev h :
  updates A st (ev :: h) =
  (if accepted A st ev then route_updates ev else []) ++ updates A (c_step A st ev) h.
Proof.
  unfold updates. cbn [accepted_calls]. rewrite flat_map_app.
  destruct (accepted A st ev); cbn; [now rewrite app_nil_r|reflexivity].
Qed.

Lemma routes_history A st h d r0 :
  d < u32_max -> reported_route st d = Some r0 ->
  reported_route (c_run A st h) d = Some (last_update d (updates A st h) r0).
Proof.
  intros Hd. revert st r0. induction h as [|ev h IH]; intros st r0 H0; [exact H0|].
  rewrite c_run_cons, updates_cons, last_update_app.
  apply IH. now apply routes_step.
Qed.

Lemma router_owner_only A st ev rm :
  accepted A st ev = true -> ev_msg ev = Some (MRouter rm) ->
  ev_sender ev = reported_owner st.
Proof.
  intros Hacc Hm. apply c_step_accepted in Hacc as [r Hap].
  apply apply_routes in Hap as [(rm' & e & i & Q & m & o & t & t' & -> & Hrm & Ho & Ht & Hh & Ht')|[Hn _]].
  - rewrite reported_owner_own, Ho. unfold router_handle, only_owner in Hh. inv_all.
    apply bytes_eqb_eq in Hr. cbn. congruence.
  - unfold router_request in Hn. now rewrite Hm in Hn.
Qed.

Lemma instantiate_routes A q e i m st r d x :
  c_instantiate A q e i m = Ok (st, r) -> d < u32_max -> reported_route st d = Some x -> x = None.
Proof.
  intros H Hd. rewrite reported_route_of by assumption.
  unfold c_instantiate, lift in H. destruct m; inv_all; cbn; try discriminate;
    unfold rh_instantiate, cu_instantiate, fb_instantiate, gp_instantiate,
      wn_instantiate, wc_instantiate in *; inv_all; split_matches; cbn; congruence.
Qed.

(** ** Connections *)
Lemma reported_conn_of st :
  reported_conn st QConnMailbox = option_map cn_mailbox (conn_of st) /\
  reported_conn st QConnIsm = option_map cn_ism (conn_of st) /\
  reported_conn st QConnHook = option_map cn_hook (conn_of st).
Proof. destruct st; repeat split; reflexivity. Qed.

Lemma module_named A q st r :
  c_query A q QIsmSpecifier st = Ok r <-> exists o, reported_conn st QConnIsm = Some o /\ r = RIsm o.
Proof.
  split.
  - destruct st; intros H; try discriminate H;
      (injection H as <-; eexists; split; [reflexivity|reflexivity]).
  - intros (o & H & ->). destruct st; try discriminate H;
      (unfold reported_conn in H; cbn in H; injection H as <-; reflexivity).
Qed.

Lemma conns_cons A st ev h :
  conns A st (ev :: h) =
  (if accepted A st ev then match conn_request ev with Some m => [m] | None => [] end else [])
  ++ conns A (c_step A st ev) h.
Proof.
  unfold conns. cbn [accepted_calls]. rewrite flat_map_app.
  destruct (accepted A st ev); cbn; [now rewrite app_nil_r|reflexivity].
Qed.

Lemma conn_step A st ev c :
  conn_of st = Some c ->
  let l := if accepted A st ev then match conn_request ev with Some m => [m] | None => [] end else [] in
  conn_of (c_step A st ev) =
    Some (mkConn (last_some mailbox_of_request l (cn_mailbox c))
                 (last_some ism_of_request l (cn_ism c))
                 (last_some hook_of_request l (cn_hook c))).
Proof.
  intros H0 l. subst l. destruct (accepted A st ev) eqn:E.
  - apply c_step_accepted in E as [r Hap].
    apply apply_conn in Hap as [(cm & e & i & Q & m & o & t & t' & -> & Hcm & Ho & Ht & Hh & Ht')|[Hn Hs]].
    + rewrite Ht in H0. apply Some_inj in H0 as ->. rewrite Ht', Hcm.
      unfold conn_handle in Hh. inv_all.
      destruct cm; unfold addr_validate in Hh;
        match goal with H : context [api_valid A ?x] |- _ => destruct (api_valid A x) end;
        cbn in Hh; try discriminate; apply Ok_inj in Hh as <-; reflexivity.
    + rewrite Hs, Hn, H0. now destruct c.
  - rewrite c_step_rejected by assumption. rewrite H0. now destruct c.
Qed.

Lemma last_some_app {X} (f : connection_msg -> option X) l1 l2 x0 :
  last_some f (l1 ++ l2) x0 = last_some f l2 (last_some f l1 x0).
Proof. apply fold_left_app. Qed.

Lemma conn_history A st h c :
  conn_of st = Some c ->
  conn_of (c_run A st h) =
    Some (mkConn (last_some mailbox_of_request (conns A st h) (cn_mailbox c))
                 (last_some ism_of_request (conns A st h) (cn_ism c))
                 (last_some hook_of_request (conns A st h) (cn_hook c))).
Proof.
  revert st c. induction h as [|ev h IH]; intros st c H0; [cbn; rewrite H0; now destruct c|].
  rewrite c_run_cons, conns_cons, !last_some_app.
  apply (conn_step A st ev) in H0. apply IH in H0. exact H0.
Qed.

Lemma conn_owner_only A st ev cm :
  accepted A st ev = true -> conn_request ev = Some cm ->
  ev_sender ev = reported_owner st.
Proof.
  intros Hacc Hm. apply c_step_accepted in Hacc as [r Hap].
  apply apply_conn in Hap as [(rm' & e & i & Q & m & o & t & t' & -> & Hrm & Ho & Ht & Hh & Ht')|[Hn _]].
  - rewrite reported_owner_own, Ho. unfold conn_handle, only_owner in Hh. inv_all.
    apply bytes_eqb_eq in Hr. cbn. congruence.
  - congruence.
Qed.

Lemma conns_history A st h m0 i0 k0 :
  reported_conn st QConnMailbox = Some m0 ->
  reported_conn st QConnIsm = Some i0 ->
  reported_conn st QConnHook = Some k0 ->
  reported_conn (c_run A st h) QConnMailbox = Some (last_some mailbox_of_request (conns A st h) m0) /\
  reported_conn (c_run A st h) QConnIsm = Some (last_some ism_of_request (conns A st h) i0) /\
  reported_conn (c_run A st h) QConnHook = Some (last_some hook_of_request (conns A st h) k0).
Proof.
  destruct (reported_conn_of st) as (E1 & E2 & E3). rewrite E1, E2, E3.
  destruct (reported_conn_of (c_run A st h)) as (F1 & F2 & F3). rewrite F1, F2, F3.
  destruct (conn_of st) as [c|] eqn:Ec; [|discriminate]. cbn.
  intros H1 H2 H3. apply Some_inj in H1, H2, H3. subst.
  rewrite (conn_history A st h c Ec). cbn. auto.
Qed.

Lemma is_router_answer r d x :
  (rs_route (get_route r d) = None -> exists e, is_router r d x = Err e) /\
  (forall v, rs_route (get_route r d) = Some v -> exists b, is_router r d x = Ok b /\ (b = true <-> x = v)).
Proof.
  unfold get_route, is_router. cbn [rs_route]. destruct (load_route r d) as [v | e |] eqn:E; cbn [bind].
  - split; [discriminate |]. intros v' H. injection H as <-. exists (bytes_eqb x v). split; [reflexivity | apply bytes_eqb_eq].
  - split; [intros _; now exists e | discriminate].
  - exfalso. unfold load_route in E. destruct (om_get d r) as [[|] |]; discriminate E.
Qed.
Lemma route_last_update A q e i m st0 r h d r0 :
  c_instantiate A q e i m = Ok (st0, r) -> d < u32_max ->
  reported_route st0 d = Some r0 ->
  r0 = None /\
  reported_route (c_run A st0 h) d = Some (last_update d (updates A st0 h) None).
Proof.
  intros Hi Hd H0. pose proof (instantiate_routes A q e i m st0 r d r0 Hi Hd H0) as ->.
  split; [reflexivity|]. now apply routes_history.
Qed.
