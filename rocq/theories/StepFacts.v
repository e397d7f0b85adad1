(** * One step of a contract: what each kind of storage does under any call. *)
From Coq Require Import List NArith Lia Bool.
From Verif Require Import Base BaseFacts OMap Coins Message Chain Ownable Router
  Mailbox Va Isms Hooks Igp Warp Cw20 Contracts.
Import ListNotations.

(** ** Runs *)
Lemma c_run_app A st h1 h2 : c_run A st (h1 ++ h2) = c_run A (c_run A st h1) h2.
Proof. apply fold_left_app. Qed.

Lemma c_run_cons A st ev h : c_run A st (ev :: h) = c_run A (c_step A st ev) h.
Proof. reflexivity. Qed.

Lemma c_step_rejected A st ev : accepted A st ev = false -> c_step A st ev = st.
Proof. unfold accepted, c_step. destruct (c_apply A ev st) as [[x r]| |]; easy. Qed.

Lemma c_step_accepted A st ev :
  accepted A st ev = true -> exists r, c_apply A ev st = Ok (c_step A st ev, r).
Proof.
  unfold accepted, c_step. destruct (c_apply A ev st) as [[x r]| |]; simpl; try easy.
  eauto.
Qed.

Lemma accepted_calls_app A st h1 h2 :
  accepted_calls A st (h1 ++ h2)
  = accepted_calls A st h1 ++ accepted_calls A (c_run A st h1) h2.
Proof.
  revert st. induction h1 as [|ev h1 IH]; intros st; [reflexivity|].
  rewrite <- app_comm_cons. cbn [accepted_calls]. rewrite IH, <- app_assoc. reflexivity.
Qed.

(** an accepted call of a history sits at some point of it *)
Lemma accepted_calls_In A st h st1 ev :
  In (st1, ev) (accepted_calls A st h) ->
  exists h1 h2, h = h1 ++ ev :: h2 /\ st1 = c_run A st h1 /\ accepted A st1 ev = true.
Proof.
  revert st. induction h as [|e h IH]; simpl; intros st Hin; [tauto|].
  apply in_app_iff in Hin as [Hin|Hin].
  - destruct (accepted A st e) eqn:E; simpl in Hin; [|tauto].
    destruct Hin as [Hin|[]]. injection Hin as <- <-.
    exists [], h. auto.
  - apply IH in Hin as (h1 & h2 & -> & E1 & E2).
    exists (e :: h1), h2. auto.
Qed.

(** ** Inverting an accepted call *)
Ltac dpairs :=
  repeat match goal with
  | v : (_ * _)%type |- _ => destruct v
  end.

Ltac inv_all :=
  repeat (progress (inv_res; dpairs)).

(** ** Ownership *)
Definition own_of (st : cstate) : option own :=
  match st with
  | SMailbox x => Some (mb_own x)
  | SMultisig x => Some (ms_own x) | SAggIsm x => Some (ag_own x)
  | SRoutingIsm x => Some (ri_own x) | SPausableIsm x => Some (pi_own x)
  | SAggHook x => Some (ah_own x) | SPausableHook x => Some (ph_own x)
  | SRoutingHook x => Some (rh_own x) | SCustomHook x => Some (cu_own x)
  | SFallbackHook x => Some (fb_own x) | SFeeHook x => Some (fe_own x)
  | SOracle x => Some (or_own x) | SIgp x => Some (gp_own x)
  | SWarpNative x => Some (wp_own x) | SWarpCw20 x => Some (wp_own x)
  | SVa _ | SMerkle _ | SCw20 _ => None
  end.

Lemma reported_owner_own st : reported_owner st = option_map o_owner (own_of st).
Proof. destruct st; reflexivity. Qed.

Lemma reported_pending_own st :
  reported_pending st = match own_of st with Some o => o_pending o | None => None end.
Proof. destruct st; reflexivity. Qed.

Ltac open_call H :=
  cbn [c_apply] in H; unfold c_execute, lift in H; inv_all;
  match goal with
  | Hr : _ = Ok _ |- _ => idtac
  | _ => idtac
  end.

Ltac unfold_execs :=
  unfold mb_execute, va_execute, ms_execute, ag_execute, ri_execute, pi_execute,
    mk_execute, ah_execute, ph_execute, rh_execute, cu_execute, fb_execute, fe_execute,
    or_execute, gp_execute, wn_execute, wc_execute, wp_common, cw_execute in *.

Ltac unfold_helpers :=
  unfold mb_set_default_ism, mb_set_default_hook, mb_set_required_hook, mb_dispatch,
    mb_process, va_announce, ms_set_validators, ms_unset_domain, ag_set_isms,
    mk_post_dispatch, ah_post_dispatch, cu_register, cu_clear, gp_post_dispatch,
    gp_pay_for_gas, gp_claim, wn_handle, wn_transfer_remote, wc_handle,
    wc_transfer_remote, wn_reply, wc_reply, wp_set_token, wp_set_own, wp_set_routes,
    wp_set_conn, mb_set_own in *.

Ltac split_matches :=
  repeat match goal with
  | H : match ?x with _ => _ end = Ok _ |- _ => destruct x eqn:?; try discriminate; inv_all
  | H : (if ?x then _ else _) = Ok _ |- _ => destruct x eqn:?; try discriminate; inv_all
  end.

Lemma apply_own A ev st st' r :
  c_apply A ev st = Ok (st', r) ->
  (exists om e i Q m o o', ev = EvExec e i m Q /\ own_request ev = Some om /\
     own_of st = Some o /\ own_handle A i om o = Ok o' /\ own_of st' = Some o')
  \/ (own_request ev = None /\ own_of st' = own_of st).
Proof.
  intros H. destruct ev as [e i m Q|id rr].
  - cbn [c_apply] in H. unfold c_execute, lift in H.
    destruct st; inv_all; unfold_execs;
      destruct m; try discriminate; inv_all;
      first
        [ left; repeat eexists; cbn; eauto; fail
        | right; unfold_helpers; inv_all; split_matches; cbn; auto; fail
        | idtac ].
  - right. destruct st; cbn [c_apply c_reply] in H; unfold lift in H; try discriminate;
      unfold_helpers; inv_all; split_matches; cbn; auto.
Qed.

(** ** Pausing *)
Definition paused_of (st : cstate) : option bool :=
  match st with
  | SPausableIsm x => Some (pi_paused x)
  | SPausableHook x => Some (ph_paused x)
  | _ => None
  end.

Lemma reported_paused_of st : reported_paused st = paused_of st.
Proof. destruct st; reflexivity. Qed.

Ltac facet_step :=
  match goal with
  | H : c_apply _ ?ev ?st = Ok _ |- _ =>
    destruct ev as [e i m Q|id rr];
    [ cbn [c_apply] in H; unfold c_execute, lift in H;
      destruct st; inv_all; unfold_execs;
        destruct m; try discriminate; inv_all;
        first
          [ left; repeat eexists; cbn; eauto; fail
          | right; unfold_helpers; inv_all; split_matches; cbn; auto; fail
          | idtac ]
    | right; destruct st; cbn [c_apply c_reply] in H; unfold lift in H; try discriminate;
      unfold_helpers; inv_all; split_matches; cbn; auto ]
  end.

Lemma apply_pause A ev st st' r :
  c_apply A ev st = Ok (st', r) ->
  (exists pm e i Q m o b b', ev = EvExec e i m Q /\ pause_request ev = Some pm /\
     own_of st = Some o /\ paused_of st = Some b /\
     pause_handle o i pm b = Ok b' /\ paused_of st' = Some b')
  \/ (pause_request ev = None /\ paused_of st' = paused_of st).
Proof. intros H. facet_step. Qed.

(** ** Routes *)
Definition routes_of (st : cstate) : option routes :=
  match st with
  | SRoutingHook x => Some (rh_routes x) | SCustomHook x => Some (cu_routes x)
  | SFallbackHook x => Some (fb_routes x) | SIgp x => Some (gp_routes x)
  | SWarpNative x => Some (wp_routes x) | SWarpCw20 x => Some (wp_routes x)
  | _ => None
  end.

Lemma reported_route_of st d :
  d < u32_max ->
  reported_route st d
  = option_map (fun r => rs_route (get_route r d)) (routes_of st).
Proof.
  intros Hd. unfold reported_route, c_query. cbn [qmsg_ok].
  assert (E : u32_ok d = true) by (unfold u32_ok; now apply N.ltb_lt).
  rewrite E. cbn [ensure bind]. destruct st; reflexivity.
Qed.

Definition router_request (ev : event) : option router_msg :=
  match ev_msg ev with Some (MRouter m) => Some m | _ => None end.

Lemma apply_routes A ev st st' r :
  c_apply A ev st = Ok (st', r) ->
  (exists rm e i Q m o t t', ev = EvExec e i m Q /\ router_request ev = Some rm /\
     own_of st = Some o /\ routes_of st = Some t /\
     router_handle o i rm t = Ok t' /\ routes_of st' = Some t')
  \/ (router_request ev = None /\ routes_of st' = routes_of st).
Proof. intros H. facet_step. Qed.

(** ** Connections *)
Definition conn_of (st : cstate) : option conn :=
  match st with
  | SWarpNative x => Some (wp_conn x) | SWarpCw20 x => Some (wp_conn x)
  | _ => None
  end.

Lemma apply_conn A ev st st' r :
  c_apply A ev st = Ok (st', r) ->
  (exists cm e i Q m o t t', ev = EvExec e i m Q /\ conn_request ev = Some cm /\
     own_of st = Some o /\ conn_of st = Some t /\
     conn_handle A o i cm t = Ok t' /\ conn_of st' = Some t')
  \/ (conn_request ev = None /\ conn_of st' = conn_of st).
Proof. intros H. facet_step. Qed.

(** ** The kind of a contract never changes *)
Definition kind (st : cstate) : N :=
  match st with
  | SMailbox _ => 0 | SVa _ => 1 | SMultisig _ => 2 | SAggIsm _ => 3 | SRoutingIsm _ => 4
  | SPausableIsm _ => 5 | SMerkle _ => 6 | SAggHook _ => 7 | SPausableHook _ => 8
  | SRoutingHook _ => 9 | SCustomHook _ => 10 | SFallbackHook _ => 11 | SFeeHook _ => 12
  | SOracle _ => 13 | SIgp _ => 14 | SWarpNative _ => 15 | SWarpCw20 _ => 16 | SCw20 _ => 17
  end.

Lemma apply_kind A ev st st' r : c_apply A ev st = Ok (st', r) -> kind st' = kind st.
Proof.
  destruct ev; cbn [c_apply]; unfold c_execute, c_reply, lift; destruct st; intros H;
    inv_all; try discriminate; reflexivity.
Qed.

Lemma step_kind A ev st : kind (c_step A st ev) = kind st.
Proof.
  unfold c_step. destruct (c_apply A ev st) as [[x r]| |] eqn:E; try reflexivity.
  eapply apply_kind; eauto.
Qed.

Lemma run_kind A st h : kind (c_run A st h) = kind st.
Proof.
  revert st. induction h as [|ev h IH]; intros st; [reflexivity|].
  rewrite c_run_cons, IH. apply step_kind.
Qed.

Lemma instantiate_own A q e i m st r o :
  c_instantiate A q e i m = Ok (st, r) -> own_of st = Some o -> o_pending o = None.
Proof.
  unfold c_instantiate, lift. intros H Ho. destruct m; inv_all; cbn in Ho;
    first [ discriminate
          | apply Some_inj in Ho; subst;
            unfold mb_instantiate, va_instantiate, ms_instantiate, ag_instantiate, ri_instantiate,
              pi_instantiate, mk_instantiate, ah_instantiate, ph_instantiate, rh_instantiate,
              cu_instantiate, fb_instantiate, fe_instantiate, or_instantiate, gp_instantiate,
              wn_instantiate, wc_instantiate in *; inv_all; split_matches; reflexivity ].
Qed.
