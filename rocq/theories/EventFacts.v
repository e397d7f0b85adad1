(** * What the events of a history tell. *)
From Coq Require Import List NArith Bool Lia.
From Verif Require Import Base BaseFacts OMap Crypto Message CodecFacts Bech32 Metadata Merkle Hex HexFacts
  Coins CoinsFacts Chain Ownable Router Mailbox Va Isms Hooks Igp Warp Contracts StepFacts Spec SpecModules SpecVersion
  AccessFacts MailboxConfFacts MailboxFacts IsmFacts HookFacts IgpFacts VaFacts ProtoFacts Events SpecEvents.
Import ListNotations.

(** ** Generalities *)
Lemma emitted_cons A st ev h :
  emitted A st (ev :: h) =
  (if accepted A st ev then call_events ev st else []) ++ emitted A (c_step A st ev) h.
Proof.
  unfold emitted. cbn [accepted_calls]. rewrite flat_map_app. f_equal.
  destruct (accepted A st ev); [|reflexivity]. cbn [flat_map fst snd]. now rewrite app_nil_r.
Qed.

Lemma told_app ty k l1 l2 : told ty k (l1 ++ l2) = told ty k l1 ++ told ty k l2.
Proof. apply flat_map_app. Qed.

Lemma latest_app ty k l1 l2 x0 : latest ty k (l1 ++ l2) x0 = latest ty k l2 (latest ty k l1 x0).
Proof.
  unfold latest. rewrite told_app, rev_app_distr. destruct (rev (told ty k l2)); reflexivity.
Qed.

Lemma told_history ty k (P : cstate -> Prop) (g : cstate * event -> list str) A st h :
  P st -> (forall st ev, P st -> P (c_step A st ev)) ->
  (forall st ev, P st -> accepted A st ev = true -> told ty k (call_events ev st) = g (st, ev)) ->
  told ty k (emitted A st h) = flat_map g (accepted_calls A st h).
Proof.
  intros Hp Hs Hg. revert st Hp. induction h as [|ev h IH]; intros st Hp; [reflexivity|].
  rewrite emitted_cons, told_app. cbn [accepted_calls]. rewrite flat_map_app, (IH _ (Hs _ ev Hp)).
  f_equal. destruct (accepted A st ev) eqn:E; [|reflexivity].
  cbn [flat_map]. now rewrite app_nil_r, Hg.
Qed.

Lemma watch_history {X} (g : X -> wevent -> X) (report : cstate -> X) (P : cstate -> Prop) A st h :
  P st -> (forall st ev, P st -> P (c_step A st ev)) ->
  (forall st ev, P st -> accepted A st ev = true ->
     fold_left g (call_events ev st) (report st) = report (c_step A st ev)) ->
  report (c_run A st h) = fold_left g (emitted A st h) (report st).
Proof.
  intros Hp Hs Hg. revert st Hp. induction h as [|ev h IH]; intros st Hp; [reflexivity|].
  rewrite emitted_cons, fold_left_app, c_run_cons, (IH _ (Hs _ ev Hp)).
  destruct (accepted A st ev) eqn:E; [now rewrite (Hg _ _ Hp E)|].
  now rewrite (c_step_rejected _ _ _ E).
Qed.

Lemma latest_history ty k (report : cstate -> option str) (P : cstate -> Prop) A st h :
  P st -> (forall st ev, P st -> P (c_step A st ev)) ->
  (forall st ev, P st -> accepted A st ev = true ->
     latest ty k (call_events ev st) (report st) = report (c_step A st ev)) ->
  report (c_run A st h) = latest ty k (emitted A st h) (report st).
Proof.
  intros Hp Hs Hg. revert st Hp. induction h as [|ev h IH]; intros st Hp; [reflexivity|].
  rewrite emitted_cons, latest_app, c_run_cons, (IH _ (Hs _ ev Hp)).
  destruct (accepted A st ev) eqn:E; [now rewrite (Hg _ _ Hp E)|].
  now rewrite (c_step_rejected _ _ _ E).
Qed.

Lemma kind_step (P : cstate -> Prop) n A :
  (forall st, P st <-> kind st = n) -> forall st ev, P st -> P (c_step A st ev).
Proof. intros H st ev Hp. apply H. rewrite step_kind. now apply H. Qed.

(** comparisons of literal texts *)
Ltac closed_eqb :=
  repeat match goal with
  | |- context [bytes_eqb (s ?a) (s ?b)] =>
      let v := eval vm_compute in (bytes_eqb (s a) (s b)) in
      change (bytes_eqb (s a) (s b)) with v; cbv iota
  end.
Ltac read_events :=
  cbn [call_events c_events mb_events va_events ms_events ag_events ri_events pi_events mk_events ah_events
       ph_events rh_events cu_events fb_events fe_events or_events gp_events wn_events wc_events wp_common_events
       own_events pause_events router_events conn_events reply_events cu_register_events cu_clear_events
       dispatch_events process_events];
  cbv [told latest watch_owner watch_pause watch_module of_type attr];
  cbn [flat_map fold_left app find we_type we_attrs fst snd option_map rev];
  closed_eqb; cbn [flat_map fold_left app find option_map fst snd rev].

Lemma hex_of_encode b : hex_encode b = hex_of b.
Proof.
  unfold hex_of. induction b as [|c b IH]; [reflexivity|]. cbn [hex_encode flat_map app]. rewrite <- IH.
  assert (D : forall n, n < 16 -> hex_digit n = nth (N.to_nat n) (s "0123456789abcdef") x30).
  { intros n H. assert (Hn : In n [0;1;2;3;4;5;6;7;8;9;10;11;12;13;14;15]) by (cbn; lia).
    cbn in Hn. repeat (destruct Hn as [<-|Hn]; [reflexivity|]). destruct Hn. }
  pose proof (bN_lt c) as Hc.
  rewrite !D by (first [apply N.mod_lt; lia | apply N.div_lt_upper_bound; lia]). reflexivity.
Qed.

(** ** Events of the shared packages *)
Definition pkg_types : list (str * N) :=
  [(s "hpl_ownable::init", 1); (s "hpl_ownable::revoke", 1); (s "hpl_ownable::claim", 1);
   (s "hpl_pausable::pause", 2); (s "hpl_pausable::release", 2);
   (s "hpl_router::set_route", 3); (s "hpl_router::set_routes", 3);
   (s "hpl_connection::set_mailbox", 4); (s "hpl_connection::set_ism", 4); (s "hpl_connection::set_hook", 4)].
Definition pkg (w : wevent) : N :=
  match find (fun p => bytes_eqb (we_type w) (fst p)) pkg_types with Some p => snd p | None => 0 end.
Definition pkg_of_msg (m : emsg) : N :=
  match m with
  | MOwnable _ | MOracleOwnership _ => 1
  | MPausable _ => 2
  | MRouter _ => 3
  | MConnection _ => 4
  | _ => 0
  end.

Ltac quiet_events :=
  repeat match goal with
  | |- context [match ?x with _ => _ end] => destruct x
  end; reflexivity.

Lemma call_pkg Q e i m st : forallb (fun w => pkg w =? pkg_of_msg m) (c_events Q e i m st) = true.
Proof.
  destruct m; destruct st; try reflexivity;
    cbn [c_events mb_events va_events ms_events ag_events ri_events pi_events mk_events ah_events
       ph_events rh_events cu_events fb_events fe_events or_events gp_events wn_events wc_events wp_common_events];
    unfold own_events, pause_events, router_events, conn_events, routed_event, gp_post_events, pay_events, handle_events;
    repeat match goal with
    | |- context [match ?x with _ => _ end] =>
        match x with
        | context [bytes_eqb] => fail 1
        | _ => destruct x
        end
    end; try reflexivity.
Qed.

Lemma call_pkg_ev ev st :
  forallb (fun w => pkg w =? match ev_msg ev with Some m => pkg_of_msg m | None => 0 end) (call_events ev st) = true.
Proof.
  destruct ev as [e i m Q|id r]; [apply call_pkg|].
  destruct st; try reflexivity; destruct r as [[]| |]; reflexivity.
Qed.

(** a watcher of one package sees only calls to it *)
Lemma watch_other {X} (g : X -> wevent -> X) n (x : X) l k :
  (forall x w, pkg w <> n -> g x w = x) -> k <> n ->
  forallb (fun w => pkg w =? k) l = true -> fold_left g l x = x.
Proof.
  intros Hg Hn. induction l as [|w l IH]; [reflexivity|]. cbn [forallb fold_left]. intros H.
  apply andb_true_iff in H as [Hw H]. apply N.eqb_eq in Hw. rewrite Hg by congruence. now apply IH.
Qed.

Lemma told_other ty k l n m :
  (forall w, of_type ty w = true -> pkg w = n) -> m <> n ->
  forallb (fun w => pkg w =? m) l = true -> told ty k l = [].
Proof.
  intros Ht Hn. induction l as [|w l IH]; [reflexivity|]. cbn [forallb told flat_map]. intros H.
  apply andb_true_iff in H as [Hw H]. apply N.eqb_eq in Hw. fold (told ty k l). rewrite (IH H).
  destruct (of_type ty w) eqn:E; [|reflexivity]. apply Ht in E. congruence.
Qed.

Lemma of_type_eq ty w : of_type ty w = true -> we_type w = ty.
Proof. apply bytes_eqb_eq. Qed.

Lemma pkg_type w t : we_type w = t ->
  pkg w = match find (fun p => bytes_eqb t (fst p)) pkg_types with Some p => snd p | None => 0 end.
Proof. unfold pkg. now intros ->. Qed.

(** ** Ownership *)
Lemma own_call_events A ev st st' r om e i m Q :
  c_apply A ev st = Ok (st', r) -> ev = EvExec e i m Q -> own_request ev = Some om ->
  call_events ev st = own_events i om.
Proof.
  intros H -> Hm. cbn [own_request ev_msg] in Hm.
  destruct m; try discriminate; injection Hm as ->; destruct st; try reflexivity;
    cbn [c_apply] in H; unfold c_execute, lift in H; inv_all; unfold_execs; discriminate.
Qed.

Lemma accepted_apply A st ev :
  accepted A st ev = true -> exists r, c_apply A ev st = Ok (c_step A st ev, r).
Proof.
  unfold accepted, c_step. destruct (c_apply A ev st) as [[st' r]| |]; try discriminate. eauto.
Qed.

Definition own_view (st : cstate) : addr * option addr :=
  match own_of st with Some o => (o_owner o, o_pending o) | None => ([], None) end.

Lemma watch_owner_other x w : pkg w <> 1 -> watch_owner x w = x.
Proof.
  intros H. unfold watch_owner.
  destruct (of_type (s "hpl_ownable::init") w) eqn:E1; [apply of_type_eq, pkg_type in E1; now destruct H|].
  destruct (of_type (s "hpl_ownable::revoke") w) eqn:E2; [apply of_type_eq, pkg_type in E2; now destruct H|].
  destruct (of_type (s "hpl_ownable::claim") w) eqn:E3; [apply of_type_eq, pkg_type in E3; now destruct H|].
  reflexivity.
Qed.

Lemma own_watch_step A st ev :
  accepted A st ev = true -> fold_left watch_owner (call_events ev st) (own_view st) = own_view (c_step A st ev).
Proof.
  intros H. apply accepted_apply in H as [r H]. pose proof (apply_own _ _ _ _ _ H) as [D|[Hn Ho]].
  - destruct D as (om & e & i & Q & m & o & o' & Ev & Hm & Ho & Hh & Ho').
    rewrite (own_call_events _ _ _ _ _ _ _ _ _ _ H Ev Hm). unfold own_view. rewrite Ho, Ho'.
    destruct om; unfold own_handle, init_ownership_transfer, revoke_ownership_transfer, claim_ownership in Hh;
      inv_all; read_events; try reflexivity.
    all: unfold addr_validate in *; inv_all; try reflexivity.
    all: match goal with H : (if _ then _ else _) = Ok _ |- _ => destruct (api_valid _ _) in H; [injection H as ->; reflexivity|discriminate] end.
  - replace (own_view (c_step A st ev)) with (own_view st) by (unfold own_view; now rewrite Ho).
    eapply watch_other; [apply watch_owner_other| |apply call_pkg_ev].
    unfold own_request in Hn. destruct (ev_msg ev) as [m|]; [destruct m; discriminate|discriminate].
Qed.

Theorem owner_told A st h o p :
  reported_owner st = Some o -> reported_pending st = p ->
  let seen := fold_left watch_owner (emitted A st h) (o, p) in
  reported_owner (c_run A st h) = Some (fst seen) /\ reported_pending (c_run A st h) = snd seen.
Proof.
  intros Ho Hp. cbv zeta.
  assert (Hv : own_view st = (o, p)).
  { rewrite reported_owner_own in Ho. rewrite reported_pending_own in Hp. unfold own_view.
    destruct (own_of st); [|discriminate]. cbn [option_map] in Ho. congruence. }
  assert (Hs : forall st ev, own_of st <> None -> own_of (c_step A st ev) <> None).
  { intros st1 ev H. unfold c_step. destruct (c_apply A ev st1) as [[st2 r]| |] eqn:E; [|exact H|exact H].
    cbn. apply apply_own in E as [D|[_ ->]]; [|exact H].
    destruct D as (? & ? & ? & ? & ? & ? & ? & _ & _ & _ & _ & ->). discriminate. }
  assert (H0 : own_of st <> None).
  { rewrite reported_owner_own in Ho. destruct (own_of st); [discriminate|discriminate]. }
  pose proof (watch_history watch_owner own_view (fun st => own_of st <> None) A st h H0 Hs
                (fun st ev _ => own_watch_step A st ev)) as E.
  rewrite Hv in E. rewrite <- E, reported_owner_own, reported_pending_own. unfold own_view.
  assert (Hr : own_of (c_run A st h) <> None).
  { clear - H0 Hs. revert st H0. induction h as [|ev h IH]; intros st H0; [exact H0|].
    rewrite c_run_cons. apply IH. now apply Hs. }
  destruct (own_of (c_run A st h)); [split; reflexivity|now destruct Hr].
Qed.

(** ** Pausing *)
Lemma pause_call_events A ev st st' r pm e i m Q :
  c_apply A ev st = Ok (st', r) -> ev = EvExec e i m Q -> pause_request ev = Some pm ->
  call_events ev st = pause_events i pm.
Proof.
  intros H -> Hm. cbn [pause_request ev_msg] in Hm.
  destruct m; try discriminate; injection Hm as ->; destruct st; try reflexivity;
    cbn [c_apply] in H; unfold c_execute, lift in H; inv_all; unfold_execs; discriminate.
Qed.

Definition pause_view (st : cstate) : bool := match paused_of st with Some b => b | None => false end.

Lemma watch_pause_other x w : pkg w <> 2 -> watch_pause x w = x.
Proof.
  intros H. unfold watch_pause.
  destruct (of_type (s "hpl_pausable::pause") w) eqn:E1; [apply of_type_eq, pkg_type in E1; now destruct H|].
  destruct (of_type (s "hpl_pausable::release") w) eqn:E2; [apply of_type_eq, pkg_type in E2; now destruct H|].
  reflexivity.
Qed.

Lemma pause_watch_step A st ev :
  accepted A st ev = true -> fold_left watch_pause (call_events ev st) (pause_view st) = pause_view (c_step A st ev).
Proof.
  intros H. apply accepted_apply in H as [r H]. pose proof (apply_pause _ _ _ _ _ H) as [D|[Hn Ho]].
  - destruct D as (pm & e & i & Q & m & o & b & b' & Ev & Hm & Ho & Hb & Hh & Hb').
    rewrite (pause_call_events _ _ _ _ _ _ _ _ _ _ H Ev Hm). unfold pause_view. rewrite Hb, Hb'.
    destruct pm; unfold pause_handle, do_pause, do_release in Hh; inv_all; reflexivity.
  - replace (pause_view (c_step A st ev)) with (pause_view st) by (unfold pause_view; now rewrite Ho).
    eapply watch_other; [apply watch_pause_other| |apply call_pkg_ev].
    unfold pause_request in Hn. destruct (ev_msg ev) as [m|]; [destruct m; discriminate|discriminate].
Qed.

Lemma paused_step A st ev : paused_of st <> None -> paused_of (c_step A st ev) <> None.
Proof.
  intros H. unfold c_step. destruct (c_apply A ev st) as [[st2 r]| |] eqn:E; [|exact H|exact H].
  apply apply_pause in E as [D|[_ ->]]; [|exact H].
  destruct D as (? & ? & ? & ? & ? & ? & ? & ? & _ & _ & _ & _ & _ & ->). discriminate.
Qed.

Lemma paused_run A st h : paused_of st <> None -> paused_of (c_run A st h) <> None.
Proof.
  revert st. induction h as [|ev h IH]; intros st H; [exact H|]. rewrite c_run_cons. apply IH. now apply paused_step.
Qed.

Lemma paused_told A st h b :
  reported_paused st = Some b ->
  reported_paused (c_run A st h) = Some (fold_left watch_pause (emitted A st h) b).
Proof.
  rewrite !reported_paused_of. intros H.
  assert (H0 : paused_of st <> None) by now rewrite H.
  pose proof (watch_history watch_pause pause_view (fun st => paused_of st <> None) A st h H0 (paused_step A)
                (fun st ev _ => pause_watch_step A st ev)) as E.
  pose proof (paused_run A st h H0) as Hr. unfold pause_view in E. rewrite H in E. rewrite <- E.
  destruct (paused_of (c_run A st h)); [reflexivity|now destruct Hr].
Qed.

(** ** Settings by replay *)
Lemma replay_watch {X} (upd : emsg -> X -> X) (g : X -> wevent -> X) (P : cstate -> Prop) A st h :
  P st -> (forall st ev, P st -> P (c_step A st ev)) ->
  (forall st ev x, P st -> accepted A st ev = true ->
     fold_left g (call_events ev st) x = match ev_msg ev with Some m => upd m x | None => x end) ->
  forall x0, replay upd A st h x0 = fold_left g (emitted A st h) x0.
Proof.
  intros Hp Hs Hg. revert st Hp. induction h as [|ev h IH]; intros st Hp x0; [reflexivity|].
  rewrite emitted_cons, fold_left_app. unfold replay. cbn [accepted_calls]. rewrite fold_left_app.
  fold (replay upd A (c_step A st ev) h). unfold replay in IH. rewrite (IH _ (Hs _ ev Hp)). f_equal.
  destruct (accepted A st ev) eqn:E; [|reflexivity]. cbn [fold_left snd]. now rewrite (Hg _ _ x0 Hp E).
Qed.

Lemma run_P (P : cstate -> Prop) A st h : P st -> (forall st ev, P st -> P (c_step A st ev)) -> P (c_run A st h).
Proof.
  intros H Hs. revert st H. induction h as [|ev h IH]; intros st H; [exact H|]. rewrite c_run_cons. now apply IH, Hs.
Qed.

Lemma accepted_ok A st e i m Q : accepted A st (EvExec e i m Q) = true -> emsg_ok m = true.
Proof.
  intros H. apply accepted_apply in H as [r H]. cbn [c_apply] in H. unfold c_execute in H.
  apply bind_Ok_inv in H as (u & H & _). now apply ensure_Ok_inv in H.
Qed.

Lemma dec_read n : n < u256_max -> decimal (dec n) = n.
Proof. intros H. now apply dec_text. Qed.

Lemma commas_cons a l : commas (a :: l) = a ++ match l with [] => [] | _ => s "," ++ commas l end.
Proof. destruct l; [cbn; now rewrite app_nil_r|reflexivity]. Qed.

Definition no_comma (a : str) : Prop := Forall (fun c => bN c <> 44) a.

Lemma split_plain a cur rest : no_comma a ->
  split_at (a ++ rest) cur = split_at rest (rev a ++ cur).
Proof.
  revert cur. induction a as [|c a IH]; intros cur H; [reflexivity|].
  inversion_clear H as [|? ? Hc Ha]. cbn [app split_at rev]. rewrite (proj2 (N.eqb_neq _ _) Hc), (IH _ Ha).
  now rewrite <- app_assoc.
Qed.

Lemma split_commas l : l <> [] -> Forall no_comma l -> split_at (commas l) [] = l.
Proof.
  induction l as [|a l IH]; intros Hn H; [now destruct Hn|]. inversion_clear H as [|? ? Ha Hl].
  rewrite commas_cons, (split_plain _ _ _ Ha), app_nil_r. destruct l as [|b l].
  - cbn [split_at]. now rewrite rev_involutive.
  - change (s "," ++ commas (b :: l)) with (x2c :: commas (b :: l)).
    cbn [split_at]. change (bN x2c =? 44) with true. cbv iota. rewrite rev_involutive. f_equal.
    apply IH; [discriminate|exact Hl].
Qed.

Lemma items_commas l : Forall (fun a => a <> [] /\ no_comma a) l -> items (commas l) = l.
Proof.
  intros H. destruct l as [|a l]; [reflexivity|]. unfold items.
  assert (Hne : commas (a :: l) <> []).
  { inversion_clear H as [|? ? Ha _]. rewrite commas_cons. destruct a; [now destruct Ha|discriminate]. }
  destruct (commas (a :: l)) eqn:E; [now destruct Hne|]. rewrite <- E. apply split_commas; [discriminate|].
  eapply Forall_impl; [|exact H]. intros x Hx. apply Hx.
Qed.

Lemma watch_quiet {X} (g : X -> wevent -> X) (tys : list str) l x :
  (forall x w, forallb (fun ty => negb (of_type ty w)) tys = true -> g x w = x) ->
  forallb (fun w => forallb (fun ty => negb (of_type ty w)) tys) l = true -> fold_left g l x = x.
Proof.
  intros Hg. induction l as [|w l IH]; [reflexivity|]. cbn [forallb fold_left]. intros H.
  apply andb_true_iff in H as [Hw H]. rewrite Hg by exact Hw. now apply IH.
Qed.

Lemma watch_text_quiet ty k x w : forallb (fun t => negb (of_type t w)) [ty] = true -> watch_text ty k x w = x.
Proof. cbn [forallb]. unfold watch_text. destruct (of_type ty w); [discriminate|reflexivity]. Qed.
Lemma watch_number_quiet ty k x w : forallb (fun t => negb (of_type t w)) [ty] = true -> watch_number ty k x w = x.
Proof. cbn [forallb]. unfold watch_number. destruct (of_type ty w); [discriminate|reflexivity]. Qed.
Lemma watch_list_quiet ty k x w : forallb (fun t => negb (of_type t w)) [ty] = true -> watch_list ty k x w = x.
Proof. cbn [forallb]. unfold watch_list. destruct (of_type ty w); [discriminate|reflexivity]. Qed.
Lemma watch_coin_quiet ty kd ka x w : forallb (fun t => negb (of_type t w)) [ty] = true -> watch_coin ty kd ka x w = x.
Proof. cbn [forallb]. unfold watch_coin. destruct (of_type ty w); [discriminate|reflexivity]. Qed.
Lemma watch_module_quiet d x w :
  forallb (fun t => negb (of_type t w)) [s "hpl_ism_routing::set"; s "hpl_ism_routing::unset"] = true ->
  watch_module d x w = x.
Proof.
  cbn [forallb]. unfold watch_module. destruct (of_type _ w); [discriminate|].
  destruct (of_type _ w); [discriminate|reflexivity].
Qed.

Ltac no_such_event :=
  match goal with
  | |- fold_left (watch_text _ _) _ _ = _ => eapply watch_quiet; [apply watch_text_quiet|]
  | |- fold_left (watch_number _ _) _ _ = _ => eapply watch_quiet; [apply watch_number_quiet|]
  | |- fold_left (watch_list _ _) _ _ = _ => eapply watch_quiet; [apply watch_list_quiet|]
  | |- fold_left (watch_coin _ _ _) _ _ = _ => eapply watch_quiet; [apply watch_coin_quiet|]
  | |- fold_left (watch_module _) _ _ = _ => eapply watch_quiet; [apply watch_module_quiet|]
  end;
  cbn [call_events c_events mb_events va_events ms_events ag_events ri_events pi_events mk_events ah_events
     ph_events rh_events cu_events fb_events fe_events or_events gp_events wn_events wc_events wp_common_events reply_events];
  unfold own_events, pause_events, router_events, conn_events, routed_event, gp_post_events, pay_events, handle_events;
  repeat match goal with
  | |- context [match ?x with _ => _ end] =>
      match x with context [bytes_eqb] => fail 1 | context [of_type] => fail 1 | _ => destruct x end
  end; reflexivity.

(** ** Mailbox settings *)
Lemma mailbox_step A st ev : is_mailbox st -> is_mailbox (c_step A st ev).
Proof. unfold is_mailbox. now rewrite step_kind. Qed.


Lemma mailbox_told A st h :
  is_mailbox st ->
  let seen ty k x0 := fold_left (watch_text ty k) (emitted A st h) x0 in
  reported_default_ism (c_run A st h) = seen (s "mailbox_default_ism_set") (s "new_default_ism") (reported_default_ism st) /\
  reported_default_hook (c_run A st h) = seen (s "mailbox_default_hook_set") (s "new_default_hook") (reported_default_hook st) /\
  reported_required_hook (c_run A st h) = seen (s "mailbox_required_hook_set") (s "new_required_hook") (reported_required_hook st).
Proof.
  intros Hm. cbv zeta.
  assert (S : forall st ev, is_mailbox st -> accepted A st ev = true ->
     fold_left (watch_text (s "mailbox_default_ism_set") (s "new_default_ism")) (call_events ev st) (reported_default_ism st)
       = reported_default_ism (c_step A st ev) /\
     fold_left (watch_text (s "mailbox_default_hook_set") (s "new_default_hook")) (call_events ev st) (reported_default_hook st)
       = reported_default_hook (c_step A st ev) /\
     fold_left (watch_text (s "mailbox_required_hook_set") (s "new_required_hook")) (call_events ev st) (reported_required_hook st)
       = reported_required_hook (c_step A st ev)).
  { clear st h Hm. intros st ev Hm Ha. pose proof (mb_conf_step A st ev Hm Ha) as (E1 & E2 & E3 & _).
    rewrite E1, E2, E3. clear E1 E2 E3.
    destruct (is_mailbox_inv st Hm) as [x ->].
    destruct ev as [e i m Q|id r]; [|repeat split; no_such_event].
    cbn [ev_msg]. destruct m; repeat split; first [reflexivity | no_such_event]. }
  repeat split; (eapply (watch_history _ _ is_mailbox); [exact Hm|apply mailbox_step|]);
    intros st1 ev H1 H2; apply (S st1 ev H1 H2).
Qed.

(** ** Settings of the modules, hooks and gas payment *)
Lemma u32_dec d : u32_ok d = true -> decimal (dec d) = d.
Proof. intros H. apply dec_read. apply N.ltb_lt in H. eapply N.lt_trans; [exact H|]. reflexivity. Qed.

Lemma u128_dec d : u128_ok d = true -> decimal (dec d) = d.
Proof. intros H. apply dec_read. apply N.ltb_lt in H. eapply N.lt_trans; [exact H|]. reflexivity. Qed.

Lemma dec_plain d : u32_ok d = true -> dec d <> [] /\ no_comma (dec d).
Proof.
  intros H. apply N.ltb_lt in H.
  assert (L : d < u256_max) by (eapply N.lt_trans; [exact H|reflexivity]).
  destruct (dec_text d L) as ((Hn & Hd) & _ & _). split; [exact Hn|].
  eapply Forall_impl; [|exact Hd]. intros c Hc. unfold digit in Hc. lia.
Qed.

Lemma items_decs l : forallb u32_ok l = true -> items (commas (map dec l)) = map dec l.
Proof.
  intros H. apply items_commas. apply Forall_forall. intros x Hx. apply in_map_iff in Hx as (d & <- & Hd).
  apply dec_plain. rewrite forallb_forall in H. now apply H.
Qed.

Lemma module_told A st h raw m :
  is_routing_ism st -> msg_decode raw = Ok m ->
  reported_module_for (c_run A st h) raw
  = fold_left (watch_module (m_origin m)) (emitted A st h) (reported_module_for st raw).
Proof.
  intros Hm Hd. rewrite (module_last_set A st h raw m Hm Hd).
  apply (replay_watch (module_update (m_origin m)) (watch_module (m_origin m)) is_routing_ism A st h Hm); [keep_kind|].
  clear. intros st ev x Hm Ha. destruct st; try contradiction Hm.
  destruct ev as [e i mm Q|id rr]; [|discriminate Ha]. pose proof (accepted_ok _ _ _ _ _ _ Ha) as Hok. cbn [ev_msg].
  destruct mm; try no_such_event; cbn [emsg_ok] in Hok; cbn [call_events c_events ri_events fold_left].
  - match goal with |- watch_module _ _ (mkWev _ [_; (_, dec ?d); (_, ?a)]) = _ =>
      change (match decimal (dec d) =? m_origin m with true => Some a | false => x end
              = match d =? m_origin m with true => Some a | false => x end);
      now rewrite (u32_dec d Hok) end.
  - match goal with |- watch_module _ _ (mkWev _ [_; (_, commas (map dec ?l))]) = _ =>
      change (match existsb (fun n => decimal n =? m_origin m) (items (commas (map dec l))) with true => None | false => x end
              = match existsb (N.eqb (m_origin m)) l with true => None | false => x end);
      rewrite (items_decs l Hok); rename l into ds end.
    replace (existsb (fun n => decimal n =? m_origin m) (map dec ds)) with (existsb (N.eqb (m_origin m)) ds); [reflexivity|].
    clear - Hok. induction ds as [|d ds IH]; [reflexivity|]. cbn [forallb] in Hok. apply andb_true_iff in Hok as [H1 H2].
    cbn [map existsb]. rewrite (u32_dec d H1), (IH H2), (N.eqb_sym d). reflexivity.
Qed.

Lemma hooks_told A st h :
  is_aggregate_hook st -> plain_addresses A ->
  reported_hooks (c_run A st h)
  = fold_left (watch_list (s "hpl_hook_aggregate::set_hooks") (s "hooks")) (emitted A st h) (reported_hooks st).
Proof.
  intros Hm Hp. rewrite (hooks_last_set A st h Hm).
  apply (replay_watch hooks_update (watch_list _ _) is_aggregate_hook A st h Hm); [keep_kind|].
  clear - Hp. intros st ev x Hm Ha. destruct st; try contradiction Hm.
  apply accepted_apply in Ha as [r Ha].
  destruct ev as [e i mm Q|id rr]; [|discriminate Ha]. cbn [ev_msg].
  destruct mm; try no_such_event. cbn [hooks_update call_events c_events ah_events].
  cbn [c_apply] in Ha. unfold c_execute, lift in Ha. inv_all. cbn [ah_execute] in *. inv_all.
  match goal with H : mapM (addr_validate A) _ = Ok _ |- _ => rename H into Hv end.
  read_events. cbv [watch_list of_type attr]. cbn [we_type we_attrs find fst snd option_map]. closed_eqb.
  cbn [option_map]. f_equal. apply items_commas.
  clear - Hp Hv. revert Hv.
  match goal with |- mapM _ _ = Ok ?a -> _ => revert a end.
  induction hooks as [|a l IH]; intros l' H; [constructor|].
  cbn [mapM] in H. apply bind_Ok_inv in H as (y & H1 & H). apply bind_Ok_inv in H as (ys & H2 & H).
  apply addr_validate_iff in H1 as [H1 _]. constructor; [exact (Hp a H1)|]. now apply (IH ys).
Qed.

Lemma fee_told A st h :
  is_fee_hook st ->
  reported_fee (c_run A st h)
  = fold_left (watch_coin (s "hpl_hook_fee::set_fee") (s "fee_denom") (s "fee_amount")) (emitted A st h) (reported_fee st).
Proof.
  intros Hm. rewrite (fee_last_set A st h Hm).
  apply (replay_watch fee_update (watch_coin _ _ _) is_fee_hook A st h Hm); [keep_kind|].
  clear. intros st ev x Hm Ha. destruct st; try contradiction Hm.
  destruct ev as [e i mm Q|id rr]; [|discriminate Ha]. pose proof (accepted_ok _ _ _ _ _ _ Ha) as Hok. cbn [ev_msg].
  destruct mm; try no_such_event. cbn [emsg_ok] in Hok.
  match goal with |- _ = fee_update (MSetFee ?c) _ =>
    change (Some (mkCoin (c_denom c) (decimal (dec (c_amount c)))) = Some c); rewrite (u128_dec _ Hok); now destruct c end.
Qed.

Lemma fallback_told A st h :
  is_fallback_hook st ->
  fallback_of (c_run A st h)
  = fold_left (watch_text (s "hpl_hook_routing::set_fallback_hook") (s "fallback-hook")) (emitted A st h) (fallback_of st).
Proof.
  intros Hm. rewrite (fallback_last_set A st h Hm).
  apply (replay_watch fallback_update (watch_text _ _) is_fallback_hook A st h Hm); [keep_kind|].
  clear. intros st ev x Hm Ha. destruct st; try contradiction Hm.
  destruct ev as [e i mm Q|id rr]; [|discriminate Ha]. cbn [ev_msg].
  destruct mm; first [reflexivity | no_such_event].
Qed.

Lemma default_gas_told A st h :
  is_igp st ->
  reported_default_gas (c_run A st h)
  = fold_left (watch_number (s "igp-core-set-default-gas") (s "default-gas")) (emitted A st h) (reported_default_gas st).
Proof.
  intros Hm. rewrite (default_gas_last_set A st h Hm).
  apply (replay_watch default_gas_update (watch_number _ _) is_igp A st h Hm); [keep_kind|].
  clear. intros st ev x Hm Ha. destruct st; try contradiction Hm.
  destruct ev as [e i mm Q|id rr]; [|discriminate Ha]. pose proof (accepted_ok _ _ _ _ _ _ Ha) as Hok. cbn [ev_msg].
  destruct mm; try no_such_event. cbn [emsg_ok] in Hok.
  match goal with |- _ = default_gas_update (MSetDefaultGas ?c) _ =>
    change (Some (decimal (dec c)) = Some c); now rewrite (u128_dec _ Hok) end.
Qed.

Lemma beneficiary_told A st h :
  is_igp st ->
  reported_beneficiary (c_run A st h)
  = fold_left (watch_text (s "igp-core-set-beneficiary") (s "beneficiary")) (emitted A st h) (reported_beneficiary st).
Proof.
  intros Hm. rewrite (beneficiary_last_set A st h Hm).
  apply (replay_watch beneficiary_update (watch_text _ _) is_igp A st h Hm); [keep_kind|].
  clear. intros st ev x Hm Ha. destruct st; try contradiction Hm.
  destruct ev as [e i mm Q|id rr]; [|discriminate Ha]. cbn [ev_msg].
  destruct mm; first [reflexivity | no_such_event].
Qed.

(** ** Connections *)
Lemma conn_call_events A ev st st' r cm :
  c_apply A ev st = Ok (st', r) -> conn_request ev = Some cm -> call_events ev st = conn_events cm.
Proof.
  intros H Hm. destruct ev as [e i m Q|]; [|discriminate Hm]. cbn [conn_request ev_msg] in Hm.
  destruct m; try discriminate; injection Hm as ->; destruct st; try reflexivity;
    cbn [c_apply] in H; unfold c_execute, lift in H; inv_all; unfold_execs; discriminate.
Qed.

Lemma watch_conn_other ty k x w :
  In ty [s "hpl_connection::set_mailbox"; s "hpl_connection::set_ism"; s "hpl_connection::set_hook"] ->
  pkg w <> 4 -> watch_text ty k x w = x.
Proof.
  intros Hin H. unfold watch_text. destruct (of_type ty w) eqn:E; [|reflexivity].
  apply of_type_eq, pkg_type in E. destruct H. rewrite E.
  cbn [In] in Hin. destruct Hin as [<-|[<-|[<-|[]]]]; reflexivity.
Qed.

Lemma conn_watch_step A st ev (f : connection_msg -> option addr) ty k :
  In ty [s "hpl_connection::set_mailbox"; s "hpl_connection::set_ism"; s "hpl_connection::set_hook"] ->
  (forall cm x, fold_left (watch_text ty k) (conn_events cm) x = match f cm with Some a => Some a | None => x end) ->
  accepted A st ev = true -> forall x,
  fold_left (watch_text ty k) (call_events ev st) x
  = last_some f (match conn_request ev with Some m => [m] | None => [] end) x.
Proof.
  intros Hin Hf H x. apply accepted_apply in H as [r H].
  destruct (conn_request ev) as [cm|] eqn:E.
  - rewrite (conn_call_events _ _ _ _ _ _ H E), Hf. reflexivity.
  - eapply watch_other; [intros ? ?; now apply watch_conn_other| |apply call_pkg_ev].
    unfold conn_request in E. destruct (ev_msg ev) as [m|]; [destruct m; discriminate|discriminate].
Qed.

Lemma conn_watch A st h (f : connection_msg -> option addr) ty k :
  In ty [s "hpl_connection::set_mailbox"; s "hpl_connection::set_ism"; s "hpl_connection::set_hook"] ->
  (forall cm x, fold_left (watch_text ty k) (conn_events cm) x = match f cm with Some a => Some a | None => x end) ->
  forall x, last_some f (conns A st h) x = fold_left (watch_text ty k) (emitted A st h) x.
Proof.
  intros Hin Hf. revert st. induction h as [|ev h IH]; intros st x; [reflexivity|].
  rewrite conns_cons, last_some_app, emitted_cons, fold_left_app, IH. f_equal.
  destruct (accepted A st ev) eqn:E; [|reflexivity]. symmetry. now apply (conn_watch_step A).
Qed.

Lemma connection_told A st h m0 i0 k0 :
  reported_conn st QConnMailbox = Some m0 -> reported_conn st QConnIsm = Some i0 -> reported_conn st QConnHook = Some k0 ->
  let seen ty k x0 := fold_left (watch_text ty k) (emitted A st h) x0 in
  reported_conn (c_run A st h) QConnMailbox = Some (seen (s "hpl_connection::set_mailbox") (s "mailbox") m0) /\
  reported_conn (c_run A st h) QConnIsm = Some (seen (s "hpl_connection::set_ism") (s "ism") i0) /\
  reported_conn (c_run A st h) QConnHook = Some (seen (s "hpl_connection::set_hook") (s "hook") k0).
Proof.
  intros H1 H2 H3. cbv zeta. destruct (conns_history A st h m0 i0 k0 H1 H2 H3) as (E1 & E2 & E3).
  rewrite E1, E2, E3. repeat split; f_equal; apply conn_watch; try (cbn [In]; tauto); intros []; reflexivity.
Qed.

(** ** Routes: the JSON text determines the update *)
Definition unjson (l : bytes) : option (byte * bytes) :=
  match l with
  | [] => None
  | x5c :: x5c :: y => Some (x5c, y)
  | x5c :: x22 :: y => Some (x22, y)
  | x5c :: x62 :: y => Some (x08, y)
  | x5c :: x74 :: y => Some (x09, y)
  | x5c :: x6e :: y => Some (x0a, y)
  | x5c :: x66 :: y => Some (x0c, y)
  | x5c :: x72 :: y => Some (x0d, y)
  | x5c :: x75 :: x30 :: x30 :: h :: d :: y =>
      Some (nB ((bN h - 48) * 16 + (if bN d <? 58 then bN d - 48 else bN d - 55)), y)
  | c :: y => Some (c, y)
  end.

Lemma unjson_char b y : unjson (json_char b ++ y) = Some (b, y).
Proof. destruct b; vm_compute; reflexivity. Qed.

Lemma json_char_head b y z : json_char b ++ y <> x22 :: z.
Proof. destruct b; intros H; vm_compute in H; discriminate. Qed.

Lemma json_string_inj t t' x x' :
  json_string t ++ x = json_string t' ++ x' -> t = t' /\ x = x'.
Proof.
  unfold json_string. rewrite <- !app_assoc. cbn [app]. intros H. apply (f_equal (@tl _)) in H. cbn [tl] in H.
  revert t' H. induction t as [|b t IH]; intros [|b' t']; cbn [flat_map app]; intros H.
  - injection H as ->. auto.
  - exfalso. rewrite <- app_assoc in H. symmetry in H. now apply json_char_head in H.
  - exfalso. rewrite <- app_assoc in H. now apply json_char_head in H.
  - rewrite <- !app_assoc in H. pose proof (f_equal (unjson) H) as E. rewrite !unjson_char in E.
    apply Some_inj, pair_equal_spec in E as [-> E]. apply IH in E as [-> ->]. auto.
Qed.

Lemma stop_inj (P : byte -> Prop) l l' c y y' :
  Forall P l -> Forall P l' -> ~ P c -> l ++ c :: y = l' ++ c :: y' -> l = l' /\ y = y'.
Proof.
  intros H H' Hc. revert l' H'. induction H as [|a l Ha Hl IH]; intros [|a' l'] H' E; cbn [app] in E.
  - injection E as ->. auto.
  - injection E as -> _. inversion_clear H'. contradiction.
  - injection E as <- _. contradiction.
  - injection E as -> E. inversion_clear H'. apply IH in E as [-> ->]; auto.
Qed.

Lemma dec_inj_stop a b y y' : a < u256_max -> b < u256_max ->
  dec a ++ x2c :: y = dec b ++ x2c :: y' -> a = b /\ y = y'.
Proof.
  intros La Lb H. destruct (dec_text a La) as ((_ & Da) & _ & Ra), (dec_text b Lb) as ((_ & Db) & _ & Rb).
  destruct (stop_inj digit (dec a) (dec b) x2c y y' Da Db) as [E ->]; [|exact H|].
  - intros [X Y]. vm_compute in X. now apply X.
  - split; [|reflexivity]. congruence.
Qed.

Definition small_domain (r : route_set) : Prop := rs_domain r < 2 ^ 32.

Lemma small_u256 d : d < 2 ^ 32 -> d < u256_max.
Proof. intros H. eapply N.lt_trans; [exact H|reflexivity]. Qed.

Lemma json_route_inj hex r r' x x' :
  small_domain r -> small_domain r' ->
  json_route hex r ++ x = json_route hex r' ++ x' -> r = r' /\ x = x'.
Proof.
  intros L L' H. unfold json_route in H. rewrite <- !app_assoc in H. do 3 apply app_inv_head in H.
  change (s "," ++ ?z) with (x2c :: z) in H. cbn [app] in H.
  apply dec_inj_stop in H as [Ed H]; [|now apply small_u256|now apply small_u256].
  do 2 apply app_inv_head in H. destruct r as [d ro], r' as [d' ro']. cbn [rs_domain rs_route] in *. subst d'.
  destruct ro as [a|], ro' as [a'|].
  - apply json_string_inj in H as [E H]. apply app_inv_head in H. subst x'.
    split; [|reflexivity]. destruct hex; [apply hex_encode_inj in E|]; now rewrite E.
  - unfold json_string in H. discriminate H.
  - unfold json_string in H. discriminate H.
  - do 2 apply app_inv_head in H. auto.
Qed.

Lemma json_tail_inj hex l l' :
  Forall small_domain l -> Forall small_domain l' ->
  commas (map (json_route hex) l) ++ s "]" = commas (map (json_route hex) l') ++ s "]" -> l = l'.
Proof.
  intros H. revert l'. induction H as [|r l Hr Hl IH]; intros [|r' l'] H' E.
  - reflexivity.
  - exfalso. cbn [map commas] in E. destruct l'; discriminate E.
  - exfalso. cbn [map] in E. rewrite commas_cons in E. discriminate E.
  - inversion_clear H' as [|? ? Hr' Hl']. cbn [map] in E. rewrite !commas_cons, <- !app_assoc in E.
    apply json_route_inj in E as [-> E]; [|assumption|assumption].
    destruct l as [|r1 l], l' as [|r1' l']; cbn [map] in E; try discriminate E; [reflexivity|].
    rewrite <- !app_assoc in E. apply app_inv_head in E. f_equal. apply IH; assumption.
Qed.

Lemma route_event_inj hex w u u' :
  Forall small_domain u -> Forall small_domain u' ->
  route_event hex w u -> route_event hex w u' -> u = u'.
Proof.
  intros H H' [[T (r & -> & E)]|[T E]] [[T' (r' & -> & E')]|[T' E']]; rewrite T in T'; try (vm_compute in T'; discriminate T').
  - rewrite E in E'. apply Some_inj in E'. inversion_clear H. inversion_clear H'.
    destruct (json_route_inj hex r r' [] []) as [-> _]; auto. now rewrite !app_nil_r.
  - rewrite E in E'. apply Some_inj in E'. unfold json_array in E'. apply app_inv_head in E'.
    now apply json_tail_inj in E'.
Qed.

Lemma router_call_events A ev st st' r rm e i m Q :
  c_apply A ev st = Ok (st', r) -> ev = EvExec e i m Q -> router_request ev = Some rm ->
  call_events ev st = router_events (hex_routes st) i rm /\ emsg_ok m = true /\ m = MRouter rm.
Proof.
  intros H -> Hm. cbn [router_request ev_msg] in Hm.
  destruct m; try discriminate; injection Hm as ->. split; [|split; [|reflexivity]].
  - destruct st; try reflexivity; cbn [c_apply] in H; unfold c_execute, lift in H; inv_all; unfold_execs; discriminate.
  - apply (accepted_ok A st e i _ Q). unfold accepted. now rewrite H.
Qed.

Lemma about_pkg w : about_routes w = true -> pkg w = 3.
Proof.
  unfold about_routes. intros H. apply orb_true_iff in H as [H|H]; apply of_type_eq, pkg_type in H; exact H.
Qed.

Lemma filter_none {X} (f : X -> bool) l : forallb (fun x => negb (f x)) l = true -> filter f l = [].
Proof.
  induction l as [|x l IH]; [reflexivity|]. cbn [forallb filter]. intros H. apply andb_true_iff in H as [H1 H2].
  destruct (f x); [discriminate H1|]. now apply IH.
Qed.

Lemma routes_step A st ev :
  accepted A st ev = true ->
  exists us, Forall2 (route_event (hex_routes st)) (filter about_routes (call_events ev st)) us /\
    Forall (Forall small_domain) us /\ concat us = route_updates ev.
Proof.
  intros Ha. apply accepted_apply in Ha as [r H].
  destruct (router_request ev) as [rm|] eqn:E.
  - destruct ev as [e i m Q|]; [|discriminate E].
    destruct (router_call_events _ _ _ _ _ _ _ _ _ _ H eq_refl E) as (-> & Hok & ->).
    exists [route_updates (EvExec e i (MRouter rm) Q)]. destruct rm as [x|l]; cbn [route_updates ev_msg emsg_ok] in *.
    + split; [constructor; [|constructor]|].
      * left. split; [reflexivity|]. exists x. split; reflexivity.
      * split; [|reflexivity]. constructor; [|constructor]. constructor; [|constructor]. now apply N.ltb_lt in Hok.
    + split; [constructor; [|constructor]|].
      * right. split; reflexivity.
      * split; [|cbn [concat]; now rewrite app_nil_r]. constructor; [|constructor].
        apply Forall_forall. intros y Hy. rewrite forallb_forall in Hok. apply Hok in Hy. now apply N.ltb_lt in Hy.
  - exists []. assert (F : filter about_routes (call_events ev st) = []).
    { apply filter_none. pose proof (call_pkg_ev ev st) as P. rewrite forallb_forall in *. intros w Hw.
      apply P in Hw. apply N.eqb_eq in Hw. destruct (about_routes w) eqn:Ab; [|reflexivity]. apply about_pkg in Ab.
      exfalso. rewrite Ab in Hw. unfold router_request in E. destruct (ev_msg ev) as [m|]; [destruct m; discriminate|discriminate]. }
    rewrite F. split; [constructor|]. split; [constructor|]. unfold router_request in E. unfold route_updates.
    destruct (ev_msg ev) as [m|]; [|reflexivity]. destruct m; try reflexivity. discriminate.
Qed.

Lemma hex_routes_step A st ev : hex_routes (c_step A st ev) = hex_routes st.
Proof.
  pose proof (step_kind A ev st) as K. destruct st; destruct (c_step A _ ev); try discriminate K; reflexivity.
Qed.

Lemma routes_told A st h :
  exists us, Forall2 (route_event (hex_routes st)) (filter about_routes (emitted A st h)) us /\
    Forall (Forall small_domain) us /\ concat us = updates A st h.
Proof.
  revert st. induction h as [|ev h IH]; intros st; [exists []; repeat constructor|].
  destruct (IH (c_step A st ev)) as (us & F & D & E). rewrite hex_routes_step in F.
  rewrite emitted_cons, updates_cons, filter_app. destruct (accepted A st ev) eqn:Ha.
  - destruct (routes_step A st ev Ha) as (vs & F' & D' & E'). exists (vs ++ us).
    split; [now apply Forall2_app|]. split; [now apply Forall_app|]. now rewrite concat_app, E, E'.
  - exists us. auto.
Qed.

Lemma routes_replayed A st h us d r0 :
  d < 2 ^ 32 -> reported_route st d = Some r0 ->
  Forall2 (route_event (hex_routes st)) (filter about_routes (emitted A st h)) us ->
  Forall (Forall (fun r => rs_domain r < 2 ^ 32)) us ->
  reported_route (c_run A st h) d = Some (last_update d (concat us) r0).
Proof.
  intros Hd H0 F D. rewrite (routes_history A st h d r0 Hd H0). f_equal. f_equal.
  destruct (routes_told A st h) as (vs & F' & D' & <-). f_equal.
  clear H0. revert us F D. revert D' F'. generalize (hex_routes st). intros hex D' F'. revert D'. induction F' as [|w v l vs Hv Fv IH]; intros D' us F D.
  - inversion F. reflexivity.
  - inversion F as [|? u ? us' Hu Fu E1 E2]. subst. inversion_clear D as [|? ? Du Dus]. inversion_clear D' as [|? ? Dv Dvs].
    f_equal; [|now apply IH]. exact (route_event_inj hex w v u Dv Du Hv Hu).
Qed.

(** ** Dispatches *)
Lemma told_cons ty k w l :
  told ty k (w :: l) = (if of_type ty w then match attr k w with Some v => [v] | None => [] end else []) ++ told ty k l.
Proof. reflexivity. Qed.

Lemma told_filter ty k (f : wevent -> bool) l :
  (forall w, of_type ty w = true -> f w = true) -> told ty k (filter f l) = told ty k l.
Proof.
  intros Hf. induction l as [|w l IH]; [reflexivity|]. cbn [filter]. rewrite told_cons, <- IH.
  destruct (of_type ty w) eqn:E; [rewrite (Hf w E), told_cons, E; reflexivity|].
  destruct (f w); [rewrite told_cons, E|]; reflexivity.
Qed.

Lemma told_flat ty k {X} (g : X -> list wevent) l : told ty k (flat_map g l) = flat_map (fun x => told ty k (g x)) l.
Proof. induction l as [|x l IH]; [reflexivity|]. cbn [flat_map]. now rewrite told_app, IH. Qed.

Lemma flat_map_one {X Y} (f : X -> Y) l : flat_map (fun x => [f x]) l = map f l.
Proof. induction l as [|x l IH]; [reflexivity|]. cbn [flat_map map app]. now rewrite IH. Qed.

Lemma h256_length a h : bech32_to_h256 a = Ok h -> length h = 32%nat.
Proof.
  unfold bech32_to_h256. intros H. apply bind_Ok_inv in H as (w & _ & H). unfold pad32 in H.
  destruct (Nat.leb (length w) 32) eqn:E; [|discriminate]. apply Ok_inj in H as <-.
  apply PeanoNat.Nat.leb_le in E. rewrite app_length. unfold zeros. rewrite repeat_length. lia.
Qed.

(** the message of an accepted dispatch *)
Definition dispatched_now (ev : event) (st : cstate) : list message :=
  match ev, st with
  | EvExec e i (MDispatch d) Q, SMailbox x =>
      match to_msg d MAILBOX_VERSION (mb_nonce x) (mb_domain x) (i_sender i) with Ok m => [m] | _ => [] end
  | _, _ => []
  end.
Definition on_dispatch (w : wevent) : bool :=
  (of_type (s "mailbox_dispatch") w || of_type (s "mailbox_dispatch_id") w)%bool.
Definition on_process (w : wevent) : bool :=
  (of_type (s "mailbox_process") w || of_type (s "mailbox_process_id") w)%bool.

Ltac silent_events := apply filter_none; cbn [call_events c_events mb_events]; unfold own_events; quiet_events.

Lemma dispatch_now A x ev :
  mb_nonce x < u32_max -> mb_domain x < u32_max -> accepted A (SMailbox x) ev = true ->
  filter on_dispatch (call_events ev (SMailbox x)) = flat_map dispatch_events (dispatched_now ev (SMailbox x)) /\
  Forall msg_wf (dispatched_now ev (SMailbox x)) /\
  match ev_msg ev, c_apply A ev (SMailbox x) with
  | Some (MDispatch _), Ok (_, r) => match sent_message r with Some raw => [raw] | None => [] end
  | _, _ => []
  end = map msg_encode (dispatched_now ev (SMailbox x)).
Proof.
  intros Hn Hd Ha. apply accepted_apply in Ha as [r H]. rewrite H.
  destruct ev as [e i m Q|]; [|discriminate H]. cbn [ev_msg dispatched_now].
  cbn [c_apply] in H. apply mb_exec_inv in H as (Hok & y & _ & H).
  destruct m; try (split; [silent_events|split; [constructor|reflexivity]]; fail).
  cbn [mb_execute] in H. unfold mb_dispatch in H.
  apply bind_Ok_inv in H as (u & H1 & H). apply bind_Ok_inv in H as (msg & H2 & H).
  apply bind_Ok_inv in H as (dflt & H3 & H). apply bind_Ok_inv in H as (hk & H4 & H).
  apply bind_Ok_inv in H as (rq & H5 & H). apply bind_Ok_inv in H as (fees & H6 & H).
  apply bind_Ok_inv in H as (rest & H7 & H). apply bind_Ok_inv in H as (u2 & H8 & H).
  apply Ok_inj, pair_equal_spec in H as [_ <-].
  cbn [call_events c_events mb_events]. rewrite H2. cbn [flat_map app]. split; [reflexivity|]. split; [|reflexivity].
  constructor; [|constructor]. unfold to_msg in H2. apply bind_Ok_inv in H2 as (hh & Hh & H2). apply Ok_inj in H2 as <-.
  apply ensure_Ok_inv, PeanoNat.Nat.eqb_eq in H1. cbn [emsg_ok] in Hok. apply N.ltb_lt in Hok.
  unfold msg_wf. cbn [m_version m_nonce m_origin m_sender m_dest m_recipient].
  repeat split; try assumption. exact (h256_length _ _ Hh).
Qed.

Lemma process_now A x ev :
  accepted A (SMailbox x) ev = true ->
  exists ms, filter on_process (call_events ev (SMailbox x)) = flat_map process_events ms /\ Forall msg_wf ms /\
    map fst match ev with EvExec e i (MProcess _ raw) _ => [(raw, (i_sender i, e_height e))] | _ => [] end
    = map msg_encode ms.
Proof.
  intros Ha. apply accepted_apply in Ha as [r H]. destruct ev as [e i m Q|]; [|discriminate H].
  cbn [c_apply] in H. apply mb_exec_inv in H as (Hok & y & _ & H).
  destruct m; try (exists []; split; [silent_events|split; [constructor|reflexivity]]; fail).
  cbn [mb_execute] in H. unfold mb_process in H. apply bind_Ok_inv in H as (m & H1 & _).
  exists [m]. cbn [call_events c_events mb_events]. rewrite H1.
  destruct (msg_decode_Ok_inv _ _ H1) as (_ & W & E). split; [reflexivity|].
  split; [constructor; [exact W|constructor]|]. cbn [map fst]. now rewrite E.
Qed.

Lemma dispatch_told A x h :
  mb_nonce x < u32_max -> mb_domain x < u32_max ->
  exists ms, filter on_dispatch (emitted A (SMailbox x) h) = flat_map dispatch_events ms /\
    Forall msg_wf ms /\ dispatches A (SMailbox x) h = map msg_encode ms.
Proof.
  revert x. induction h as [|ev h IH]; intros x Hn Hd; [exists []; repeat constructor|].
  rewrite emitted_cons, filter_app, dispatches_cons. destruct (accepted A (SMailbox x) ev) eqn:Ha.
  - pose proof (dispatch_now A x ev Hn Hd Ha) as (E1 & E2 & E3).
    apply accepted_apply in Ha as [r H]. destruct (mb_apply_mailbox _ _ _ _ _ H) as [x' Hx']. rewrite Hx' in *.
    destruct (IH x') as (ms & F1 & F2 & F3).
    1,2: destruct (mb_step_cases _ _ _ _ _ H) as
      [(? & ? & ? & ? & ? & _ & _ & Hlt & _ & Hy1 & _ & _ & Hy4)
      |[(? & ? & ? & ? & ? & _ & _ & _ & Hy1 & _ & Hy4)|(_ & _ & _ & Hy1 & _ & Hy4)]]; lia.
    exists (dispatched_now ev (SMailbox x) ++ ms). rewrite E1, E3, F1, F3, flat_map_app, map_app.
    split; [reflexivity|]. split; [now apply Forall_app|reflexivity].
  - rewrite (c_step_rejected _ _ _ Ha). destruct (IH x Hn Hd) as (ms & F). exists ms. exact F.
Qed.

Lemma process_told A x h :
  exists ms, filter on_process (emitted A (SMailbox x) h) = flat_map process_events ms /\
    Forall msg_wf ms /\ map fst (processed A (SMailbox x) h) = map msg_encode ms.
Proof.
  revert x. induction h as [|ev h IH]; intros x; [exists []; repeat constructor|].
  rewrite emitted_cons, filter_app, processed_cons. destruct (accepted A (SMailbox x) ev) eqn:Ha.
  - destruct (process_now A x ev Ha) as (ns & E1 & E2 & E3).
    apply accepted_apply in Ha as [r H]. destruct (mb_apply_mailbox _ _ _ _ _ H) as [x' Hx']. rewrite Hx' in *.
    destruct (IH x') as (ms & F1 & F2 & F3). exists (ns ++ ms).
    rewrite map_app, E1, E3, F1, F3, flat_map_app, map_app.
    split; [reflexivity|]. split; [now apply Forall_app|reflexivity].
  - rewrite (c_step_rejected _ _ _ Ha). destruct (IH x) as (ms & F). exists ms. exact F.
Qed.

Lemma decode_all ms : Forall msg_wf ms -> Forall2 (fun raw m => msg_decode raw = Ok m) (map msg_encode ms) ms.
Proof. induction 1; constructor; [now apply msg_decode_encode|assumption]. Qed.

Lemma decs_read ms (f : message -> N) :
  Forall (fun m => f m < u32_max) ms -> map decimal (map (fun m => dec (f m)) ms) = map f ms.
Proof.
  induction 1 as [|m ms Hm _ IH]; [reflexivity|]. cbn [map]. rewrite IH, dec_read; [reflexivity|].
  eapply N.lt_trans; [exact Hm|reflexivity].
Qed.

Lemma told_map ty k (g : message -> list wevent) f ms :
  (forall m, told ty k (g m) = [f m]) -> told ty k (flat_map g ms) = map f ms.
Proof. intros H. rewrite told_flat, <- flat_map_one. apply flat_map_ext. exact H. Qed.

Lemma dispatches_told A q e i hrp owner dom st0 r h :
  c_instantiate A q e i (IMailbox hrp owner dom) = Ok (st0, r) ->
  let tells := told (s "mailbox_dispatch") in
  let log := emitted A st0 h in
  exists ms, Forall2 (fun raw m => msg_decode raw = Ok m) (dispatches A st0 h) ms /\
    tells (s "message") log = map hex_of (dispatches A st0 h) /\
    told (s "mailbox_dispatch_id") (s "message_id") log = map (fun raw => hex_of (keccak256_hash raw)) (dispatches A st0 h) /\
    tells (s "sender") log = map (fun m => hex_of (m_sender m)) ms /\
    tells (s "recipient") log = map (fun m => hex_of (m_recipient m)) ms /\
    map decimal (tells (s "destination") log) = map m_dest ms.
Proof.
  intros H. apply mb_born in H as [Hd ->]. cbv zeta. set (x := mkMb _ _ _ _ _ _ _ _ _).
  destruct (dispatch_told A x h) as (ms & E & W & Ed); [reflexivity|exact Hd|]. clearbody x.
  exists ms. rewrite Ed. split; [now apply decode_all|].
  assert (F : forall ty k, (ty = s "mailbox_dispatch" \/ ty = s "mailbox_dispatch_id") ->
    told ty k (emitted A (SMailbox x) h) = told ty k (flat_map dispatch_events ms)).
  { intros ty k Ht. rewrite <- E. symmetry. apply told_filter. intros w Hw. unfold on_dispatch.
    destruct Ht as [-> | ->]; rewrite Hw; [reflexivity|apply orb_true_r]. }
  rewrite !F by tauto. rewrite !map_map.
  split; [|split; [|split; [|split]]].
  5:{ rewrite (told_map _ _ _ (fun m => dec (m_dest m))) by reflexivity. apply decs_read.
      eapply Forall_impl; [|exact W]. intros m Hm. apply Hm. }
  all: apply told_map; intros m; rewrite <- hex_of_encode; reflexivity.
Qed.

Lemma deliveries_told A q e i hrp owner dom st0 r h :
  c_instantiate A q e i (IMailbox hrp owner dom) = Ok (st0, r) ->
  let ids := told (s "mailbox_process_id") (s "message_id") in
  let tells := told (s "mailbox_process") in
  let log := emitted A st0 h in
  exists ms, Forall2 (fun p m => msg_decode (fst p) = Ok m) (processed A st0 h) ms /\
    ids log = map (fun p => hex_of (keccak256_hash (fst p))) (processed A st0 h) /\
    map decimal (tells (s "origin") log) = map m_origin ms /\
    tells (s "sender") log = map (fun m => hex_of (m_sender m)) ms /\
    tells (s "recipient") log = map (fun m => hex_of (m_recipient m)) ms /\
    NoDup (ids log) /\
    (forall id, reported_delivered (c_run A st0 h) id = Some true <-> In (hex_of id) (ids log)).
Proof.
  intros H. destruct (at_most_once _ _ _ _ _ _ _ _ _ h H) as [Hn Hrec].
  apply mb_born in H as [Hd ->]. cbv zeta. set (x := mkMb _ _ _ _ _ _ _ _ _) in *.
  destruct (process_told A x h) as (ms & E & W & Ed). clearbody x.
  assert (F : forall ty k, (ty = s "mailbox_process" \/ ty = s "mailbox_process_id") ->
    told ty k (emitted A (SMailbox x) h) = told ty k (flat_map process_events ms)).
  { intros ty k Ht. rewrite <- E. symmetry. apply told_filter. intros w Hw. unfold on_process.
    destruct Ht as [-> | ->]; rewrite Hw; [reflexivity|apply orb_true_r]. }
  assert (Hids : told (s "mailbox_process_id") (s "message_id") (emitted A (SMailbox x) h)
                 = map (fun p => hex_of (keccak256_hash (fst p))) (processed A (SMailbox x) h)).
  { rewrite F by tauto. rewrite <- (map_map fst (fun raw => hex_of (keccak256_hash raw))), Ed, map_map.
    apply told_map. intros m. rewrite <- hex_of_encode. reflexivity. }
  exists ms. split.
  { pose proof (decode_all ms W) as D. rewrite <- Ed in D. clear - D. revert ms D.
    induction (processed A (SMailbox x) h) as [|p l IH]; intros ms D; inversion D; subst; constructor; auto. }
  split; [exact Hids|].
  split; [|split; [|split]].
  - rewrite !F by tauto. rewrite (told_map _ _ _ (fun m => dec (m_origin m))) by reflexivity. apply decs_read.
    eapply Forall_impl; [|exact W]. intros m Hm. apply Hm.
  - rewrite !F by tauto. apply told_map; intros m; rewrite <- hex_of_encode; reflexivity.
  - rewrite !F by tauto. apply told_map; intros m; rewrite <- hex_of_encode; reflexivity.
  - rewrite Hids. split.
    + rewrite <- (map_map (fun p => keccak256_hash (fst p)) hex_of). clear - Hn. induction Hn as [|a l Ha Hl IH]; [constructor|].
      cbn [map]. constructor; [|exact IH]. intros Hin. apply in_map_iff in Hin as (b & Eb & Hb).
      rewrite <- !hex_of_encode in Eb. apply hex_encode_inj in Eb. now subst b.
    + intros id. rewrite delivered_recorded. split.
      * intros [rec Hr]. apply Hrec in Hr as (raw & Hin & <-). apply in_map_iff. exists (raw, rec). auto.
      * intros Hin. apply in_map_iff in Hin as ([raw rec] & Eb & Hb). rewrite <- !hex_of_encode in Eb.
        apply hex_encode_inj in Eb. exists rec. apply Hrec. exists raw. auto.
Qed.
