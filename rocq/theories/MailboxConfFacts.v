(** * The mailbox's settings, and last-write-wins in general. *)
From Coq Require Import List NArith Lia Bool.
From Verif Require Import Base BaseFacts OMap Coins Message Chain Ownable Router
  Mailbox Va Isms Hooks Igp Warp Cw20 Contracts Spec StepFacts AccessFacts.
Import ListNotations.

Lemma last_accepted_cons {X} (f : emsg -> option X) A st ev h x0 :
  last_accepted f A st (ev :: h) x0
  = last_accepted f A (c_step A st ev) h
      (if accepted A st ev
       then match ev_msg ev with
            | Some m => match f m with Some a => Some a | None => x0 end
            | None => x0 end
       else x0).
Proof.
  unfold last_accepted. cbn [accepted_calls]. rewrite fold_left_app.
  now destruct (accepted A st ev).
Qed.

(** a reported value that every accepted call either sets or leaves alone *)
Lemma last_accepted_run {X} (f : emsg -> option X) (report : cstate -> option X) (P : cstate -> Prop) A st h :
  (forall st ev, P st -> P (c_step A st ev)) ->
  (forall st ev, P st -> accepted A st ev = true ->
     report (c_step A st ev) = match ev_msg ev with
            | Some m => match f m with Some a => Some a | None => report st end
            | None => report st end) ->
  P st ->
  report (c_run A st h) = last_accepted f A st h (report st).
Proof.
  intros HP Hstep. revert st. induction h as [|ev h IH]; intros st Hst; [reflexivity|].
  rewrite c_run_cons, last_accepted_cons, IH by auto. f_equal.
  destruct (accepted A st ev) eqn:E; [now apply Hstep|now rewrite c_step_rejected].
Qed.

Definition is_mailbox (st : cstate) : Prop := kind st = 0.

Lemma is_mailbox_step A st ev : is_mailbox st -> is_mailbox (c_step A st ev).
Proof. unfold is_mailbox. now rewrite step_kind. Qed.

Ltac mb_open st ev Hk Hap :=
  destruct st; try discriminate Hk;
  destruct ev as [e i m Q|id rr];
  [ cbn [c_apply] in Hap; unfold c_execute, lift in Hap; inv_all; unfold mb_execute in *;
    destruct m; try discriminate; inv_all; unfold_helpers; inv_all
  | discriminate Hap ].

Lemma mb_conf_step A st ev :
  is_mailbox st -> accepted A st ev = true ->
  let st' := c_step A st ev in
  reported_default_ism st' = match ev_msg ev with Some (MSetDefaultIsm a) => Some a | _ => reported_default_ism st end /\
  reported_default_hook st' = match ev_msg ev with Some (MSetDefaultHook a) => Some a | _ => reported_default_hook st end /\
  reported_required_hook st' = match ev_msg ev with Some (MSetRequiredHook a) => Some a | _ => reported_required_hook st end /\
  reported_hrp st' = reported_hrp st /\ reported_domain st' = reported_domain st.
Proof.
  intros Hk Hacc. apply c_step_accepted in Hacc as [r Hap]. intros st'. fold st' in Hap.
  clearbody st'. unfold is_mailbox in Hk.
  mb_open st ev Hk Hap; try (repeat split; reflexivity);
    unfold addr_validate in *; split_matches; repeat split; reflexivity.
Qed.

Definition f_ism (m : emsg) := match m with MSetDefaultIsm a => Some a | _ => None end.
Definition f_hook (m : emsg) := match m with MSetDefaultHook a => Some a | _ => None end.
Definition f_required (m : emsg) := match m with MSetRequiredHook a => Some a | _ => None end.

Lemma mb_conf_history A st h :
  is_mailbox st ->
  reported_default_ism (c_run A st h) = last_accepted f_ism A st h (reported_default_ism st) /\
  reported_default_hook (c_run A st h) = last_accepted f_hook A st h (reported_default_hook st) /\
  reported_required_hook (c_run A st h) = last_accepted f_required A st h (reported_required_hook st) /\
  reported_hrp (c_run A st h) = reported_hrp st /\
  reported_domain (c_run A st h) = reported_domain st.
Proof.
  intros Hk.
  split; [|split; [|split; [|split]]].
  - apply (last_accepted_run f_ism reported_default_ism is_mailbox); auto using is_mailbox_step.
    intros st0 ev H0 Ha. destruct (mb_conf_step A st0 ev H0 Ha) as (H & _). rewrite H.
    destruct (ev_msg ev) as [[]|]; reflexivity.
  - apply (last_accepted_run f_hook reported_default_hook is_mailbox); auto using is_mailbox_step.
    intros st0 ev H0 Ha. destruct (mb_conf_step A st0 ev H0 Ha) as (_ & H & _). rewrite H.
    destruct (ev_msg ev) as [[]|]; reflexivity.
  - apply (last_accepted_run f_required reported_required_hook is_mailbox); auto using is_mailbox_step.
    intros st0 ev H0 Ha. destruct (mb_conf_step A st0 ev H0 Ha) as (_ & _ & H & _). rewrite H.
    destruct (ev_msg ev) as [[]|]; reflexivity.
  - revert st Hk. induction h as [|ev h IH]; intros st Hk; [reflexivity|].
    rewrite c_run_cons, IH by now apply is_mailbox_step.
    destruct (accepted A st ev) eqn:E; [apply (mb_conf_step A st ev Hk E)|now rewrite c_step_rejected].
  - revert st Hk. induction h as [|ev h IH]; intros st Hk; [reflexivity|].
    rewrite c_run_cons, IH by now apply is_mailbox_step.
    destruct (accepted A st ev) eqn:E; [apply (mb_conf_step A st ev Hk E)|now rewrite c_step_rejected].
Qed.

(** a configuration call is the owner's and touches one field *)
Lemma mb_conf_owner A st ev mm :
  is_mailbox st -> accepted A st ev = true -> ev_msg ev = Some mm ->
  f_ism mm <> None \/ f_hook mm <> None \/ f_required mm <> None ->
  ev_sender ev = reported_owner st /\
  forall B q qm,
    match f_ism mm with Some _ => qm <> QDefaultIsm /\ (forall r, qm <> QRecipientIsm r) | None => True end ->
    match f_hook mm with Some _ => qm <> QDefaultHook /\ (forall sd d, qm <> QMailboxQuote sd d) | None => True end ->
    match f_required mm with Some _ => qm <> QRequiredHook /\ (forall sd d, qm <> QMailboxQuote sd d) | None => True end ->
    c_query B q qm (c_step A st ev) = c_query B q qm st.
Proof.
  intros Hk Hacc Hm Hf. apply c_step_accepted in Hacc as [r Hap].
  set (st' := c_step A st ev) in *. clearbody st'. unfold is_mailbox in Hk.
  mb_open st ev Hk Hap; cbn in Hm; apply Some_inj in Hm as <-; cbn in Hf;
    try (destruct Hf as [Hf|[Hf|Hf]]; congruence);
    unfold only_owner in *; inv_all;
    match goal with H : bytes_eqb _ _ = true |- _ => apply bytes_eqb_eq in H end;
    (split; [rewrite reported_owner_own; cbn; congruence|]);
    cbn [f_ism f_hook f_required]; intros B q qm H1 H2 H3; unfold c_query;
    destruct (ensure (qmsg_ok qm) EParse); cbn [bind]; try reflexivity;
    destruct qm; try reflexivity;
    exfalso; first [ now apply (proj1 H1) | now apply (proj1 H2) | now apply (proj1 H3)
                   | now eapply (proj2 H1) | now eapply (proj2 H2) | now eapply (proj2 H3) ].
Qed.

Lemma mailbox_settings A hrp ow dom q e i st0 r h :
  c_instantiate A q e i (IMailbox hrp ow dom) = Ok (st0, r) ->
  let st := c_run A st0 h in
  reported_default_ism st = last_accepted f_ism A st0 h None /\
  reported_default_hook st = last_accepted f_hook A st0 h None /\
  reported_required_hook st = last_accepted f_required A st0 h None /\
  reported_hrp st = Some hrp /\ reported_domain st = Some dom.
Proof.
  intros Hi st.
  assert (H0 : is_mailbox st0 /\ reported_default_ism st0 = None /\ reported_default_hook st0 = None /\
               reported_required_hook st0 = None /\ reported_hrp st0 = Some hrp /\
               reported_domain st0 = Some dom).
  { unfold c_instantiate, lift, mb_instantiate in Hi. inv_all. repeat split. }
  destruct H0 as (Hk & E1 & E2 & E3 & E4 & E5).
  pose proof (mb_conf_history A st0 h Hk) as H. now rewrite E1, E2, E3, E4, E5 in H.
Qed.

Lemma mailbox_one_field A hrp ow dom q0 e i st0 r h ev m :
  c_instantiate A q0 e i (IMailbox hrp ow dom) = Ok (st0, r) ->
  let st := c_run A st0 h in
  accepted A st ev = true -> ev_msg ev = Some m ->
  (exists a, m = MSetDefaultIsm a \/ m = MSetDefaultHook a \/ m = MSetRequiredHook a) ->
  ev_sender ev = reported_owner st /\
  forall B q qm,
    (forall a, m = MSetDefaultIsm a -> qm <> QDefaultIsm /\ (forall r, qm <> QRecipientIsm r)) ->
    (forall a, m = MSetDefaultHook a -> qm <> QDefaultHook /\ (forall sd d, qm <> QMailboxQuote sd d)) ->
    (forall a, m = MSetRequiredHook a -> qm <> QRequiredHook /\ (forall sd d, qm <> QMailboxQuote sd d)) ->
    c_query B q qm (c_step A st ev) = c_query B q qm st.
Proof.
  intros Hi st Ha Hm Hf.
  assert (Hk : is_mailbox st).
  { unfold is_mailbox, st. rewrite run_kind.
    unfold c_instantiate, lift, mb_instantiate in Hi. inv_all. reflexivity. }
  destruct (mb_conf_owner A st ev m Hk Ha Hm) as [H1 H2].
  { destruct Hf as (a & [-> | [-> | ->]]); cbn; [left|right; left|right; right]; discriminate. }
  split; [exact H1|]. intros B q qm G1 G2 G3. apply H2.
  - destruct m; try exact I. cbn. eapply G1. reflexivity.
  - destruct m; try exact I. cbn. eapply G2. reflexivity.
  - destruct m; try exact I. cbn. eapply G3. reflexivity.
Qed.
