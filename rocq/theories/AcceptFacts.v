(** * Which configuration calls are accepted. *)
From Coq Require Import List NArith Lia Bool.
From Verif Require Import Base BaseFacts OMap Coins Message Hex Chain Ownable Router
  Mailbox Va Isms Hooks Igp Warp Cw20 Contracts Spec SpecModules StepFacts AccessFacts.
Import ListNotations.

(** ** When a computation succeeds *)
Lemma ok_Ok {X} (x : X) : is_ok (Ok x) = true <-> True.
Proof. split; intros; [exact I | reflexivity]. Qed.
Lemma ok_Err {X} e : is_ok (@Err X e) = true <-> False.
Proof. split; intros H; [discriminate H | destruct H]. Qed.
Lemma ok_ensure {X} b e (k : unit -> res X) :
  is_ok (bind (ensure b e) k) = true <-> b = true /\ is_ok (k tt) = true.
Proof. destruct b; cbn; [tauto | split; [discriminate | intros [H _]; discriminate H]]. Qed.
Lemma ok_validate {X} A a (k : addr -> res X) :
  is_ok (bind (addr_validate A a) k) = true <-> valid A a /\ is_ok (k a) = true.
Proof.
  unfold addr_validate, valid.
  destruct (api_valid A a); cbn; [tauto | split; [discriminate | intros [H _]; discriminate H]].
Qed.
Lemma ok_lift {X} (f : X -> cstate) r : is_ok (lift f r) = is_ok r.
Proof. destruct r as [[x o]| |]; reflexivity. Qed.
Lemma ok_bind_const {X Y} (r : res X) (k : X -> res Y) :
  (forall x, is_ok (k x) = true) -> is_ok (bind r k) = is_ok r.
Proof. intros H. destruct r as [x| |]; cbn; [apply H | reflexivity..]. Qed.
Lemma ok_mapM_validate A l : is_ok (mapM (addr_validate A) l) = true <-> Forall (valid A) l.
Proof.
  induction l as [|a l IH]; cbn [mapM].
  - rewrite ok_Ok. split; intros; [constructor | exact I].
  - rewrite ok_validate. rewrite ok_bind_const by reflexivity. rewrite IH.
    split; [intros [H1 H2]; constructor; assumption | intros H; inversion_clear H; auto].
Qed.
(** a fold that checks each element by itself *)
Lemma ok_foldM {X Y} (P : X -> Prop) (f : Y -> X -> res Y) l :
  (forall y x, is_ok (f y x) = true <-> P x) ->
  forall y, is_ok (foldM f l y) = true <-> Forall P l.
Proof.
  intros Hf. induction l as [|a l IH]; intros y; cbn [foldM].
  - rewrite ok_Ok. split; intros; [constructor | exact I].
  - specialize (Hf y a). destruct (f y a) as [y'| |]; cbn [bind].
    + rewrite IH. split; [intros H; constructor; [apply Hf; reflexivity | exact H]
                         | intros H; inversion_clear H; assumption].
    + split; [discriminate | intros H; inversion_clear H as [|? ? H1 _]; apply Hf in H1; discriminate H1].
    + split; [discriminate | intros H; inversion_clear H as [|? ? H1 _]; apply Hf in H1; discriminate H1].
Qed.

Lemma ok_only_owner {X} o i (k : unit -> res X) :
  is_ok (bind (only_owner o i) k) = true <-> Some (i_sender i) = Some (o_owner o) /\ is_ok (k tt) = true.
Proof.
  unfold only_owner. rewrite ok_ensure, bytes_eqb_eq.
  split; intros [H1 H2]; (split; [|exact H2]); congruence.
Qed.

Lemma u32_iff n : u32_ok n = true <-> n < 2 ^ 32.
Proof. exact (N.ltb_lt _ _). Qed.
Lemma u128_iff n : u128_ok n = true <-> n < 2 ^ 128.
Proof. exact (N.ltb_lt _ _). Qed.
Lemma u8_iff n : u8_ok n = true <-> n < 2 ^ 8.
Proof. exact (N.ltb_lt _ _). Qed.
Lemma forallb_iff {X} (f : X -> bool) (P : X -> Prop) l :
  (forall x, f x = true <-> P x) -> (forallb f l = true <-> Forall P l).
Proof.
  intros H. rewrite forallb_forall, Forall_forall. split; intros H1 x Hx; apply H, H1, Hx.
Qed.
Lemma domains_ok_iff l : forallb u32_ok l = true <-> domains_ok l.
Proof. apply forallb_iff. exact u32_iff. Qed.
Lemma routes_ok_iff l : forallb (fun r => u32_ok (rs_domain r)) l = true <-> domains_ok (map rs_domain l).
Proof.
  unfold domains_ok. rewrite Forall_map. apply forallb_iff. intros r. apply u32_iff.
Qed.

(** ** Ownership requests *)
Lemma ok_own_handle A i om o :
  is_ok (own_handle A i om o) = true <->
  match om with
  | InitOwnershipTransfer n => Some (i_sender i) = Some (o_owner o) /\ valid A n /\ o_pending o = None
  | RevokeOwnershipTransfer => Some (i_sender i) = Some (o_owner o) /\ o_pending o <> None
  | ClaimOwnership => o_pending o = Some (i_sender i)
  end.
Proof.
  destruct om as [n| |]; cbn [own_handle].
  - rewrite ok_validate. unfold init_ownership_transfer. rewrite !ok_ensure, ok_Ok, bytes_eqb_eq.
    destruct (o_pending o); split; intros; intuition (congruence || discriminate).
  - unfold revoke_ownership_transfer. rewrite !ok_ensure, ok_Ok, bytes_eqb_eq.
    destruct (o_pending o); split; intros; intuition (congruence || discriminate).
  - unfold claim_ownership. rewrite ok_ensure.
    destruct (o_pending o) as [p|]; cbn [ok_or bind].
    + rewrite ok_ensure, bytes_eqb_eq, ok_Ok. split; intros; intuition congruence.
    + split; intros; intuition discriminate.
Qed.

Lemma ok_pause_handle o i pm b :
  is_ok (pause_handle o i pm b) = true <->
  Some (i_sender i) = Some (o_owner o) /\ Some b = Some (match pm with Pause => false | Release => true end).
Proof.
  unfold pause_handle. rewrite ok_only_owner.
  destruct pm; unfold do_pause, do_release; rewrite ok_ensure, ok_Ok; destruct b; cbn;
    intuition (congruence || discriminate).
Qed.

Lemma ok_router_handle o i rm r :
  is_ok (router_handle o i rm r) = true <-> Some (i_sender i) = Some (o_owner o).
Proof.
  unfold router_handle. rewrite ok_only_owner. destruct rm; rewrite ok_Ok; tauto.
Qed.

Lemma ok_conn_handle A o i cm c :
  is_ok (conn_handle A o i cm c) = true <->
  Some (i_sender i) = Some (o_owner o) /\
  valid A (match cm with SetMailbox a | SetHook a | SetIsm a => a end).
Proof.
  unfold conn_handle. rewrite ok_only_owner.
  destruct cm; rewrite ok_validate, ok_Ok; tauto.
Qed.

Lemma ok_register1 A m c :
  is_ok (cu_register1 A m c) = true <->
  valid A (ch_hook c) /\ exists r, hex_decode (ch_recipient c) = Ok r /\ length r = 32%nat.
Proof.
  unfold cu_register1. destruct (hex_decode (ch_recipient c)) as [r| |]; cbn [bind].
  - rewrite ok_ensure, ok_validate, ok_Ok, PeanoNat.Nat.eqb_eq. split.
    + intros (H1 & H2 & _). eauto.
    + intros (H1 & r' & H2 & H3). apply Ok_inj in H2 as <-. auto.
  - split; [discriminate | intros (_ & r & H & _); discriminate H].
  - split; [discriminate | intros (_ & r & H & _); discriminate H].
Qed.
Lemma ok_clear1 (m : omap (N * bytes) addr) (p : N * str) :
  is_ok (r <- hex_decode (snd p) ;; Ok (om_del (fst p, r) m)) = true <->
  exists r, hex_decode (snd p) = Ok r.
Proof.
  destruct (hex_decode (snd p)) as [r| |]; cbn [bind]; split; eauto;
    try discriminate; try (intros (r' & H); discriminate H).
Qed.
Lemma ok_oracle1 m c :
  is_ok (_ <- ensure (negb (gc_rate c =? 0)) EInvalidConfig ;; Ok (or_insert m c)) = true <-> gc_rate c <> 0.
Proof.
  rewrite ok_ensure, ok_Ok. destruct (N.eqb_spec (gc_rate c) 0); cbn; intuition (congruence || discriminate).
Qed.
Lemma Forall_and_iff {X} (P Q : X -> Prop) l :
  Forall P l /\ Forall Q l <-> Forall (fun x => P x /\ Q x) l.
Proof.
  rewrite !Forall_forall. split; [intros [H1 H2] x Hx; auto | intros H; split; intros x Hx; apply H, Hx].
Qed.
Lemma gas_config_iff c :
  (u32_ok (gc_domain c) && u128_ok (gc_rate c) && u128_ok (gc_price c))%bool = true <-> gas_config_ok c.
Proof. rewrite !andb_true_iff, u32_iff, !u128_iff. unfold gas_config_ok. tauto. Qed.

Lemma custom_ok_split A l :
  Forall (custom_ok A) l <->
  Forall (fun c => ch_dest c < 2 ^ 32) l /\
  Forall (fun c => valid A (ch_hook c) /\ exists r, hex_decode (ch_recipient c) = Ok r /\ length r = 32%nat) l.
Proof. rewrite Forall_and_iff. reflexivity. Qed.
Lemma cleared_ok_split l :
  Forall cleared_ok l <->
  Forall (fun p : N * str => fst p < 2 ^ 32) l /\ Forall (fun p : N * str => exists r, hex_decode (snd p) = Ok r) l.
Proof. rewrite Forall_and_iff. reflexivity. Qed.

(** ** All settings *)
Lemma ok_execute A Q e i m st :
  accepted A st (EvExec e i m Q) = true <->
  emsg_ok m = true /\ is_ok (c_execute A Q e i m st) = true.
Proof.
  unfold accepted, c_apply. split; [|tauto]. intros H. split; [|exact H].
  unfold c_execute in H. rewrite ok_ensure in H. apply H.
Qed.

Ltac acc :=
  unfold accepted, c_apply, c_execute; rewrite ok_ensure; cbn [emsg_ok]; rewrite ?ok_lift;
  cbn [mb_execute va_execute ms_execute ag_execute ri_execute pi_execute mk_execute ah_execute ph_execute
       rh_execute cu_execute fb_execute fe_execute or_execute gp_execute wn_execute wc_execute wp_common].

Lemma setting_accepted A e i m Q st P :
  setting A st m = Some P ->
  (accepted A st (EvExec e i m Q) = true <-> Some (i_sender i) = reported_owner st /\ P).
Proof.
  intros H. rewrite reported_owner_own.
  destruct m; cbn [setting] in H; try (destruct st; discriminate H).
  - (* ownership *)
    assert (Ho : exists o, own_of st = Some o /\
              (accepted A st (EvExec e i (MOwnable m) Q) = true <-> is_ok (own_handle A i m o) = true)).
    { destruct st; try discriminate H; eexists; (split; [reflexivity|]); acc;
        rewrite ok_bind_const by reflexivity; intuition. }
    destruct Ho as (o & Ho & Hacc). rewrite Hacc, ok_own_handle, Ho. cbn [option_map].
    assert (Hp : reported_pending st = o_pending o) by (rewrite reported_pending_own, Ho; reflexivity).
    rewrite Hp in H.
    destruct st; try discriminate H; destruct m; try discriminate H; apply Some_inj in H; subst P; tauto.
  - (* pause *)
    destruct st; try discriminate H; apply Some_inj in H; subst P; acc; cbn [own_of option_map];
      rewrite ok_bind_const by reflexivity; rewrite ok_pause_handle; cbn; tauto.
  - (* routes *)
    destruct st; try discriminate H; apply Some_inj in H; subst P; acc; cbn [own_of option_map];
      rewrite ok_bind_const by reflexivity; rewrite ok_router_handle;
      (destruct m; [unfold domains_ok; cbn [map]; rewrite u32_iff, Forall_cons_iff | rewrite routes_ok_iff]);
      intuition.
  - (* connection *)
    destruct st; try discriminate H; apply Some_inj in H; subst P; acc; cbn [own_of option_map];
      rewrite ok_bind_const by reflexivity; rewrite ok_conn_handle; tauto.
  - destruct st; try discriminate H; apply Some_inj in H; subst P; acc; unfold mb_set_default_ism.
    rewrite ok_only_owner, ok_validate, ok_Ok. cbn; tauto.
  - destruct st; try discriminate H; apply Some_inj in H; subst P; acc; unfold mb_set_default_hook.
    rewrite ok_only_owner, ok_validate, ok_Ok. cbn; tauto.
  - destruct st; try discriminate H; apply Some_inj in H; subst P; acc; unfold mb_set_required_hook.
    rewrite ok_only_owner, ok_validate, ok_Ok. cbn; tauto.
  - (* validators *)
    destruct st; try discriminate H; apply Some_inj in H; subst P; acc; unfold ms_set_validators.
    rewrite ok_only_owner, !ok_ensure, ok_Ok, !andb_true_iff, u32_iff, u8_iff, N.leb_le, N.ltb_lt.
    rewrite (forallb_iff _ (fun v : bytes => length v = 20%nat)) by (intros v; apply PeanoNat.Nat.eqb_eq).
    cbn [own_of option_map]. tauto.
  - destruct st; try discriminate H; apply Some_inj in H; subst P; acc; unfold ms_unset_domain.
    rewrite ok_only_owner, ok_Ok, u32_iff. cbn [own_of option_map]. tauto.
  - destruct st; try discriminate H; apply Some_inj in H; subst P; acc; unfold ag_set_isms.
    rewrite ok_only_owner, !ok_ensure, u8_iff, N.leb_le, N.ltb_lt.
    rewrite ok_bind_const by reflexivity. rewrite ok_mapM_validate. cbn [own_of option_map]. tauto.
  - destruct st; try discriminate H; apply Some_inj in H; subst P; acc.
    rewrite ok_only_owner, ok_validate, ok_Ok, u32_iff. cbn [own_of option_map]. tauto.
  - destruct st; try discriminate H; apply Some_inj in H; subst P; acc.
    rewrite ok_only_owner, ok_Ok, domains_ok_iff. cbn [own_of option_map]. tauto.
  - destruct st; try discriminate H; apply Some_inj in H; subst P; acc.
    rewrite ok_only_owner. rewrite ok_bind_const by reflexivity. rewrite ok_mapM_validate.
    cbn [own_of option_map]. tauto.
  - destruct st; try discriminate H; apply Some_inj in H; subst P; acc.
    rewrite ok_ensure, ok_Ok, bytes_eqb_eq, u128_iff. cbn [own_of option_map].
    intuition congruence.
  - destruct st; try discriminate H; apply Some_inj in H; subst P; acc.
    rewrite ok_ensure, ok_Ok, bytes_eqb_eq. cbn [own_of option_map]. intuition congruence.
  - destruct st; try discriminate H; apply Some_inj in H; subst P; acc. unfold cu_register.
    rewrite ok_only_owner. rewrite ok_bind_const by reflexivity.
    rewrite (ok_foldM _ _ _ (ok_register1 A)), Forall_cons_iff, u32_iff. unfold custom_ok.
    cbn [own_of option_map]. intuition.
  - destruct st; try discriminate H; apply Some_inj in H; subst P; acc. unfold cu_register.
    rewrite ok_only_owner. rewrite ok_bind_const by reflexivity.
    rewrite (ok_foldM _ _ _ (ok_register1 A)).
    rewrite (forallb_iff _ (fun c => ch_dest c < 2 ^ 32)) by (intros c; apply u32_iff).
    rewrite custom_ok_split. cbn [own_of option_map]. tauto.
  - destruct st; try discriminate H; apply Some_inj in H; subst P; acc. unfold cu_clear.
    rewrite ok_only_owner. rewrite ok_bind_const by reflexivity.
    rewrite (ok_foldM _ _ _ ok_clear1), Forall_cons_iff, u32_iff. unfold cleared_ok. cbn [fst snd].
    cbn [own_of option_map]. intuition.
  - destruct st; try discriminate H; apply Some_inj in H; subst P; acc. unfold cu_clear.
    rewrite ok_only_owner. rewrite ok_bind_const by reflexivity.
    rewrite (ok_foldM _ _ _ ok_clear1).
    rewrite (forallb_iff _ (fun p : N * str => fst p < 2 ^ 32)) by (intros c; apply u32_iff).
    rewrite cleared_ok_split. cbn [own_of option_map]. tauto.
  - destruct st; try discriminate H; apply Some_inj in H; subst P; acc.
    rewrite ok_only_owner, ok_validate, ok_Ok. cbn [own_of option_map]. tauto.
  - destruct st; try discriminate H; apply Some_inj in H; subst P; acc.
    rewrite ok_only_owner, ok_Ok, u128_iff. cbn [own_of option_map]. tauto.
  - destruct st; try discriminate H; apply Some_inj in H; subst P; acc.
    rewrite ok_only_owner, ok_Ok.
    rewrite (forallb_iff _ (fun p : N * N => fst p < 2 ^ 32 /\ snd p < 2 ^ 128))
      by (intros p; rewrite andb_true_iff, u32_iff, u128_iff; reflexivity).
    cbn [own_of option_map]. tauto.
  - destruct st; try discriminate H; apply Some_inj in H; subst P; acc.
    rewrite ok_only_owner, ok_Ok, domains_ok_iff. cbn [own_of option_map]. tauto.
  - destruct st; try discriminate H; apply Some_inj in H; subst P; acc.
    rewrite ok_only_owner, ok_validate, ok_Ok. cbn [own_of option_map]. tauto.
  - (* the oracle's ownership *)
    destruct st as [| | | | | | | | | | | | | x | | | |]; try discriminate H. acc.
    rewrite ok_bind_const by reflexivity. rewrite ok_own_handle. cbn [own_of option_map].
    change (reported_pending (SOracle x)) with (o_pending (or_own x)) in H.
    destruct m; try discriminate H; apply Some_inj in H; subst P; tauto.
  - destruct st; try discriminate H; apply Some_inj in H; subst P; acc.
    rewrite ok_only_owner. rewrite ok_bind_const by reflexivity.
    rewrite (ok_foldM _ _ _ ok_oracle1), (forallb_iff _ gas_config_ok) by (intros c; apply gas_config_iff).
    rewrite <- (Forall_and_iff gas_config_ok (fun c => gc_rate c <> 0)). cbn [own_of option_map]. tauto.
  - destruct st; try discriminate H; apply Some_inj in H; subst P; acc.
    rewrite ok_only_owner, ok_Ok, gas_config_iff. cbn [own_of option_map]. tauto.
Qed.

(** ** The claim of an offered ownership *)
Lemma own_accepted A e i om Q st o :
  reported_owner st = Some o ->
  (accepted A st (EvExec e i (own_msg st om) Q) = true <->
   match om with
   | InitOwnershipTransfer n => i_sender i = o /\ valid A n /\ reported_pending st = None
   | RevokeOwnershipTransfer => i_sender i = o /\ reported_pending st <> None
   | ClaimOwnership => reported_pending st = Some (i_sender i)
   end).
Proof.
  intros H. rewrite reported_owner_own in H. rewrite reported_pending_own.
  assert (Hacc : exists w, own_of st = Some w /\
            (accepted A st (EvExec e i (own_msg st om) Q) = true <-> is_ok (own_handle A i om w) = true)).
  { destruct st; try discriminate H; eexists; (split; [reflexivity|]); unfold own_msg; acc;
      rewrite ok_bind_const by reflexivity; intuition. }
  destruct Hacc as (w & Hw & Hacc). rewrite Hw in *. apply Some_inj in H. subst o.
  rewrite Hacc, ok_own_handle.
  destruct om; split; intros; intuition congruence.
Qed.

Lemma pause_accepted A e i pm Q st b :
  reported_paused st = Some b ->
  (accepted A st (EvExec e i (MPausable pm) Q) = true <->
   Some (i_sender i) = reported_owner st /\ b = match pm with Pause => false | Release => true end).
Proof.
  intros H.
  assert (Hs : setting A st (MPausable pm)
               = Some (reported_paused st = Some (match pm with Pause => false | Release => true end))).
  { destruct st; cbn in H; try discriminate H; reflexivity. }
  rewrite (setting_accepted A e i _ Q st _ Hs), H. split; intros [H1 H2]; (split; [exact H1 | congruence]).
Qed.

Lemma route_accepted A e i rm Q st d r0 :
  reported_route st d = Some r0 ->
  (accepted A st (EvExec e i (MRouter rm) Q) = true <->
   Some (i_sender i) = reported_owner st /\
   domains_ok (map rs_domain (match rm with SetRoute r => [r] | SetRoutes l => l end))).
Proof.
  intros H.
  assert (Hs : setting A st (MRouter rm)
               = Some (domains_ok (map rs_domain (match rm with SetRoute r => [r] | SetRoutes l => l end)))).
  { destruct st; cbn [setting]; try reflexivity; exfalso;
      unfold reported_route, c_query in H; destruct (qmsg_ok (QGetRoute d)); discriminate H. }
  exact (setting_accepted A e i _ Q st _ Hs).
Qed.

Lemma conn_accepted A e i cm Q st a0 :
  reported_conn st QConnMailbox = Some a0 ->
  (accepted A st (EvExec e i (MConnection cm) Q) = true <->
   Some (i_sender i) = reported_owner st /\
   valid A (match cm with SetMailbox a | SetHook a | SetIsm a => a end)).
Proof.
  intros H. destruct st; try discriminate H; apply setting_accepted; reflexivity.
Qed.

(** ** Everything else leaves the settings alone *)
Lemma others_change_nothing A st e i m Q :
  ~ keeps_records st -> setting A st m = None -> own_request (EvExec e i m Q) <> Some ClaimOwnership ->
  c_step A st (EvExec e i m Q) = st.
Proof.
  intros Hk Hs Hc. destruct (accepted A st (EvExec e i m Q)) eqn:Ha; [|apply c_step_rejected; exact Ha].
  apply c_step_accepted in Ha as [r Hr]. set (st' := c_step A st (EvExec e i m Q)) in *. clearbody st'.
  cbn [c_apply] in Hr. unfold c_execute, lift in Hr. apply bind_Ok_inv in Hr as (u & _ & Hr).
  destruct st; try (destruct (Hk I)); apply bind_Ok_inv in Hr as ([x' r'] & Hx & Hr); apply Ok_inj in Hr;
    injection Hr as <- <-; f_equal.
  all: destruct m; try discriminate Hx; try discriminate Hs.
  all: try (destruct m; cbn [setting] in Hs; try discriminate Hs; exfalso; apply Hc; reflexivity).
  all: cbn [ah_execute ph_execute rh_execute cu_execute fb_execute fe_execute gp_execute wn_execute wc_execute] in Hx.
  all: unfold ah_post_dispatch, gp_post_dispatch, gp_pay_for_gas, gp_claim, wn_handle, wn_transfer_remote,
    wc_handle, wc_transfer_remote in Hx; inv_all; try reflexivity.
Qed.

Lemma own_effect A st ev om :
  accepted A st ev = true -> own_request ev = Some om ->
  match om with
  | InitOwnershipTransfer b =>
      reported_pending (c_step A st ev) = Some b /\ reported_owner (c_step A st ev) = reported_owner st
  | RevokeOwnershipTransfer =>
      reported_pending (c_step A st ev) = None /\ reported_owner (c_step A st ev) = reported_owner st
  | ClaimOwnership =>
      reported_pending (c_step A st ev) = None /\ reported_owner (c_step A st ev) = ev_sender ev
  end.
Proof.
  intros Ha Ho. destruct (own_step A st ev om Ha Ho) as (a & sd & H1 & H2 & H3). cbv zeta in H3.
  destruct om; intuition congruence.
Qed.

Lemma mailbox_setting_accepted A e i m a Q st dom :
  reported_domain st = Some dom ->
  m = MSetDefaultIsm a \/ m = MSetDefaultHook a \/ m = MSetRequiredHook a ->
  (accepted A st (EvExec e i m Q) = true <-> Some (i_sender i) = reported_owner st /\ valid A a).
Proof.
  intros H Hm. destruct st; try discriminate H.
  destruct Hm as [->|[->| ->]]; (apply setting_accepted; reflexivity).
Qed.
