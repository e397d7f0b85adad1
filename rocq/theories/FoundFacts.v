(** * Proofs about creation events and version records (PropsFound.v). *)
From Coq Require Import List NArith Bool Lia.
From Verif Require Import Base BaseFacts OMap Coins Message Bech32 Chain Ownable Router Mailbox Va Isms Hooks Igp Warp Cw20 Contracts Utils
  Spec SpecModules SpecWorld SpecVersion World SpecBridge Events SpecEvents SpecInit SpecRoute Found SpecFound
  StepFacts AccessFacts MailboxFacts AcceptFacts MigrateFacts VersionFacts InitFacts HookFacts EventFacts EventLedger VaFacts WarpFacts QueryFacts WorldFacts WorldRoute.
Import ListNotations.

Lemma founded A q e i m st0 r : c_instantiate A q e i m = Ok (st0, r) -> starts_as q (e_contract e) m st0 r /\ acceptable A q m.
Proof. intros H. split; [exact (starts A q e i m st0 r H)|]. apply (accepted A q e i m). eauto. Qed.

Lemma owner_founded A q e i name m st0 r h o :
  c_instantiate A q e i m = Ok (st0, r) -> asked_owner m = Some o -> (forall x, m <> IMultisig x) ->
  said_first (s "owner") (i_events q e i name m) = Some o /\
  let seen := fold_left watch_owner (emitted A st0 h) (o, None) in
  reported_owner (c_run A st0 h) = Some (fst seen) /\ reported_pending (c_run A st0 h) = snd seen.
Proof.
  intros H Ho Hm. apply founded in H as [(H1 & H2 & _) _]. split.
  - destruct m; cbn [asked_owner] in Ho; try discriminate Ho; apply Some_inj in Ho; subst;
      try (exfalso; now eapply Hm); try reflexivity; match goal with |- context [match ?t with _ => _ end] => destruct t; reflexivity end.
  - rewrite Ho in H1. exact (owner_told A st0 h o None H1 H2).
Qed.

Lemma native_token_watched A st h :
  is_warp_native st ->
  reported_token (c_run A st h)
  = fold_left (watch_text (s "hpl_warp_native::reply-init") (s "denom")) (emitted A st h) (reported_token st).
Proof.
  intros Hk. apply (watch_history _ reported_token is_warp_native); [exact Hk|keep_kind|].
  clear. intros st ev Hk Ha. destruct st as [ | | | | | | | | | | | | | | |x| |]; try contradiction Hk.
  destruct ev as [e i m Q|id rr].
  - destruct (warp_fixed_step A (SWarpNative x) (EvExec e i m Q) I) as (_ & _ & _ & ->); [|discriminate].
    destruct m; no_such_event.
  - apply c_step_accepted in Ha as [r H]. cbn [c_apply c_reply] in H. unfold lift in H.
    apply bind_Ok_inv in H as ([x' r'] & H & E). apply Ok_inj in E. injection E as E _. rewrite <- E.
    unfold wn_reply in H. destruct rr as [[]| |]; try discriminate H.
    destruct (_ =? _); [|discriminate H]. apply Ok_inj in H. injection H as <- _.
    rewrite !(proj1 (wtoken_of _)). reflexivity.
Qed.

Lemma cw20_token_watched A st h :
  is_warp_cw20 st ->
  reported_token (c_run A st h)
  = fold_left (watch_text (s "hpl_warp_cw20::reply-init") (s "new_token")) (emitted A st h) (reported_token st).
Proof.
  intros Hk. apply (watch_history _ reported_token is_warp_cw20); [exact Hk|keep_kind|].
  clear. intros st ev Hk Ha. destruct st as [ | | | | | | | | | | | | | | | |x|]; try contradiction Hk.
  destruct ev as [e i m Q|id rr].
  - destruct (warp_fixed_step A (SWarpCw20 x) (EvExec e i m Q) I) as (_ & _ & _ & ->); [|discriminate].
    destruct m; no_such_event.
  - apply c_step_accepted in Ha as [r H]. cbn [c_apply c_reply] in H. unfold lift in H.
    apply bind_Ok_inv in H as ([x' r'] & H & E). apply Ok_inj in E. injection E as E _. rewrite <- E.
    unfold wc_reply in H. destruct (_ =? _); [|discriminate H]. destruct rr as [[]| |]; try discriminate H.
    apply bind_Ok_inv in H as (a' & H1 & H). apply addr_validate_iff in H1 as [_ H1]. apply Ok_inj in H. injection H as <- _.
    rewrite !(proj2 (wtoken_of _)), H1. reflexivity.
Qed.

Lemma kind_founded A q e i m st0 r :
  c_instantiate A q e i m = Ok (st0, r) ->
  match m, st0 with
  | IMailbox _ _ _, SMailbox _ | IVa _, SVa _ | IMultisig _, SMultisig _ | IAggIsm _ _ _, SAggIsm _
  | IRoutingIsm _ _, SRoutingIsm _ | IPausableIsm _ _, SPausableIsm _ | IMerkle _, SMerkle _
  | IAggHook _ _, SAggHook _ | IPausableHook _ _, SPausableHook _ | IRoutingHook _, SRoutingHook _
  | ICustomHook _, SCustomHook _ | IFallbackHook _, SFallbackHook _ | IFeeHook _ _, SFeeHook _
  | IOracle _, SOracle _ | IIgp _ _ _ _ _, SIgp _ | IWarpNative _ _ _ _, SWarpNative _
  | IWarpCw20 _ _ _ _, SWarpCw20 _ | ICw20 _ _, SCw20 _ => True
  | _, _ => False
  end.
Proof.
  unfold c_instantiate. intros H. apply bind_Ok_inv in H as (u & _ & H).
  destruct m; unfold lift in H; apply bind_Ok_inv in H as (y & _ & H);
    try destruct y as [y o]; apply Ok_inj in H; injection H as <- _; exact I.
Qed.

Lemma everything_known A q e i name m st0 r h :
  c_instantiate A q e i m = Ok (st0, r) -> knows A m (i_events q e i name m) (emitted A st0 h) (c_run A st0 h).
Proof.
  intros H. pose proof (kind_founded A q e i m st0 r H) as K. apply founded in H as [(_ & _ & S & _) V].
  destruct m; cbv zeta beta iota delta [knows]; destruct st0; try contradiction K; try exact I.
  - destruct S as (_ & _ & _ & _ & S5 & S6 & S7 & _). pose proof (mailbox_told A (SMailbox x) h eq_refl) as M. rewrite S5, S6, S7 in M. exact M.
  - destruct S as ((raw & S1 & S2) & (d & S3 & S4) & _).
    destruct (va_frame A (SVa x) h I) as [-> ->]. split.
    + exists mailbox, raw. auto.
    + rewrite S4. cbn [i_events said_first]. rewrite S3.
      destruct V as (_ & _ & d' & V1 & V2). rewrite S3 in V1. injection V1 as <-.
      change (Some d = Some (decimal (dec d))). f_equal. symmetry. apply dec_read. eapply N.lt_trans; [exact V2|]. reflexivity.
  - destruct S as [S _]. rewrite hook_mailbox_fixed. exact S.
  - intros P. rewrite (hooks_told A (SAggHook x) h I P), S. f_equal.
    cbn [i_events init_event said_first]. change (Some hooks = Some (items (commas hooks))). f_equal. symmetry. apply items_commas.
    destruct V as [_ V]. eapply Forall_impl; [|exact V]. intros a Ha. exact (P a Ha).
  - rewrite (fallback_told A (SFallbackHook x) h I). now rewrite (proj2 S).
  - exists (c_denom fee), (dec (c_amount fee)). split; [reflexivity|]. split; [reflexivity|].
    rewrite (fee_told A (SFeeHook x) h I), S. rewrite dec_read; [destruct fee; reflexivity|].
    destruct V as [_ V]. eapply N.lt_trans; [exact V|]. reflexivity.
  - destruct S as (_ & _ & S3 & S4 & _). rewrite (beneficiary_told A (SIgp x) h I), (default_gas_told A (SIgp x) h I), S3, S4.
    split; [reflexivity|]. f_equal. destruct V as (_ & _ & _ & V). 
    change (Some gas = Some (decimal (dec gas))). f_equal. symmetry. apply dec_read.
    eapply N.lt_trans; [exact V|]. reflexivity.
  - destruct (warp_fixed A (SWarpNative x) h I) as (_ & _ & ->). rewrite native_token_watched by exact I.
    destruct t; destruct S as (_ & S1 & S2); rewrite S1, S2; [right|left]; auto.
  - destruct (warp_fixed A (SWarpCw20 x) h I) as (_ & _ & ->). rewrite cw20_token_watched by exact I.
    destruct t; destruct S as (_ & S1 & S2); rewrite S1, S2; [right|left]; auto.
Qed.

Lemma routes_founded A q e i m st0 r h us d :
  c_instantiate A q e i m = Ok (st0, r) -> has_routes m = true -> d < 2 ^ 32 ->
  Forall2 (route_event (hex_routes st0)) (filter about_routes (emitted A st0 h)) us ->
  Forall (Forall (fun r => rs_domain r < 2 ^ 32)) us ->
  reported_route (c_run A st0 h) d = Some (last_update d (concat us) None).
Proof.
  intros H Hm Hd F1 F2. apply founded in H as [(_ & _ & S & _) _].
  refine (routes_replayed A st0 h us d None Hd _ F1 F2).
  destruct m; try discriminate Hm; cbv beta iota in S.
  - exact (S d Hd).
  - exact (proj1 S d Hd).
  - exact (proj1 S d Hd).
  - destruct S as (_ & _ & _ & _ & _ & S). exact (S d Hd).
  - destruct t; destruct S as ((S & _) & _); exact (S d Hd).
  - destruct t; destruct S as ((S & _) & _); exact (S d Hd).
Qed.

Lemma modules_founded A q e i name o l t st0 r :
  c_instantiate A q e i (IAggIsm o l t) = Ok (st0, r) -> plain_addresses A ->
  exists x y, said_first (s "isms") (i_events q e i name (IAggIsm o l t)) = Some x /\
    said_first (s "threshold") (i_events q e i name (IAggIsm o l t)) = Some y /\
    reported_modules st0 = Some (items x, decimal y).
Proof.
  intros H P. apply founded in H as [(_ & _ & S & _) (_ & V1 & V2)].
  exists (commas l), (dec t). split; [reflexivity|]. split; [reflexivity|]. rewrite S. f_equal. f_equal; symmetry.
  - apply items_commas. eapply Forall_impl; [|exact V1]. intros a Ha. exact (P a Ha).
  - apply dec_read. eapply N.lt_trans; [exact V2|]. reflexivity.
Qed.

(** on the chain *)
Lemma denom_told C w a st name :
  chain_ok C -> reachable C w -> contract_at w a st -> is_warp st ->
  is_warp_native st \/ reported_mode st = Some Collateral ->
  exists e i q m r, births_at a (w_log w) = [(e, i, q, m, r)] /\
    said_first (s "denom") (i_events q e i name m) = reported_token st.
Proof.
  intros HC HR Hat Hw Hk.
  destruct (token_of_route C w a st HC HR Hat Hw) as (e & i & q & m & r & tk & B & T & O).
  destruct (chain_history C w a st HR Hat) as (e1 & i1 & q1 & m1 & r1 & st0 & B1 & E1 & I1 & _ & R1).
  rewrite B in B1. injection B1 as <- <- <- <- <-.
  exists e, i, q, m, r. split; [exact B|]. rewrite T.
  pose proof (kind_founded _ _ _ _ _ _ _ I1) as K. apply founded in I1 as [(_ & _ & S & _) _].
  assert (Kst : kind st = kind st0) by (rewrite R1; apply run_kind).
  assert (Md : is_warp st0 -> reported_mode st = reported_mode st0)
    by (intros W; rewrite R1; exact (proj2 (proj2 (warp_fixed _ st0 _ W)))).
  destruct m; cbn [own_token] in O; try contradiction O; destruct st0; try contradiction K.
  - destruct t; [destruct O as [O _]|]; subst tk; [rewrite <- E1|]; reflexivity.
  - destruct Hk as [Hk|Hk]; [destruct st; try contradiction Hk; discriminate Kst|]. rewrite (Md I) in Hk.
    destruct t; [|subst tk; reflexivity].
    destruct S as (_ & S1 & _). rewrite S1 in Hk. discriminate Hk.
Qed.

(** ** Version records *)
Lemma code_names m m' n : code_name m = Some n -> code_name m' = Some n -> same_program m m' = true.
Proof. destruct m, m'; intros H H'; try reflexivity; rewrite <- H in H'; vm_compute in H'; congruence. Qed.
Lemma code_names_same m m' : same_program m m' = true -> code_name m = code_name m'.
Proof. destruct m, m'; intros H; try discriminate H; reflexivity. Qed.

Lemma no_switch m m' c : version_record m = Some c -> forall c', migrate_to m' c <> Ok c'.
Proof.
  unfold version_record, migrate_to. destruct (code_name m) as [n|] eqn:E; [|discriminate].
  cbn [option_map]. intros H c' H'. apply Some_inj in H. subst c.
  destruct (code_name m') as [n'|] eqn:E'; [|discriminate H'].
  apply migrate_exactly in H' as (st & old & new & H1 & _ & H3 & H4 & H5 & _). apply Some_inj in H1. subst st.
  cbn [cv_version] in H3.
  apply (proj2 (supersedes_strict (mkCw2 n code_version) (mkCw2 n code_version) (mkCw2 n code_version))).
  exists old, new. auto.
Qed.

Lemma never_switched m m' c l d c' :
  version_record m = Some c -> In d (c :: migrations (Some c) l) ->
  code_name m = Some (cv_contract d) /\ migrate_to m' d <> Ok c'.
Proof.
  intros H Hin. unfold version_record in H. destruct (code_name m) as [n|] eqn:E; [|discriminate H].
  cbn [option_map] in H. apply Some_inj in H. subst c.
  destruct (migrations_supersede (mkCw2 n code_version) l) as [M1 M2].
  assert (Hn : cv_contract d = n).
  { destruct Hin as [<-|Hin]; [reflexivity|]. rewrite Forall_forall in M2. exact (M2 d Hin). }
  split; [now rewrite Hn|]. intros H. unfold migrate_to in H. destruct (code_name m') as [n'|] eqn:E'; [|discriminate H].
  apply migrate_exactly in H as (st & old & new & H1 & _ & H3 & H4 & H5 & _). apply Some_inj in H1. subst st.
  assert (S : supersedes (mkCw2 n code_version) d) by (exists old, new; auto).
  destruct Hin as [<-|Hin].
  - exact (proj2 (supersedes_strict _ (mkCw2 n code_version) (mkCw2 n code_version)) S).
  - inversion_clear M1 as [|? ? _ F]. rewrite Forall_forall in F. specialize (F d Hin).
    exact (proj2 (supersedes_strict _ d d) (proj1 (supersedes_strict d (mkCw2 n code_version) d) S F)).
Qed.

Lemma upgraded m c c' :
  migrate_to m c = Ok c' <->
  exists n, code_name m = Some n /\ cv_contract c = n /\ c' = mkCw2 n code_version /\ supersedes c' c.
Proof.
  unfold migrate_to. destruct (code_name m) as [n|]; [|split; [discriminate|intros (n & H & _); discriminate H]].
  rewrite migrate_exactly. split.
  - intros (st & old & new & H1 & H2 & H3 & H4 & H5 & H6). apply Some_inj in H1. subst st c'.
    exists n. repeat split; auto. exists old, new. auto.
  - intros (n' & H1 & H2 & -> & old & new & H3 & H4 & H5). apply Some_inj in H1. subst n'.
    exists c, old, new. cbn [cv_version] in H4. repeat split; auto.
Qed.
