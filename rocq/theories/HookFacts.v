(** * Hooks. *)
From Coq Require Import List NArith Lia Bool.
From Verif Require Import Base BaseFacts OMap Hex HexFacts Coins CoinsFacts Crypto Message Metadata CodecFacts Bech32
  Chain Ownable Router Mailbox Va Isms Hooks Igp Warp Cw20 Contracts Spec SpecModules StepFacts AccessFacts
  PagingFacts MailboxConfFacts MailboxFacts IsmFacts.
Import ListNotations.

Ltac keep_kind :=
  let H := fresh in let K := fresh in
  intros ? ? H;
  match goal with |- _ (c_step ?A ?st ?ev) => pose proof (step_kind A ev st) as K end;
  match goal with st : cstate |- _ => destruct st; try contradiction H end;
  match goal with |- _ (c_step ?A ?st ?ev) =>
    destruct (c_step A st ev); try discriminate K; exact I end.

Lemma exec_ok_inv A Q e i m st st' r :
  c_execute A Q e i m st = Ok (st', r) -> emsg_ok m = true.
Proof. unfold c_execute. intros H. apply bind_Ok_inv in H as (u & H & _). now apply ensure_Ok_inv in H. Qed.

(** ** Aggregate hook *)
Lemma agg_hooks_of st l : reported_hooks st = Some l -> exists x, st = SAggHook x /\ ah_hooks x = l.
Proof. destruct st; try discriminate. intros H. cbn in H. apply Some_inj in H. eauto. Qed.

Lemma agg_quote_spec q md raw hooks acc total :
  coins_wf acc ->
  foldM (fun acc h => f <- quote_dispatch q h md raw ;; foldM coins_add f acc) hooks acc = Ok total ->
  exists fees, quotes q md raw hooks fees /\ coins_wf total /\
    forall d, cget d total = cget d acc + amount_of d (concat fees).
Proof.
  revert acc. induction hooks as [|h hooks IH]; intros acc Hw H; cbn [foldM] in H.
  - apply Ok_inj in H. subst total. exists []. split; [constructor|]. split; [exact Hw|].
    intros d. cbn. lia.
  - apply bind_Ok_inv in H as (acc' & H1 & H). apply bind_Ok_inv in H1 as (f & H1 & H2).
    apply quote_inv in H1 as [H1 H1']. apply coins_add_all_spec in H2 as [W2 G2]; [|exact Hw].
    apply IH in H as (fees & F1 & F2 & F3); [|exact W2].
    exists (f :: fees). split; [constructor; [split; [exact H1|exact H1']|exact F1]|]. split; [exact F2|].
    intros d. rewrite F3, G2. cbn [concat]. rewrite amount_of_app. lia.
Qed.

Lemma coins_add_ok m c :
  coins_wf m -> cget (c_denom c) m + c_amount c < u128_max -> exists m', coins_add m c = Ok m'.
Proof.
  intros Hw H. unfold coins_add, cget in *. destruct (c_amount c =? 0); [eauto|].
  destruct (om_get (c_denom c) m) as [a|]; [|eauto].
  rewrite (proj2 (N.ltb_lt _ _) H). eauto.
Qed.

Lemma coins_add_all_ok l m :
  coins_wf m -> (forall d, cget d m + amount_of d l < u128_max) -> exists m', foldM coins_add l m = Ok m'.
Proof.
  revert m. induction l as [|c l IH]; cbn [foldM]; intros m Hw H; [eauto|].
  destruct (coins_add_ok m c Hw) as [m1 E1].
  { specialize (H (c_denom c)). rewrite amount_of_cons, bytes_eqb_refl in H. lia. }
  rewrite E1. cbn [bind]. destruct (coins_add_spec _ _ _ Hw E1) as [W1 G1].
  apply IH; [exact W1|]. intros d. rewrite G1. specialize (H d). rewrite amount_of_cons in H. lia.
Qed.

Lemma agg_quote_ok q md raw hooks fees acc :
  coins_wf acc -> quotes q md raw hooks fees ->
  (forall d, cget d acc + amount_of d (concat fees) < u128_max) ->
  exists total,
  foldM (fun acc h => f <- quote_dispatch q h md raw ;; foldM coins_add f acc) hooks acc = Ok total.
Proof.
  intros Hw Hq. revert acc Hw. induction Hq as [|h f hooks fees [H1 H2] Hq IH]; intros acc Hw Hlt; cbn [foldM]; [eauto|].
  assert (E : quote_dispatch q h md raw = Ok f) by (apply quote_inv; auto). rewrite E. cbn [bind].
  cbn [concat] in Hlt.
  destruct (coins_add_all_ok f acc Hw) as [acc' Ea].
  { intros d. specialize (Hlt d). rewrite amount_of_app in Hlt. lia. }
  rewrite Ea. cbn [bind]. destruct (coins_add_all_spec _ _ _ Hw Ea) as [W1 G1].
  apply IH; [exact W1|]. intros d. rewrite G1. specialize (Hlt d). rewrite amount_of_app in Hlt. lia.
Qed.

Lemma aggregate_quote A q md raw st hooks total :
  reported_hooks st = Some hooks ->
  c_query A q (QHookQuote md raw) st = Ok (RFees total) ->
  exists fees, quotes q md raw hooks fees /\
    (forall d, amount_of d total = amount_of d (concat fees)) /\
    no_repeats total /\ Forall (fun c => c_amount c <> 0) total.
Proof.
  intros Hh H. apply agg_hooks_of in Hh as (x & -> & <-).
  unfold c_query in H. cbn [qmsg_ok ensure bind ah_query] in H.
  apply bind_Ok_inv in H as (f & H & E). apply Ok_inj in E. injection E as ->.
  unfold ah_quote in H. apply bind_Ok_inv in H as (t & H & E). apply Ok_inj in E. subst total.
  apply agg_quote_spec in H as (fees & F1 & F2 & F3); [|apply coins_wf_nil].
  exists fees. split; [exact F1|]. split; [|split].
  - intros d. rewrite amount_to_vec by apply F2. rewrite F3. reflexivity.
  - apply to_vec_no_repeats. apply F2.
  - apply Forall_forall. intros c Hc. unfold coins_to_vec in Hc. apply in_map_iff in Hc as (p & <- & Hp).
    destruct F2 as [_ F2]. rewrite Forall_forall in F2. cbn. now apply F2.
Qed.

Lemma aggregate_quote_total A q md raw st hooks fees :
  reported_hooks st = Some hooks -> quotes q md raw hooks fees ->
  (forall d, amount_of d (concat fees) < 2 ^ 128) ->
  exists total, c_query A q (QHookQuote md raw) st = Ok (RFees total).
Proof.
  intros Hh Hq Hlt. apply agg_hooks_of in Hh as (x & -> & <-).
  unfold c_query. cbn [qmsg_ok ensure bind ah_query]. unfold ah_quote.
  destruct (agg_quote_ok q md raw (ah_hooks x) fees []) as [total E]; auto using coins_wf_nil.
  rewrite E. cbn [bind]. eauto.
Qed.

Lemma agg_calls q md raw hooks msgs :
  mapM (fun h => f <- quote_dispatch q h md raw ;; Ok (post_dispatch h md raw f)) hooks = Ok msgs <->
  exists fees, quotes q md raw hooks fees /\
    msgs = map (fun p => CExec (fst p) (MPostDispatch md raw) (snd p)) (combine hooks fees).
Proof.
  revert msgs. induction hooks as [|h hooks IH]; intros msgs; cbn [mapM]; split.
  - intros H. apply Ok_inj in H. subst. exists []. split; [constructor|reflexivity].
  - intros (fees & Hq & ->). reflexivity.
  - intros H. apply bind_Ok_inv in H as (c & H1 & H). apply bind_Ok_inv in H1 as (f & H1 & H2).
    apply Ok_inj in H2. subst c. apply bind_Ok_inv in H as (l & H2 & H). apply Ok_inj in H. subst msgs.
    apply IH in H2 as (fees & Hq & ->). apply quote_inv in H1.
    exists (f :: fees). split; [constructor; auto|reflexivity].
  - intros (fees & Hq & ->). inversion Hq as [|? f ? fees' Hf Hq']; subst.
    assert (E : quote_dispatch q h md raw = Ok f) by (apply quote_inv; apply Hf). rewrite E. cbn [bind].
    rewrite (proj2 (IH _) (ex_intro _ fees' (conj Hq' eq_refl))). reflexivity.
Qed.

Lemma aggregate_calls A Q e i md raw st hooks st' r :
  reported_hooks st = Some hooks ->
  (c_execute A Q e i (MPostDispatch md raw) st = Ok (st', r) <->
   exists fees m, msg_decode raw = Ok m /\ quotes (Q st) md raw hooks fees /\ st' = st /\
     r = mkResp (map (fun p => hook_call md raw (fst p) (snd p)) (combine hooks fees)) None).
Proof.
  intros Hh. apply agg_hooks_of in Hh as (x & -> & <-).
  unfold c_execute, lift. cbn [emsg_ok ensure bind ah_execute]. unfold ah_post_dispatch. split.
  - intros H. apply bind_Ok_inv in H as ([x' r'] & H & E). apply Ok_inj, pair_equal_spec in E as [<- <-].
    apply bind_Ok_inv in H as (msgs & H1 & H). apply bind_Ok_inv in H as (m & H2 & H).
    apply Ok_inj, pair_equal_spec in H as [<- <-]. apply agg_calls in H1 as (fees & Hq & ->).
    exists fees, m. repeat (split; [assumption || reflexivity|]).
    unfold resp. now rewrite map_map.
  - intros (fees & m & Hd & Hq & -> & ->).
    rewrite (proj2 (agg_calls _ _ _ _ _) (ex_intro _ fees (conj Hq eq_refl))). cbn [bind].
    rewrite Hd. cbn [bind]. unfold resp. now rewrite map_map.
Qed.

Lemma quotes_unique q md raw hooks f1 f2 :
  quotes q md raw hooks f1 -> quotes q md raw hooks f2 -> f1 = f2.
Proof.
  intros H1. revert f2. induction H1 as [|h f hooks fees [E _] H1 IH]; intros f2 H2; inversion H2; subst.
  - reflexivity.
  - match goal with H : _ /\ _ |- _ => destruct H as [E' _] end.
    rewrite E in E'. apply Ok_inj in E'. injection E' as <-. f_equal. now apply IH.
Qed.

(** ** Routing hooks *)
Lemma decode_dest raw m : msg_decode raw = Ok m -> m_dest m < u32_max.
Proof. intros H. apply msg_decode_Ok_inv in H. unfold msg_wf in H. tauto. Qed.

Lemma reported_custom_of x d r : d < u32_max ->
  reported_custom (SCustomHook x) d r = om_get (d, r) (cu_hooks x).
Proof.
  intros Hd. unfold reported_custom, reported_hook, c_query. cbn [qmsg_ok].
  rewrite (u32_lt_ok d Hd). cbn [ensure bind cu_query]. rewrite hex_decode_encode. cbn [bind].
  now destruct (om_get (d, r) (cu_hooks x)).
Qed.

Lemma reported_custom_none st d r : ~ is_custom_hook st -> reported_custom st d r = None.
Proof.
  intros H. unfold reported_custom, reported_hook, c_query. cbn [qmsg_ok].
  destruct (u32_ok d); [|reflexivity]. cbn [ensure bind].
  destruct st; try reflexivity. now destruct H.
Qed.

(** the hook a routing contract picks *)
Definition pick (st : cstate) (raw : bytes) : res addr :=
  match st with
  | SRoutingHook x => rh_route raw x
  | SCustomHook x => cu_route raw x
  | SFallbackHook x => fb_route raw x
  | _ => Err EParse
  end.

Lemma pick_iff st raw h :
  is_router_hook st -> (is_fallback_hook st -> fallback_of st <> None) ->
  (pick st raw = Ok h <-> exists m, msg_decode raw = Ok m /\ selected_hook st m = Some h).
Proof.
  intros Hk Hf. split.
  - intros H. assert (Hd : exists m, msg_decode raw = Ok m).
    { destruct st; try discriminate H; cbn [pick] in H; unfold rh_route, cu_route, fb_route in H;
        apply bind_Ok_inv in H as (m & H & _); eauto. }
    destruct Hd as [m Hd]. exists m. split; [exact Hd|]. pose proof (decode_dest _ _ Hd) as Hm.
    unfold selected_hook. destruct st; try contradiction Hk; cbn [pick] in H.
    + rewrite reported_custom_none by (intros []). rewrite reported_route_of by exact Hm.
      cbn [routes_of option_map]. unfold rh_route in H. rewrite Hd in H. cbn [bind] in H.
      destruct (rs_route _); [|discriminate]. now apply Ok_inj in H as ->.
    + rewrite reported_custom_of, reported_route_of by exact Hm. cbn [routes_of option_map].
      unfold cu_route in H. rewrite Hd in H. cbn [bind] in H.
      destruct (om_get _ _); [now apply Ok_inj in H as ->|].
      destruct (rs_route _); [|discriminate]. now apply Ok_inj in H as ->.
    + rewrite reported_custom_none by (intros []). rewrite reported_route_of by exact Hm.
      cbn [routes_of option_map fallback_of]. unfold fb_route in H. rewrite Hd in H. cbn [bind] in H.
      destruct (fb_fallback x); [|discriminate]. cbn [ok_or bind] in H. apply Ok_inj in H.
      destruct (rs_route _); now subst h.
  - intros (m & Hd & H). pose proof (decode_dest _ _ Hd) as Hm. unfold selected_hook in H.
    destruct st; try contradiction Hk; cbn [pick].
    + rewrite reported_custom_none in H by (intros []). rewrite reported_route_of in H by exact Hm.
      cbn [routes_of option_map] in H. unfold rh_route. rewrite Hd. cbn [bind].
      destruct (rs_route _); [|discriminate]. now apply Some_inj in H as ->.
    + rewrite reported_custom_of, reported_route_of in H by exact Hm. cbn [routes_of option_map] in H.
      unfold cu_route. rewrite Hd. cbn [bind].
      destruct (om_get _ _); [now apply Some_inj in H as ->|].
      destruct (rs_route _); [|discriminate]. now apply Some_inj in H as ->.
    + rewrite reported_custom_none in H by (intros []). rewrite reported_route_of in H by exact Hm.
      cbn [routes_of option_map fallback_of] in H. unfold fb_route. rewrite Hd. cbn [bind].
      specialize (Hf I). cbn [fallback_of] in Hf. destruct (fb_fallback x) as [f|]; [|congruence].
      cbn [ok_or bind]. destruct (rs_route _); apply Some_inj in H; now subst h.
Qed.

Lemma router_call_pick A Q e i md raw st st' r :
  is_router_hook st ->
  (c_execute A Q e i (MPostDispatch md raw) st = Ok (st', r) <->
   exists h, pick st raw = Ok h /\ st' = st /\ r = mkResp [hook_call md raw h []] None).
Proof.
  intros Hk. unfold c_execute, lift. cbn [emsg_ok ensure bind].
  destruct st; try contradiction Hk; cbn [rh_execute cu_execute fb_execute pick]; split;
    (intros H; apply bind_Ok_inv in H as ([x' r'] & H & E); apply bind_Ok_inv in H as (h & H1 & H);
       apply Ok_inj, pair_equal_spec in E as [<- <-]; apply Ok_inj, pair_equal_spec in H as [<- <-];
       exists h; auto)
    || (intros (h & H1 & -> & ->); rewrite H1; reflexivity).
Qed.

Lemma router_quote_pick A q md raw st f :
  is_router_hook st ->
  (c_query A q (QHookQuote md raw) st = Ok (RFees f) <->
   exists h, pick st raw = Ok h /\ q_smart q h (QHookQuote md raw) = Ok (RFees f) /\
     Forall (fun c => c_amount c < u128_max) f).
Proof.
  intros Hk. unfold c_query. cbn [qmsg_ok ensure bind].
  destruct st; try contradiction Hk; cbn [rh_query cu_query fb_query pick]; split;
    (intros H; apply bind_Ok_inv in H as (h & H1 & H); apply bind_Ok_inv in H as (f' & H2 & H);
       apply Ok_inj in H; injection H as ->; apply quote_inv in H2; eauto)
    || (intros (h & H1 & H2); rewrite H1; cbn [bind]; apply quote_inv in H2; rewrite H2; reflexivity).
Qed.

Lemma routing_calls A Q e i md raw st st' r :
  is_router_hook st -> (is_fallback_hook st -> fallback_of st <> None) ->
  (c_execute A Q e i (MPostDispatch md raw) st = Ok (st', r) <->
   exists m h, msg_decode raw = Ok m /\ selected_hook st m = Some h /\
     st' = st /\ r = mkResp [hook_call md raw h []] None).
Proof.
  intros Hk Hf. rewrite router_call_pick by exact Hk. split.
  - intros (h & H & H1). apply pick_iff in H as (m & Hd & H); [|exact Hk|exact Hf]. exists m, h. tauto.
  - intros (m & h & Hd & H & H1). exists h. split; [|exact H1]. apply pick_iff; eauto.
Qed.

Lemma routing_quotes A q md raw st f :
  is_router_hook st -> (is_fallback_hook st -> fallback_of st <> None) ->
  (c_query A q (QHookQuote md raw) st = Ok (RFees f) <->
   exists m h, msg_decode raw = Ok m /\ selected_hook st m = Some h /\
     q_smart q h (QHookQuote md raw) = Ok (RFees f) /\ Forall (fun c => c_amount c < 2 ^ 128) f).
Proof.
  intros Hk Hf. rewrite router_quote_pick by exact Hk. split.
  - intros (h & H & H1). apply pick_iff in H as (m & Hd & H); [|exact Hk|exact Hf]. exists m, h. tauto.
  - intros (m & h & Hd & H & H1). exists h. split; [|exact H1]. apply pick_iff; eauto.
Qed.

Lemma fallback_unset st A Q e i md raw :
  is_fallback_hook st -> fallback_of st = None ->
  is_ok (c_execute A Q e i (MPostDispatch md raw) st) = false.
Proof.
  intros Hk Hf. destruct st; try contradiction Hk. cbn [fallback_of] in Hf.
  unfold c_execute, lift. cbn [emsg_ok ensure bind fb_execute]. unfold fb_route. rewrite Hf.
  destruct (msg_decode raw); reflexivity.
Qed.

Lemma never_forwards A Q e i md raw st st' r :
  is_router_hook st -> c_execute A Q e i (MPostDispatch md raw) st = Ok (st', r) ->
  exists h, r_msgs r = [hook_call md raw h []].
Proof.
  intros Hk H. apply router_call_pick in H as (h & _ & _ & ->); [|exact Hk]. exists h. reflexivity.
Qed.

(** ** Settings along histories *)
Lemma cu_names_key (d : N) (r : bytes) (d' : N) (r' : bytes) :
  keqb (d, r) (d', r') = ((d' =? d) && bytes_eqb r' r)%bool.
Proof.
  destruct ((d' =? d) && bytes_eqb r' r)%bool eqn:E.
  - apply andb_true_iff in E as [E1 E2]. apply N.eqb_eq in E1. apply bytes_eqb_eq in E2. subst. apply keqb_refl.
  - apply keqb_neq. intros H. apply pair_equal_spec in H as [-> ->].
    now rewrite N.eqb_refl, bytes_eqb_refl in E.
Qed.

Definition names (d : N) (r : bytes) (d' : N) (r' : str) : bool :=
  ((d' =? d) && match hex_decode r' with Ok v => bytes_eqb v r | _ => false end)%bool.

Lemma register_all A l m m' d r :
  foldM (cu_register1 A) l m = Ok m' ->
  om_get (d, r) m' =
  fold_left (fun acc c => if names d r (ch_dest c) (ch_recipient c) then Some (ch_hook c) else acc) l
    (om_get (d, r) m).
Proof.
  revert m. induction l as [|c l IH]; intros m H; cbn [foldM] in H.
  - apply Ok_inj in H. now subst.
  - apply bind_Ok_inv in H as (m1 & H1 & H). apply IH in H. rewrite H. cbn [fold_left]. f_equal.
    unfold cu_register1 in H1. apply bind_Ok_inv in H1 as (v & V & H1). apply bind_Ok_inv in H1 as (u & _ & H1).
    apply bind_Ok_inv in H1 as (a & Ha & H1). apply Ok_inj in H1. subst m1.
    apply addr_validate_iff in Ha as [_ ->]. rewrite om_get_set, cu_names_key. unfold names. now rewrite V.
Qed.

Lemma clear_all l (m m' : omap (N * bytes) addr) d r :
  foldM (fun m p => v <- hex_decode (snd p) ;; Ok (om_del (fst p, v) m)) l m = Ok m' ->
  om_get (d, r) m' = if existsb (fun p => names d r (fst p) (snd p)) l then None else om_get (d, r) m.
Proof.
  revert m. induction l as [|p l IH]; intros m H; cbn [foldM] in H.
  - apply Ok_inj in H. now subst.
  - apply bind_Ok_inv in H as (m1 & H1 & H). apply IH in H. rewrite H. cbn [existsb].
    apply bind_Ok_inv in H1 as (v & V & H1). apply Ok_inj in H1. subst m1.
    rewrite om_get_del, cu_names_key. unfold names at 2. rewrite V.
    destruct ((fst p =? d) && bytes_eqb v r)%bool; cbn [orb]; [|reflexivity].
    now destruct (existsb _ l).
Qed.

Ltac open_exec Ha x' r' H :=
  match type of Ha with c_apply _ ?ev _ = _ => destruct ev as [e i m Q|]; [|discriminate Ha] end;
  cbn [c_apply] in Ha; unfold c_execute, lift in Ha;
  let u := fresh in let E := fresh "E" in
  apply bind_Ok_inv in Ha as (u & _ & Ha); apply bind_Ok_inv in Ha as ([x' r'] & H & E);
  apply Ok_inj, pair_equal_spec in E as [E _]; rewrite <- E; clear E.

Lemma custom_last_set A st h d r :
  is_custom_hook st -> d < 2 ^ 32 ->
  reported_custom (c_run A st h) d r = replay (custom_update d r) A st h (reported_custom st d r).
Proof.
  intros Hm Hd.
  apply (replay_run (custom_update d r) (fun st => reported_custom st d r) is_custom_hook); [keep_kind| |exact Hm].
  clear Hm h st. intros st ev Hm Ha. apply c_step_accepted in Ha as [r0 Ha].
  destruct st; try contradiction Hm. open_exec Ha x' r' H.
  rewrite !reported_custom_of by exact Hd. cbn [ev_msg].
  destruct m; try discriminate H; cbn [cu_execute] in H; unfold cu_register, cu_clear in H; inv_all;
    try reflexivity; cbn [cu_hooks custom_update]; fold (names d r).
  - match goal with Hf : foldM _ _ _ = Ok _ |- _ => exact (register_all _ _ _ _ d r Hf) end.
  - match goal with Hf : foldM _ _ _ = Ok _ |- _ => exact (register_all _ _ _ _ d r Hf) end.
  - match goal with Hf : foldM _ _ _ = Ok _ |- _ => apply (clear_all _ _ _ d r) in Hf; rewrite Hf end.
    cbn [existsb fst snd]. now rewrite orb_false_r.
  - match goal with Hf : foldM _ _ _ = Ok _ |- _ => exact (clear_all _ _ _ d r Hf) end.
Qed.

Lemma custom_initial A q e i o st0 r0 d r :
  c_instantiate A q e i (ICustomHook o) = Ok (st0, r0) -> d < 2 ^ 32 -> reported_custom st0 d r = None.
Proof.
  intros H Hd. unfold c_instantiate, lift, cu_instantiate in H. inv_all.
  now rewrite reported_custom_of.
Qed.

Lemma fallback_last_set A st h :
  is_fallback_hook st ->
  fallback_of (c_run A st h) = replay fallback_update A st h (fallback_of st).
Proof.
  intros Hm. apply (replay_run fallback_update fallback_of is_fallback_hook); [keep_kind| |exact Hm].
  clear Hm h st. intros st ev Hm Ha. apply c_step_accepted in Ha as [r0 Ha].
  destruct st; try contradiction Hm. open_exec Ha x' r' H. cbn [ev_msg].
  destruct m; try discriminate H; cbn [fb_execute] in H; inv_all; try reflexivity.
  match goal with Hv : addr_validate _ _ = Ok _ |- _ => apply addr_validate_iff in Hv as [_ ->] end. reflexivity.
Qed.

Lemma mapM_validate A l l' : mapM (addr_validate A) l = Ok l' -> l' = l.
Proof.
  intros H. apply mapM_Ok_Forall2 in H. induction H as [|a b l l' E _ IH]; [reflexivity|].
  apply addr_validate_iff in E as [_ ->]. now rewrite IH.
Qed.

Lemma hooks_last_set A st h :
  is_aggregate_hook st ->
  reported_hooks (c_run A st h) = replay hooks_update A st h (reported_hooks st).
Proof.
  intros Hm. apply (replay_run hooks_update reported_hooks is_aggregate_hook); [keep_kind| |exact Hm].
  clear Hm h st. intros st ev Hm Ha. apply c_step_accepted in Ha as [r0 Ha].
  destruct st; try contradiction Hm. open_exec Ha x' r' H. cbn [ev_msg].
  destruct m; try discriminate H; cbn [ah_execute] in H; unfold ah_post_dispatch in H; inv_all; try reflexivity.
  match goal with Hv : mapM _ _ = Ok _ |- _ => apply mapM_validate in Hv as -> end. reflexivity.
Qed.

Lemma fee_last_set A st h :
  is_fee_hook st -> reported_fee (c_run A st h) = replay fee_update A st h (reported_fee st).
Proof.
  intros Hm. apply (replay_run fee_update reported_fee is_fee_hook); [keep_kind| |exact Hm].
  clear Hm h st. intros st ev Hm Ha. apply c_step_accepted in Ha as [r0 Ha].
  destruct st; try contradiction Hm. open_exec Ha x' r' H. cbn [ev_msg].
  destruct m; try discriminate H; cbn [fe_execute] in H; inv_all; reflexivity.
Qed.

Lemma hook_settings_owner A st ev m :
  accepted A st ev = true -> ev_msg ev = Some m -> hook_setting m = true ->
  ev_sender ev = reported_owner st.
Proof.
  intros Ha Hm Hs. apply c_step_accepted in Ha as [r Ha].
  destruct ev as [e i m' Q|]; [|discriminate]. cbn [ev_msg ev_sender] in *. apply Some_inj in Hm. subst m'.
  rewrite reported_owner_own. cbn [c_apply] in Ha. unfold c_execute, lift in Ha.
  apply bind_Ok_inv in Ha as (u & _ & Ha).
  destruct m; try discriminate Hs; destruct st; apply bind_Ok_inv in Ha as ([x' r'] & H & _);
    try discriminate H; cbn [own_of option_map];
    cbn [cu_execute fb_execute ah_execute fe_execute] in H; unfold cu_register, cu_clear, only_owner in H;
    apply bind_Ok_inv in H as (u1 & H1 & _); apply ensure_Ok_inv, bytes_eqb_eq in H1; congruence.
Qed.

(** ** Fee hook *)
Lemma fee_of st c : reported_fee st = Some c -> exists x, st = SFeeHook x /\ fe_fee x = c.
Proof. destruct st; try discriminate. intros H. cbn in H. apply Some_inj in H. eauto. Qed.

Lemma fee_accepts A Q e i md raw st fee st' r :
  reported_fee st = Some fee ->
  (c_execute A Q e i (MPostDispatch md raw) st = Ok (st', r) <->
   st' = st /\ r = mkResp [] None /\
   exists a, i_funds i = [mkCoin (c_denom fee) a] /\ a <> 0 /\ c_amount fee <= a).
Proof.
  intros Hf. apply fee_of in Hf as (x & -> & <-).
  unfold c_execute, lift. cbn [emsg_ok ensure bind fe_execute]. split.
  - intros H. apply bind_Ok_inv in H as ([x' r'] & H & E). apply Ok_inj, pair_equal_spec in E as [<- <-].
    apply bind_Ok_inv in H as (a & H1 & H). apply bind_Ok_inv in H as (u & H2 & H).
    apply Ok_inj, pair_equal_spec in H as [<- <-]. apply ensure_Ok_inv, N.leb_le in H2.
    apply must_pay_iff in H1 as [H1 H1']. split; [reflexivity|]. split; [reflexivity|]. eauto.
  - intros (-> & -> & a & H1 & H2 & H3).
    assert (E : must_pay (i_funds i) (c_denom (fe_fee x)) = Ok a) by (apply must_pay_iff; auto).
    rewrite E. cbn [bind]. rewrite (proj2 (N.leb_le _ _) H3). reflexivity.
Qed.

Lemma fee_quote A q md raw st fee :
  reported_fee st = Some fee -> c_query A q (QHookQuote md raw) st = Ok (RFees [fee]).
Proof. intros Hf. apply fee_of in Hf as (x & -> & <-). reflexivity. Qed.

Lemma fee_claim A Q e i rcp st fee st' r :
  reported_fee st = Some fee ->
  (c_execute A Q e i (MFeeClaim rcp) st = Ok (st', r) <->
   Some (i_sender i) = reported_owner st /\ st' = st /\
   r = mkResp [mkSub (CBankSend (match rcp with Some a => a | None => i_sender i end)
                        (q_all_balances (Q st) (e_contract e))) RpNever] None).
Proof.
  intros Hf. apply fee_of in Hf as (x & -> & <-). rewrite reported_owner_own. cbn [own_of option_map].
  unfold c_execute, lift. cbn [emsg_ok ensure bind fe_execute]. split.
  - intros H. apply bind_Ok_inv in H as ([x' r'] & H & E). apply Ok_inj, pair_equal_spec in E as [<- <-].
    apply bind_Ok_inv in H as (u & H1 & H). apply ensure_Ok_inv, bytes_eqb_eq in H1.
    apply Ok_inj, pair_equal_spec in H as [<- <-]. split; [congruence|]. split; [reflexivity|].
    rewrite H1. reflexivity.
  - intros (H1 & -> & ->). apply Some_inj in H1. rewrite H1, bytes_eqb_refl. reflexivity.
Qed.

(** ** Hooks that ask for nothing *)
Lemma free_hooks A Q e i md raw st :
  is_aggregate_hook st \/ is_router_hook st \/ is_pausable_hook st /\ reported_paused st = Some false ->
  c_query A (Q st) (QHookQuote md raw) st = Ok (RFees []) ->
  (exists m, msg_decode raw = Ok m) ->
  exists st' r, c_execute A Q e i (MPostDispatch md raw) st = Ok (st', r).
Proof.
  intros Hk Hq [m Hd]. destruct Hk as [Hk|[Hk|[Hk Hp]]].
  - destruct st as [ | | | | | | |x| | | | | | | | | |]; try contradiction Hk.
    destruct (aggregate_quote A (Q (SAggHook x)) md raw (SAggHook x) (ah_hooks x) []) as (fees & F & _);
      [reflexivity|exact Hq|].
    do 2 eexists. apply (aggregate_calls A Q e i md raw (SAggHook x) (ah_hooks x)); [reflexivity|].
    exists fees, m. repeat (split; [eassumption || reflexivity|]). reflexivity.
  - apply router_quote_pick in Hq as (h & Hh & _); [|exact Hk].
    do 2 eexists. apply router_call_pick; [exact Hk|]. exists h. split; [exact Hh|]. split; reflexivity.
  - do 2 eexists. rewrite (pausable_hook A Q e i md raw st false Hk Hp). reflexivity.
Qed.
