(** * [execute] on the raw database. *)
From Coq Require Import List NArith Bool Lia Arith.
From Verif Require Import Base BaseFacts OMap Crypto Coins Hex Bech32 Metadata Merkle Message Json Chain Ownable Router Utils Mailbox Va
  Isms Hooks Igp Warp Cw20 Contracts Wire WireQuery SpecWire WireFacts StepFacts WireWidths WireCalls Store StoreFacts SpecStore StoreState
  StoreFrame StorePages Raw SpecRaw RawFacts.
Import ListNotations.

Ltac owned o :=
  unfold written; match goal with W : wrote (info_cell ?v :: cells ?st) ?d |- context [raw_own_handle ?A ?i ?om ?d] =>
    rewrite (raw_own_handle_eq A i v o _ om d W) end; step1.
Ltac guarded o :=
  match goal with W : wrote ?l ?d |- context [raw_guard ?i ?d] => rewrite (raw_guard_eq i o l d W) by (right; seek) end.
Ltac opened := match goal with W : wrote (info_cell ?v :: cells _) ?d |- _ => cbn [cells own_cells warp_cells conn_cells app] in W; unfold routes_cell, pause_cell in W end.
Ltac wide := repeat match goal with H : (_ && _)%bool = true |- _ => apply andb_true_iff in H as [? ?] end.
Ltac narrowed := repeat match goal with H : msg_decode ?raw = Ok ?m |- _ =>
  lazymatch goal with _ : u32_ok (m_dest m) = true |- _ => fail | _ => destruct (decoded_narrow raw m H) as [? ?] end end.

Lemma om_set_same {X V} {OK : OrdKey X} (m : omap X V) k a : om_sorted m -> om_get k m = Some a -> om_set k a m = m.
Proof.
  intros S G. apply om_sorted_ext; [now apply om_sorted_set|exact S|]. intros k'. rewrite om_get_set.
  destruct (keqb k' k) eqn:E; [apply keqb_eq in E as ->; now rewrite G|reflexivity].
Qed.

Section Exec.
  Context (A : api) (v : cw2) (d : db) (i : info) (m : emsg).
  Hypothesis O : emsg_ok m = true.

  Lemma raw_ms_eq x : stored (SMultisig x) -> wrote (info_cell v :: cells (SMultisig x)) d ->
    raw_ms_execute A i m d = kept_as v (lift SMultisig (ms_execute A i m x)).
  Proof.
    intros (S1 & S2) W. unfold raw_ms_execute, ms_execute. destruct m as []; try reflexivity; cbn [emsg_ok] in O; wide.
    - owned (ms_own x).
    - unfold written, raw_set_validators, ms_set_validators. guarded (ms_own x). opened. repeat step1. write1. write1. closing.
    - unfold written, raw_unset_domain, ms_unset_domain. guarded (ms_own x). opened. repeat step1. write1. write1. closing.
  Qed.
  Lemma raw_ag_eq x : stored (SAggIsm x) -> wrote (info_cell v :: cells (SAggIsm x)) d ->
    raw_ag_execute A i m d = kept_as v (lift SAggIsm (ag_execute A i m x)).
  Proof.
    intros S1 W. unfold raw_ag_execute, ag_execute. destruct m; try reflexivity; cbn [emsg_ok] in O; wide.
    - owned (ag_own x).
    - unfold written, raw_set_isms, ag_set_isms. guarded (ag_own x). opened. repeat step1. write1. write1. closing.
  Qed.
  Lemma raw_ri_eq x : stored (SRoutingIsm x) -> wrote (info_cell v :: cells (SRoutingIsm x)) d ->
    raw_ri_execute A i m d = kept_as v (lift SRoutingIsm (ri_execute A i m x)).
  Proof.
    intros S1 W. cbn [stored] in S1. unfold raw_ri_execute, ri_execute. destruct m; try reflexivity; cbn [emsg_ok] in O; wide.
    - owned (ri_own x).
    - unfold written, raw_set_module. guarded (ri_own x). opened. cbn [fst snd]. repeat step1. write1. closing.
    - unfold written. guarded (ri_own x). opened. step1. cbn [kept_as lift].
      erewrite (fold_wrote (fun mm => [_; _; _; table (s "modules") u32_key string_c mm]) (holds u32_ok string_c) _ (fun m d => om_del d m));
        [reflexivity| |exact S1|exact W].
      intros m0 n d0 I H0 W0. rewrite forallb_forall in O. pose proof (O n I). split; [now apply holds_del|].
      eapply erase_wrote; [|exact W0]. put.
  Qed.
  Lemma raw_pi_eq x : wrote (info_cell v :: cells (SPausableIsm x)) d ->
    raw_pi_execute A i m d = kept_as v (lift SPausableIsm (pi_execute A i m x)).
  Proof.
    intros W. unfold raw_pi_execute, pi_execute. destruct m; try reflexivity.
    - owned (pi_own x).
    - unfold written. rewrite (raw_pause_handle_eq i v (pi_own x) (pi_paused x) _ d W). step1.
  Qed.
  Lemma raw_ph_eq x : wrote (info_cell v :: cells (SPausableHook x)) d ->
    raw_ph_execute A i m d = kept_as v (lift SPausableHook (ph_execute A i m x)).
  Proof.
    intros W. unfold raw_ph_execute, ph_execute. destruct m; try reflexivity.
    - owned (ph_own x).
    - unfold written. rewrite (raw_pause_handle_eq i v (ph_own x) (ph_paused x) _ d W). step1.
    - opened. unfold unwritten, raw_paused. fetch. step1. closing.
  Qed.
  Lemma raw_mk_eq Q x : fits tree_c (mk_tree x) = true -> wrote (info_cell v :: cells (SMerkle x)) d ->
    raw_mk_execute Q m d = kept_as v (lift SMerkle (mk_execute (Q d) m x)).
  Proof.
    intros S1 W. unfold raw_mk_execute, mk_execute. destruct m; try reflexivity.
    opened. unfold written, mk_post_dispatch, raw_tree. fetch. step1. destruct a; try reflexivity. cbn [bind].
    repeat step1. write1. closing.
  Qed.
  Lemma raw_ah_eq Q x : wrote (info_cell v :: cells (SAggHook x)) d ->
    raw_ah_execute A Q i m d = kept_as v (lift SAggHook (ah_execute A (Q d) i m x)).
  Proof.
    intros W. unfold raw_ah_execute, ah_execute. destruct m; try reflexivity.
    - owned (ah_own x).
    - opened. unfold unwritten, raw_hooks, ah_post_dispatch. fetch. step1. step1. closing.
    - unfold written. guarded (ah_own x). opened. repeat step1. write1. closing.
  Qed.
  Ltac routed h o r pre post :=
    unfold written; match goal with W : wrote _ ?d |- context [raw_router_handle h ?i ?rm ?d] =>
      rewrite (raw_router_handle_eq h i o pre post r rm d W) by first [assumption|seek|exact O] end; step1.
  Lemma raw_rh_eq x : stored (SRoutingHook x) -> wrote (info_cell v :: cells (SRoutingHook x)) d ->
    raw_rh_execute A i m d = kept_as v (lift SRoutingHook (rh_execute A i m x)).
  Proof.
    intros S1 W. cbn [stored] in S1. unfold raw_rh_execute, rh_execute. destruct m; try reflexivity.
    - owned (rh_own x).
    - routed false (rh_own x) (rh_routes x) (info_cell v :: own_cells (rh_own x)) (@nil cell).
    - opened. unfold raw_forward, unwritten, raw_rh_route, rh_route. step1. narrowed. fetch. step1. closing.
  Qed.
  Lemma raw_cu_eq x : stored (SCustomHook x) -> wrote (info_cell v :: cells (SCustomHook x)) d ->
    raw_cu_execute A i m d = kept_as v (lift SCustomHook (cu_execute A i m x)).
  Proof.
    intros (S1 & S2) W. unfold raw_cu_execute, cu_execute.
    assert (R : forall l, forallb (fun h => u32_ok (ch_dest h)) l = true ->
              written (raw_register A i l d) = kept_as v (lift SCustomHook (cu_register A i l x))).
    { intros l Ol. rewrite forallb_forall in Ol. unfold written, raw_register, cu_register. guarded (cu_own x). step1.
      rewrite (foldM_wrote (fun mm => info_cell v :: cells (SCustomHook (mkCu (cu_own x) (cu_routes x) mm))) (holds pair_ok string_c) (raw_register1 A)
                (cu_register1 A) l) with (m := cu_hooks x); [|clear W|exact S2|exact W].
      - step1.
      - intros m0 c d0 I H0 W0. unfold raw_register1, cu_register1. pose proof (Ol c I) as Oc.
        destruct (hex_decode (ch_recipient c)) as [r| |]; cbn [bind]; try reflexivity.
        destruct (ensure (Nat.eqb (length r) 32) EInvalidConfig); cbn [bind]; try reflexivity.
        destruct (addr_validate A (ch_hook c)) as [h| |]; cbn [bind]; try reflexivity.
        assert (X : pair_ok (ch_dest c, r) = true) by exact Oc.
        split; [now apply holds_set|]. eexists. split; [reflexivity|]. opened. eapply save_wrote; [|exact W0]. put. }
    assert (C : forall l, forallb (fun p => u32_ok (fst p)) l = true -> written (raw_clear i l d) = kept_as v (lift SCustomHook (cu_clear i l x))).
    { intros l Ol. rewrite forallb_forall in Ol. unfold written, raw_clear, cu_clear. guarded (cu_own x). step1.
      rewrite (foldM_wrote (fun mm => info_cell v :: cells (SCustomHook (mkCu (cu_own x) (cu_routes x) mm))) (holds pair_ok string_c) _
                (fun m p => r <- hex_decode (snd p) ;; Ok (om_del (fst p, r) m)) l) with (m := cu_hooks x); [|clear W|exact S2|exact W].
      - step1.
      - intros m0 p d0 I H0 W0. destruct (hex_decode (snd p)) as [r| |]; cbn [bind]; try reflexivity.
        assert (X : pair_ok (fst p, r) = true) by exact (Ol p I).
        split; [now apply holds_del|]. eexists. split; [reflexivity|]. opened.
        eapply erase_wrote; [|exact W0]. put. }
    destruct m; try reflexivity.
    - owned (cu_own x).
    - routed false (cu_own x) (cu_routes x) (info_cell v :: own_cells (cu_own x)) [table (s "custom_hooks") pair_key string_c (cu_hooks x)].
    - opened. unfold raw_forward, unwritten, raw_cu_route, cu_route. step1. narrowed.
      assert (X : pair_ok (m_dest a, m_recipient a) = true) by assumption. fetch. unfold addr in *.
      step1. closing.
    - apply R. cbn [forallb]. cbn [emsg_ok] in O. now rewrite O.
    - apply R. exact O.
    - apply C. cbn [forallb fst]. cbn [emsg_ok] in O. now rewrite O.
    - apply C. exact O.
  Qed.
  Lemma raw_fb_eq x : stored (SFallbackHook x) -> wrote (info_cell v :: cells (SFallbackHook x)) d ->
    raw_fb_execute A i m d = kept_as v (lift SFallbackHook (fb_execute A i m x)).
  Proof.
    intros S1 W. cbn [stored] in S1. unfold raw_fb_execute, fb_execute. destruct m; try reflexivity.
    - owned (fb_own x).
    - routed false (fb_own x) (fb_routes x) (info_cell v :: own_cells (fb_own x)) [maybe (s "fallback_hook") string_c (fb_fallback x)].
    - opened. unfold raw_forward, unwritten, raw_fb_route, fb_route, addr. step1. narrowed. fetch. step1. closing.
    - unfold written. guarded (fb_own x). opened. repeat step1. write1. closing.
  Qed.
  Lemma raw_fe_eq Q e x : stored (SFeeHook x) -> wrote (info_cell v :: cells (SFeeHook x)) d ->
    raw_fe_execute A Q e i m d = kept_as v (lift SFeeHook (fe_execute A (Q d) e i m x)).
  Proof.
    intros S1 W. cbn [stored] in S1. unfold raw_fe_execute, fe_execute. destruct m; try reflexivity; cbn [emsg_ok] in O.
    - owned (fe_own x).
    - opened. unfold unwritten, raw_fee. fetch. repeat step1. closing.
    - unfold written. guarded (fe_own x). opened. unfold only_owner. repeat step1. write1. closing.
    - opened. unfold unwritten, raw_owner. fetch. repeat step1. closing.
  Qed.
  Lemma raw_or_eq x : stored (SOracle x) -> wrote (info_cell v :: cells (SOracle x)) d ->
    raw_or_execute A i m d = kept_as v (lift SOracle (or_execute A i m x)).
  Proof.
    intros S1 W. cbn [stored] in S1. unfold raw_or_execute, or_execute.
    assert (G : forall c m0 d0, (u32_ok (gc_domain c) && u128_ok (gc_rate c) && u128_ok (gc_price c))%bool = true -> holds u32_ok gas_data_c m0 ->
              wrote (info_cell v :: cells (SOracle (mkOrc (or_own x) m0))) d0 ->
              holds u32_ok gas_data_c (or_insert m0 c) /\ wrote (info_cell v :: cells (SOracle (mkOrc (or_own x) (or_insert m0 c)))) (raw_insert_gas_data d0 c)).
    { intros c m0 d0 Oc H0 W0. split; [now apply gas_fit|]. apply andb_true_iff in Oc as [Oc O3]. apply andb_true_iff in Oc as [O1 O2]. unfold raw_insert_gas_data.
      assert (F : fits gas_data_c (mkGasData (gc_rate c) (gc_price c)) = true) by (cbn; now rewrite O2, O3).
      opened. eapply save_wrote; [|exact W0]. put. }
    destruct m; try reflexivity; cbn [emsg_ok] in O.
    - owned (or_own x).
    - unfold written. guarded (or_own x). step1. rewrite forallb_forall in O.
      rewrite (foldM_wrote (fun mm => info_cell v :: cells (SOracle (mkOrc (or_own x) mm))) (holds u32_ok gas_data_c) _
                (fun m c => _ <- ensure (negb (gc_rate c =? 0)) EInvalidConfig ;; Ok (or_insert m c)) _) with (m := or_data x); [|clear W|exact S1|exact W].
      + step1.
      + intros m0 c d0 I H0 W0. destruct (ensure (negb (gc_rate c =? 0)) EInvalidConfig); cbn [bind]; try reflexivity.
        destruct (G c m0 d0 (O c I) H0 W0) as [H1 W1]. split; [exact H1|]. eexists. split; [reflexivity|exact W1].
    - unfold written. guarded (or_own x). step1. destruct x as [o dd]. destruct (G _ _ d O S1 W) as [_ W1].
      cbn [kept_as lift bind]. rewrite (proj2 W1). reflexivity.
  Qed.
  Lemma raw_va_eq x : stored (SVa x) -> wrote (info_cell v :: cells (SVa x)) d ->
    raw_va_execute A m d = kept_as v (lift SVa (va_execute A m x)).
  Proof.
    intros (S1 & S2 & S3 & S4) W. unfold raw_va_execute, va_execute. destruct m; try reflexivity. opened.
    unfold written, raw_announce, va_announce. step1. fetch.
    match goal with |- context [om_get ?k (va_replay x)] => destruct (om_get k (va_replay x)) eqn:R end; cbn [negb ensure bind]; [reflexivity|].
    write1. fetch. step1. step1. step1. step1. fetch.
    destruct (om_get validator (va_validators x)) as [[]|] eqn:K.
    - cbv beta iota zeta. fetch. write1. rewrite (om_set_same _ _ _ (proj1 S2) K). closing.
    - cbv beta iota zeta. write1. fetch. write1. closing.
  Qed.
  Lemma raw_mb_eq Q e x : e_height e < 2 ^ 64 -> stored (SMailbox x) -> wrote (info_cell v :: cells (SMailbox x)) d ->
    raw_mb_execute A Q e i m d = kept_as v (lift SMailbox (mb_execute A (fun y => Q (storage v (SMailbox y))) e i m x)).
  Proof.
    intros T (S1 & S2 & S3) W. assert (D : storage v (SMailbox x) = d) by (symmetry; exact (proj2 W)).
    unfold raw_mb_execute, mb_execute. destruct m; try reflexivity; cbn [emsg_ok] in O.
    - owned (mb_own x).
    - unfold written, raw_set_default_ism, mb_set_default_ism, raw_config. guarded (mb_own x). opened. fetch. repeat step1. write1. closing.
    - unfold written, raw_set_default_hook, mb_set_default_hook, raw_config. guarded (mb_own x). opened. fetch. repeat step1. write1. closing.
    - unfold written, raw_set_required_hook, mb_set_required_hook, raw_config. guarded (mb_own x). opened. fetch. repeat step1. write1. closing.
    - unfold raw_dispatch, mb_dispatch, raw_config, get_default_hook, get_required_hook. opened. fetch. rewrite D. repeat step1. write1. write1. closing.
    - unfold raw_process, mb_process, raw_config, get_default_ism. opened. fetch. rewrite D. step1. step1. step1. step1. step1. step1. fetch. unfold addr in *.
      match goal with |- context [om_get ?k (mb_deliveries x)] => destruct (om_get k (mb_deliveries x)) end; cbn [negb ensure bind]; [reflexivity|].
      assert (F : fits delivery_c (mkDelivery (i_sender i) (e_height e)) = true) by (cbn; rewrite andb_true_r; now apply N.ltb_lt).
      write1. match goal with |- context [storage v ?st] => assert (D' : storage v st = d0) by (symmetry; exact (proj2 W0)); rewrite D' end.
      step1. step1. cbn [kept_as lift bind]. now rewrite D'.
  Qed.
  Lemma raw_quote_eq q x n gas : routes_held false (gp_routes x) -> wrote (info_cell v :: cells (SIgp x)) d -> u32_ok n = true ->
    raw_quote_gas_price q n gas d = gp_quote q x n gas.
  Proof. intros S1 W On. opened. unfold raw_quote_gas_price, gp_quote. fetch. reflexivity. Qed.
  Lemma raw_default_eq x n : stored (SIgp x) -> wrote (info_cell v :: cells (SIgp x)) d -> u32_ok n = true ->
    raw_default_gas n d = Ok (gp_gas_for x n).
  Proof. intros (S1 & S2 & S3) W On. opened. unfold raw_default_gas, gp_gas_for. fetch. reflexivity. Qed.
  Lemma raw_pay_eq q x n gas refund : stored (SIgp x) -> wrote (info_cell v :: cells (SIgp x)) d -> u32_ok n = true ->
    unwritten d (raw_pay_for_gas q i n gas refund d) = kept_as v (lift SIgp (gp_pay_for_gas q i n gas refund x)).
  Proof.
    intros S W On. pose proof W as W'. opened. unfold unwritten, raw_pay_for_gas, gp_pay_for_gas.
    rewrite (raw_quote_eq q x n gas (proj1 S) W' On). fetch. repeat step1. cbn [kept_as lift bind]. now rewrite (proj2 W').
  Qed.
  Lemma raw_gp_eq Q e x : stored (SIgp x) -> wrote (info_cell v :: cells (SIgp x)) d ->
    raw_gp_execute A Q e i m d = kept_as v (lift SIgp (gp_execute A (Q d) e i m x)).
  Proof.
    intros S W. pose proof S as (S1 & S2 & S3). unfold raw_gp_execute, gp_execute. destruct m; try reflexivity; cbn [emsg_ok] in O; wide.
    - owned (gp_own x).
    - routed false (gp_own x) (gp_routes x) (info_cell v :: own_cells (gp_own x))
        [item (s "hrp") string_c (gp_hrp x); item (s "gas_token") string_c (gp_token x); item (s "default_gas_usage") u128_c (gp_default_gas x);
         table (s "gas_for_domain") u32_key u128_c (gp_gas x); item (s "beneficiary") string_c (gp_beneficiary x)].
    - unfold raw_gp_post_dispatch, gp_post_dispatch. destruct (msg_decode message) as [a| |] eqn:E; cbn [bind unwritten]; try reflexivity. narrowed.
      rewrite (raw_default_eq x _ S W) by assumption. pose proof W as W'. opened. fetch. destruct (Nat.ltb (length metadata) 32).
      + destruct (bech32_encode (gp_hrp x) (m_sender a)); cbn [bind unwritten]; try reflexivity. now apply raw_pay_eq.
      + destruct (igp_decode metadata) as [md| |]; cbn [bind unwritten]; try reflexivity.
        destruct (bech32_encode (gp_hrp x) (m_sender a)); cbn [bind unwritten]; try reflexivity.
        destruct (igp_refund_address md (gp_hrp x) _); cbn [bind unwritten]; try reflexivity. now apply raw_pay_eq.
    - unfold written. guarded (gp_own x). opened. step1. write1. closing.
    - unfold written. guarded (gp_own x). step1. cbn [kept_as lift bind]. rewrite forallb_forall in O.
      erewrite (fold_wrote (fun mm => info_cell v :: cells (SIgp (mkGp (gp_own x) (gp_routes x) (gp_hrp x) (gp_token x) (gp_default_gas x) mm (gp_beneficiary x))))
                 (holds u32_ok u128_c) _ (fun m p => om_set (fst p) (snd p) m)); [reflexivity|clear W|exact S3|exact W].
      intros m0 p d0 I H0 W0. pose proof (O p I) as Op. apply andb_true_iff in Op as [O1 O2]. split; [now apply holds_set|]. opened.
      eapply save_wrote; [|exact W0]. put.
    - unfold written. guarded (gp_own x). step1. cbn [kept_as lift bind]. rewrite forallb_forall in O.
      erewrite (fold_wrote (fun mm => info_cell v :: cells (SIgp (mkGp (gp_own x) (gp_routes x) (gp_hrp x) (gp_token x) (gp_default_gas x) mm (gp_beneficiary x))))
                 (holds u32_ok u128_c) _ (fun m n => om_del n m)); [reflexivity|clear W|exact S3|exact W].
      intros m0 n d0 I H0 W0. pose proof (O n I) as On. split; [now apply holds_del|]. opened.
      eapply erase_wrote; [|exact W0]. put.
    - unfold written. guarded (gp_own x). opened. step1. step1. write1. closing.
    - now apply raw_pay_eq.
    - unfold unwritten, gp_claim. opened. fetch. repeat step1. closing.
  Qed.

  (** the warp routes *)
  Lemma raw_common_eq (k : wp -> cstate) x : (forall y, cells (k y) = warp_cells y) -> routes_held true (wp_routes x) -> wrote (info_cell v :: warp_cells x) d ->
    raw_wp_common A i m d = kept_as v (lift k (wp_common A i m x)).
  Proof.
    intros K S W. unfold raw_wp_common, wp_common. destruct m as []; try reflexivity.
    - unfold written. rewrite (raw_own_handle_eq A i v (wp_own x) _ _ d W). step1. cbn [kept_as lift bind]. unfold storage. now rewrite K.
    - unfold written. rewrite (raw_router_handle_eq true i (wp_own x) (info_cell v :: own_cells (wp_own x))
        (conn_cells (wp_conn x) ++ [maybe (s "token") string_c (wp_token x); item (s "mode") token_mode_c (wp_mode x);
           item (s "hrp") string_c (wp_hrp x); item (s "mailbox") string_c (wp_mailbox x)]) (wp_routes x) _ d W)
        by first [assumption|seek|exact O]. step1. cbn [kept_as lift bind]. unfold storage. now rewrite K.
    - unfold written, raw_conn_handle, conn_handle. rewrite (raw_guard_eq i (wp_own x) _ d W) by (right; seek). step1.
      cbn [own_cells warp_cells conn_cells app] in W. unfold routes_cell in W.
      match goal with cm : connection_msg |- _ => destruct cm end; step1; write1;
        cbn [kept_as lift bind]; unfold storage; rewrite K; match goal with W : wrote _ ?dd |- Ok (?dd, _) = _ => rewrite (proj2 W); reflexivity end.
  Qed.
  Lemma raw_received_eq x origin sender body : routes_held true (wp_routes x) -> wrote (info_cell v :: warp_cells x) d -> u32_ok origin = true ->
    raw_received i origin sender body d
    = (w <- wp_check_handle i origin sender body x ;; recipient <- bech32_encode (wp_hrp x) (w_recipient w) ;;
       token <- ok_or (wp_token x) EStd ;; Ok (w, recipient, token, wp_mode x)).
  Proof.
    intros S W Oo. unfold raw_received, wp_check_handle. cbn [own_cells warp_cells conn_cells app] in W. unfold routes_cell in W. fetch. repeat step1.
  Qed.
  Lemma raw_wn_eq e x : stored (SWarpNative x) -> wrote (info_cell v :: cells (SWarpNative x)) d ->
    raw_wn_execute A e i m d = kept_as v (lift SWarpNative (wn_execute A e i m x)).
  Proof.
    intros S W. cbn [stored] in S. pose proof (raw_common_eq SWarpNative x (fun _ => eq_refl) S W) as C. unfold raw_wn_execute, wn_execute.
    destruct m; try exact C; clear C; cbn [emsg_ok] in O; wide.
    - unfold unwritten, raw_wn_handle, wn_handle. rewrite (raw_received_eq x) by assumption. repeat step1. closing.
    - unfold unwritten, raw_wn_transfer, wn_transfer_remote, hook_or. cbn [cells own_cells warp_cells conn_cells app] in W. unfold routes_cell, addr in *. fetch. repeat step1. closing.
  Qed.
  Lemma raw_wc_eq e x : stored (SWarpCw20 x) -> wrote (info_cell v :: cells (SWarpCw20 x)) d ->
    raw_wc_execute A e i m d = kept_as v (lift SWarpCw20 (wc_execute A e i m x)).
  Proof.
    intros S W. cbn [stored] in S. pose proof (raw_common_eq SWarpCw20 x (fun _ => eq_refl) S W) as C. unfold raw_wc_execute, wc_execute.
    destruct m; try exact C; clear C; cbn [emsg_ok] in O; wide.
    - unfold unwritten, raw_wc_handle, wc_handle. rewrite (raw_received_eq x) by assumption. repeat step1. closing.
    - unfold unwritten, raw_wc_transfer, wc_transfer_remote, hook_or. cbn [cells own_cells warp_cells conn_cells app] in W. unfold routes_cell, addr in *. fetch. repeat step1. closing.
  Qed.
End Exec.

Lemma raw_execute_eq A Q e i m v st : stored st -> (forall x, st <> SCw20 x) -> e_height e < 2 ^ 64 ->
  raw_execute A Q e i m (program_of st) (storage v st) = kept_as v (c_execute A (fun y => Q (storage v y)) e i m st).
Proof.
  intros S N T. pose proof (stored_wrote v st S) as W. unfold raw_execute, c_execute.
  destruct (emsg_ok m) eqn:O; cbn [ensure bind]; [|reflexivity].
  destruct st; cbn [program_of].
  - now apply raw_mb_eq.
  - now apply raw_va_eq.
  - now apply raw_ms_eq.
  - now apply raw_ag_eq.
  - now apply raw_ri_eq.
  - now apply raw_pi_eq.
  - now apply raw_mk_eq.
  - now apply raw_ah_eq.
  - now apply raw_ph_eq.
  - now apply raw_rh_eq.
  - now apply raw_cu_eq.
  - now apply raw_fb_eq.
  - now apply raw_fe_eq.
  - now apply raw_or_eq.
  - now apply raw_gp_eq.
  - now apply raw_wn_eq.
  - now apply raw_wc_eq.
  - now elim (N x).
Qed.
Lemma raw_reply_eq A id r v st : stored st -> (forall x, st <> SCw20 x) ->
  raw_reply A id r (program_of st) (storage v st) = kept_as v (c_reply A id r st).
Proof.
  intros S N. pose proof (stored_wrote v st S) as W. unfold raw_reply, c_reply.
  destruct st; cbn [program_of]; try reflexivity; revert W; generalize (storage v (SWarpNative x)) + generalize (storage v (SWarpCw20 x)); intros d W;
    cbn [cells own_cells warp_cells conn_cells app] in W; unfold routes_cell in W.
  - unfold raw_wn_reply, wn_reply. destruct r as [[]| |]; try reflexivity. destruct (id =? REPLY_ID_CREATE_DENOM); [|reflexivity]. write1. closing.
  - unfold raw_wc_reply, wc_reply. destruct (id =? REPLY_ID_CREATE_DENOM); [|reflexivity]. destruct r as [[]| |]; try reflexivity. step1. write1. closing.
Qed.
