(** * The proof of C102. *)
From Coq Require Import List NArith Bool Lia.
From Verif Require Import Base BaseFacts OMap Crypto Bech32 Hex Metadata Merkle MerkleFacts Coins CoinsFacts Message
  CodecFacts Chain Ownable Router Contracts Spec SpecModules SpecWorld SpecWire SpecBridge SpecErrors StepFacts HookFacts IgpFacts VaFacts MailboxFacts
  AcceptFacts StoreFrame AbortFacts Mailbox Va Isms Hooks Igp Warp Cw20 ErrorFacts.
Import ListNotations.
Lemma process_err A Q e i md raw x er : ~ dull er -> mb_process (fun y => Q (SMailbox y)) e i md raw x = Err er ->
  cause A Q i (MProcess md raw) (SMailbox x) er.
Proof.
  intros D H. unfold mb_process in H.
  apply bind_Err_inv in H as [H | (m & Hm & H)]; [no_err D H |].
  pose proof (decoded_id _ _ Hm) as Hid. pose proof (msg_decode_Ok_inv _ _ Hm) as (_ & _ & Hraw).
  apply bind_Err_inv in H as [H | (a & Ha & H)]; [no_err D H |].
  apply bind_Err_inv in H as [H | (u1 & Hv & H)].
  { apply ensure_Err_inv in H as [H ->]. apply N.eqb_neq in H. exists m. split; [exact Hm | exact H]. }
  apply bind_Err_inv in H as [H | (u2 & Hd & H)].
  { apply ensure_Err_inv in H as [H ->]. apply N.eqb_neq in H. exists m, (mb_domain x). split; [exact Hm |]. split; [reflexivity | exact H]. }
  cbv zeta in H. apply bind_Err_inv in H as [H | (o & Ho & H)]; [no_err D H |].
  apply bind_Err_inv in H as [H | (df & Hdf & H)]; [unfold get_default_ism in H; no_err D H |].
  apply bind_Err_inv in H as [H | (u3 & Hf & H)].
  { apply ensure_Err_inv in H as [H ->]. cbn [cause]. rewrite reported_delivered_of, <- Hid.
    match goal with |- context [om_get ?k ?mm] => destruct (om_get k mm) end; [reflexivity | discriminate H]. }
  apply bind_Err_inv in H as [H | (b & Hb & H)]; [no_err D H |].
  apply bind_Err_inv in H as [H | (u4 & _ & H)]; [| discriminate H].
  apply ensure_Err_inv in H as [-> ->]. apply verify_Ok in Hb. rewrite Hraw in Hb. apply specifier_Ok in Ho. apply ensure_Ok_inv in Hf.
  cbn [cause]. split.
  - rewrite reported_delivered_of, <- Hid. match goal with |- context [om_get ?k ?mm] => destruct (om_get k mm) end; [discriminate Hf | reflexivity].
  - eexists m, (mb_hrp x), a, o, df, (SMailbox _). split; [exact Hm |]. split; [reflexivity |]. split; [exact Ha |]. split; [exact Ho |].
    split; [| exact Hb]. unfold reported_default_ism, c_query. cbn [qmsg_ok ensure bind mb_query].
    rewrite Hdf. reflexivity.
Qed.

Lemma dispatch_err A Q i d x er : ~ dull er -> mb_dispatch A (fun y => Q (SMailbox y)) i d x = Err er ->
  cause A Q i (MDispatch d) (SMailbox x) er.
Proof.
  intros D H. unfold mb_dispatch in H. cbv zeta in H.
  apply bind_Err_inv in H as [H | (u1 & _ & H)].
  { apply ensure_Err_inv in H as [H ->]. apply PeanoNat.Nat.eqb_neq in H. cbn [cause]. split; [reflexivity | lia]. }
  apply bind_Err_inv in H as [H | (m & Hm & H)]; [unfold to_msg in H; no_err D H |].
  apply bind_Err_inv in H as [H | (dh & _ & H)]; [unfold get_default_hook in H; no_err D H |].
  apply bind_Err_inv in H as [H | (hk & _ & H)]; [unfold get_hook_addr in H; no_err D H |].
  apply bind_Err_inv in H as [H | (rq & Hrq & H)]; [unfold get_required_hook in H; no_err D H |].
  apply bind_Err_inv in H as [H | (fees & Hf & H)]; [no_err D H |].
  apply bind_Err_inv in H as [H | (rest & _ & H)]; [| no_err D H].
  apply fees_err in H as [-> (c & Hc)]; [| exact D]. unfold to_msg in Hm. apply bind_Ok_inv in Hm as (sd & Hsd & Hm). apply Ok_inj in Hm. subst m.
  apply quote_Ok in Hf. exists (mb_nonce x), (mb_domain x), sd, rq, fees, c. split; [reflexivity |]. split; [reflexivity |]. split; [exact Hsd |].
  split; [unfold reported_required_hook, c_query; cbn [qmsg_ok ensure bind mb_query]; now rewrite Hrq |]. split; [exact Hf | exact Hc].
Qed.

Lemma announce_err A Q i v sg l x er : deployed A (SVa x) -> ~ dull er -> va_announce A v sg l x = Err er ->
  cause A Q i (MAnnounce v sg l) (SVa x) er.
Proof.
  intros Hdep D H0. pose proof H0 as H. unfold va_announce in H. cbv zeta in H.
  assert (HU : ~ (length v = 20%nat /\ fresh x v l /\ announcement_signed A (SVa x) v sg l)).
  { intros (H1 & H2 & H3).
    rewrite (proj2 (va_announce_iff A v sg l x _ resp0) (conj H1 (conj H2 (conj H3 (conj eq_refl eq_refl))))) in H0. discriminate H0. }
  apply bind_Err_inv in H as [H | (u1 & H1 & H)].
  { apply ensure_Err_inv in H as [H ->]. apply PeanoNat.Nat.eqb_neq in H. cbn [cause]. split; [reflexivity | lia]. }
  apply ensure_Ok_inv, PeanoNat.Nat.eqb_eq in H1.
  apply bind_Err_inv in H as [H | (u2 & H2 & H)].
  { apply ensure_Err_inv in H as [H ->]. cbn [cause]. clear D H0 HU.
    assert (HF : ~ fresh x v l).
    { unfold fresh. intros E. rewrite E in H. discriminate H. }
    destruct Hdep as (q & e0 & i0 & m0 & r0 & st0 & h & Hi & Hst).
    assert (HV : is_va st0).
    { clear -Hst. revert st0 Hst. induction h as [| ev h IH]; intros st0 Hst; [cbn in Hst; subst st0; exact I |].
      rewrite c_run_cons in Hst. apply IH in Hst. revert Hst. clear. unfold c_step. destruct (c_apply A ev st0) as [[st' r] | |] eqn:E; auto.
      intros Hv. destruct ev as [e i m Q | id rr]; cbn [c_apply] in E.
      - unfold c_execute, lift in E. apply bind_Ok_inv in E as (u & _ & E).
        destruct st0; apply bind_Ok_inv in E as ([x' r'] & E & E'); apply Ok_inj, pair_equal_spec in E' as [<- _]; try contradiction Hv; exact I.
      - destruct st0; cbn [c_reply] in E; try discriminate E; unfold lift in E; apply bind_Ok_inv in E as ([x' r'] & E & E');
          apply Ok_inj, pair_equal_spec in E' as [<- _]; contradiction Hv. }
    assert (HM : exists mbx, m0 = IVa mbx).
    { unfold c_instantiate, lift in Hi. apply bind_Ok_inv in Hi as (u & _ & Hi).
      destruct m0; try (apply bind_Ok_inv in Hi as ([x' r'] & Hi & E); apply Ok_inj, pair_equal_spec in E as [<- _]; try contradiction HV); eauto.
      all: try (apply Ok_inj, pair_equal_spec in Hi as [<- _]; contradiction HV). }
    destruct HM as [mbx ->]. destruct st0 as [ | x0 | | | | | | | | | | | | | | | |]; try contradiction HV.
    pose proof (replay_history A x0 h v l) as HR. rewrite <- Hst in HR.
    assert (HX : exists v' l', In (v', l') (announcements A (SVa x0) h) /\ keccak256_hash (v' ++ l') = keccak256_hash (v ++ l)).
    { assert (F0 : fresh x0 v l).
      { unfold fresh. unfold c_instantiate, lift, va_instantiate in Hi. apply bind_Ok_inv in Hi as (u & _ & Hi).
        apply bind_Ok_inv in Hi as ([x' r'] & Hi & E). apply Ok_inj, pair_equal_spec in E as [E _]. injection E as ->.
        apply bind_Ok_inv in Hi as (m1 & _ & Hi). apply bind_Ok_inv in Hi as (a & _ & Hi). apply bind_Ok_inv in Hi as (rr & _ & Hi).
        destruct rr; try discriminate Hi. apply Ok_inj, pair_equal_spec in Hi as [<- _]. reflexivity. }
      destruct (existsb (fun p => bytes_eqb (keccak256_hash (fst p ++ snd p)) (keccak256_hash (v ++ l))) (announcements A (SVa x0) h)) eqn:E.
      - apply existsb_exists in E as ([v' l'] & E1 & E2). apply bytes_eqb_eq in E2. cbn [fst snd] in E2. eauto.
      - exfalso. apply HF, HR. split; [exact F0 |]. intros v' l' Hin E'. unfold va_replay_hash in E'.
        assert (existsb (fun p => bytes_eqb (keccak256_hash (fst p ++ snd p)) (keccak256_hash (v ++ l))) (announcements A (SVa x0) h) = true); [| congruence].
        apply existsb_exists. exists (v', l'). split; [exact Hin |]. cbn [fst snd]. rewrite E'. apply bytes_eqb_refl. }
    destruct HX as (v' & l' & Hin & E). exists v', l'. destruct (va_initial A q e0 i0 mbx _ r0 v' Hi) as (_ & Ha & _).
    eexists. split; [rewrite Hst; apply (announced_history A (SVa x0) h v' [] I Ha) |]. split; [| exact E].
    cbn [app]. unfold locations_of. apply in_map_iff. exists (v', l'). split; [reflexivity |]. apply filter_In. split; [exact Hin |]. apply bytes_eqb_refl. }
  assert (HF : fresh x v l).
  { apply ensure_Ok_inv in H2. unfold fresh. revert H2. match goal with |- context [om_get ?k ?mm] => destruct (om_get k mm) end; [discriminate | reflexivity]. }
  assert (HS : ~ announcement_signed A (SVa x) v sg l) by tauto. clear HU.
  apply bind_Err_inv in H as [H | (dh & _ & H)]; [no_err D H |].
  apply bind_Err_inv in H as [H | (pk & _ & H)].
  { unfold va_recover in H. do 3 next_err D H. apply ok_or_Err_inv in H as [_ ->]. exact HS. }
  apply bind_Err_inv in H as [H | (a & _ & H)]; [no_err D H |].
  apply bind_Err_inv in H as [H | (u3 & _ & H)]; [| discriminate H]. apply ensure_Err_inv in H as [_ ->]. exact HS.
Qed.

Lemma post_err A Q i md raw x er : ~ dull er -> gp_post_dispatch (Q (SIgp x)) i md raw x = Err er ->
  cause A Q i (MPostDispatch md raw) (SIgp x) er.
Proof.
  intros D H. unfold gp_post_dispatch in H. apply bind_Err_inv in H as [H | (m & Hm & H)]; [no_err D H |].
  pose proof (decode_dest _ _ Hm) as Hd.
  apply bind_Err_inv in H as [H | ([gas refund] & Hg & H)].
  { destruct (Nat.ltb (length md) 32); no_err D H. }
  assert (HG : requested_gas (SIgp x) md m gas).
  { unfold requested_gas. rewrite used_gas_of by exact Hd. destruct (Nat.ltb (length md) 32).
    + apply bind_Ok_inv in Hg as (a & _ & Hg). apply Ok_inj, pair_equal_spec in Hg as [Hg _]. now rewrite Hg.
    + apply bind_Ok_inv in Hg as (v & Hv & Hg). apply igp_decode_short_iff in Hv as [_ ->].
      apply bind_Ok_inv in Hg as (a & _ & Hg). apply bind_Ok_inv in Hg as (b & _ & Hg).
      apply Ok_inj, pair_equal_spec in Hg as [Hg _]. now rewrite <- Hg. }
  apply pay_for_err in H; [| exact Hd | exact D].
  destruct H as [(-> & H) | [(-> & H) | [(-> & H) | [(-> & H) | (-> & H)]]]]; cbn [cause]; try exact H.
  - exists m. split; [exact Hm | exact H].
  - right. exists m, gas. split; [exact Hm |]. split; [exact HG | exact H].
Qed.

Lemma handle_err A Q i o sn b x st er : st = SWarpNative x \/ st = SWarpCw20 x -> o < u32_max ->
  ~ dull er -> wp_check_handle i o sn b x = Err er -> cause A Q i (MHandle o sn b) st er.
Proof.
  intros Hst Ho D H. unfold wp_check_handle in H.
  assert (HW : is_warp st) by (destruct Hst; subst st; exact I).
  apply bind_Err_inv in H as [H | (u & _ & H)].
  { apply ensure_Err_inv in H as [H ->]. apply bytes_eqb_neq in H. cbn [cause forbidden]. split; [exact HW |]. left.
    destruct Hst; subst st; cbn [warp_mailbox]; congruence. }
  apply bind_Err_inv in H as [H | (r & Hr & H)]; [no_err D H |].
  apply bind_Err_inv in H as [H | (u' & _ & H)]; [| no_err D H].
  apply ensure_Err_inv in H as [H ->]. apply bytes_eqb_neq in H. cbn [cause forbidden]. split; [exact HW |]. right.
  rewrite reported_route_of by exact Ho.
  destruct Hst; subst st; cbn [routes_of option_map]; destruct (rs_route (get_route (wp_routes x) o)); cbn [expect] in Hr; try discriminate Hr; apply Ok_inj in Hr; congruence.
Qed.

Lemma execute_cause A Q e i m st er : ~ is_cw20 st -> deployed A st -> c_execute A Q e i m st = Err er -> cause A Q i m st er.
Proof.
  intros Hk Hdep H0. destruct (dull_dec er) as [D | D]; [now apply dull_cause |].
  pose proof H0 as H. unfold c_execute, lift in H.
  apply bind_Err_inv in H as [H | (u & Hm & H)]; [no_err D H |]. apply ensure_Ok_inv in Hm. clear u.
  destruct st; try (exfalso; exact (Hk I)); clear Hk;
    (apply bind_Err_inv in H as [H | ([x' r'] & _ & H)]; [| discriminate H]).
  - (* mailbox *) unfold mb_execute in H. destruct m; try (solve [no_err D H]).
    + owning D H.
    + unfold mb_set_default_ism in H. guarded H. no_err D H.
    + unfold mb_set_default_hook in H. guarded H. no_err D H.
    + unfold mb_set_required_hook in H. guarded H. no_err D H.
    + now apply dispatch_err.
    + eapply process_err; eassumption.
  - unfold va_execute in H. destruct m; try (solve [no_err D H]). now apply announce_err.
  - unfold ms_execute in H. destruct m; try (solve [no_err D H]).
    + owning D H.
    + unfold ms_set_validators in H. apply bind_Err_inv in H as [H | (u & Hu & H)]; [apply only_err in H as [-> H]; alien |].
      apply bind_Err_inv in H as [H | (u' & _ & H)]; [apply ensure_Err_inv in H as [H ->]; invalid H0 Hu |].
      apply bind_Err_inv in H as [H | (u'' & _ & H)]; [apply ensure_Err_inv in H as [H ->]; invalid H0 Hu | discriminate H].
    + unfold ms_unset_domain in H. guarded H. discriminate H.
  - unfold ag_execute in H. destruct m; try (solve [no_err D H]).
    + owning D H.
    + unfold ag_set_isms in H. apply bind_Err_inv in H as [H | (u & Hu & H)]; [apply only_err in H as [-> H]; alien |].
      apply bind_Err_inv in H as [H | (u' & _ & H)]; [apply ensure_Err_inv in H as [H ->]; invalid H0 Hu |].
      apply bind_Err_inv in H as [H | (u'' & _ & H)]; [apply ensure_Err_inv in H as [H ->]; invalid H0 Hu | no_err D H].
  - unfold ri_execute in H. destruct m; try (solve [no_err D H]).
    + owning D H.
    + guarded H. no_err D H.
    + guarded H. no_err D H.
  - unfold pi_execute in H. destruct m; try (solve [no_err D H]).
    + owning D H.
    + apply bind_Err_inv in H as [H | (? & ? & H)]; [| discriminate H].
      apply pause_err in H as [(-> & H) | [(-> & -> & H) | (-> & -> & H)]]; [alien | |]; cbn [cause]; unfold reported_paused; cbn; now rewrite H.
  - (* merkle *) unfold mk_execute in H. destruct m; try (solve [no_err D H]). unfold mk_post_dispatch in H.
    apply bind_Err_inv in H as [H | (a & Ha & H)]; [no_err D H |]. apply smart_Ok in Ha. destruct a; try (solve [no_err D H]).
    apply bind_Err_inv in H as [H | (mm & Hmm & H)]; [no_err D H |]. rewrite (decoded_id _ _ Hmm) in H.
    apply bind_Err_inv in H as [H | (u & _ & H)].
    { apply ensure_Err_inv in H as [H ->]. apply bytes_eqb_neq in H. cbn [cause forbidden]. eexists _, _. split; [reflexivity |]. split; [exact Ha | exact H]. }
    apply bind_Err_inv in H as [H | (t & _ & H)]; [| discriminate H]. unfold mt_insert in H.
    apply bind_Err_inv in H as [H | (u5 & _ & H)]; [| no_err D H]. apply ensure_Err_inv in H as [H ->]. apply N.ltb_ge in H.
    apply sane_deployed in Hdep as (ls & _ & Hmax & _). cbn [cause]. unfold reported_count, c_query. cbn [qmsg_ok ensure bind mk_query]. f_equal.
    assert (E : mt_count (mk_tree x) = MAX_LEAVES) by lia. rewrite E. reflexivity.
  - (* aggregate hook *) unfold ah_execute in H. destruct m; try (solve [no_err D H]).
    + owning D H.
    + unfold ah_post_dispatch in H. apply bind_Err_inv in H as [H | (l & _ & H)].
      { exfalso. apply D. revert H. apply plain_mapM. intros h. plainly. }
      no_err D H.
    + guarded H. no_err D H.
  - unfold ph_execute in H. destruct m; try (solve [no_err D H]).
    + owning D H.
    + apply bind_Err_inv in H as [H | (? & ? & H)]; [| discriminate H].
      apply pause_err in H as [(-> & H) | [(-> & -> & H) | (-> & -> & H)]]; [alien | |]; cbn [cause]; unfold reported_paused; cbn; now rewrite H.
    + apply bind_Err_inv in H as [H | (? & ? & H)]; [| discriminate H]. apply ensure_Err_inv in H as [H ->].
      cbn [cause]. unfold reported_paused. cbn. apply negb_false_iff in H. now rewrite H.
  - unfold rh_execute in H. destruct m; try (solve [no_err D H]).
    + owning D H.
    + routing H.
    + apply bind_Err_inv in H as [H | (h & _ & H)]; [| discriminate H]. unfold rh_route in H.
      apply bind_Err_inv in H as [H | (mm & Hmm & H)]; [no_err D H |]. apply ok_or_Err_inv in H as [H ->].
      cbn [cause]. split; [exact I |]. exists mm. split; [exact Hmm |]. unfold selected_hook. rewrite reported_custom_none by (intros []).
      rewrite reported_route_of by (eapply decode_dest; exact Hmm). cbn [routes_of option_map]. now rewrite H.
  - unfold cu_execute in H. destruct m; try (solve [no_err D H]).
    + owning D H.
    + routing H.
    + apply bind_Err_inv in H as [H | (h & _ & H)]; [| discriminate H]. unfold cu_route in H.
      apply bind_Err_inv in H as [H | (mm & Hmm & H)]; [no_err D H |].
      pose proof (decode_dest _ _ Hmm) as Hd.
      destruct (om_get (m_dest mm, m_recipient mm) (cu_hooks x)) eqn:Eg; [discriminate H |]. apply ok_or_Err_inv in H as [H ->].
      cbn [cause]. split; [exact I |]. exists mm. split; [exact Hmm |]. unfold selected_hook. rewrite reported_custom_of, Eg by exact Hd.
      rewrite reported_route_of by exact Hd. cbn [routes_of option_map]. now rewrite H.
    + unfold cu_register in H. apply bind_Err_inv in H as [H | (u & Hu & H)]; [apply only_err in H as [-> H]; alien |].
      apply bind_Err_inv in H as [H | (mm & _ & H)]; [| discriminate H].
      assert (E : er = EInvalidConfig); [| subst er; invalid H0 Hu].
      cbn [foldM] in H. apply bind_Err_inv in H as [H | (m' & _ & H)]; [| discriminate H]. unfold cu_register1 in H.
      next_err D H. apply bind_Err_inv in H as [H | (u' & _ & H)]; [now apply ensure_Err_inv in H | no_err D H].
    + unfold cu_register in H. apply bind_Err_inv in H as [H | (u & Hu & H)]; [apply only_err in H as [-> H]; alien |].
      apply bind_Err_inv in H as [H | (mm & _ & H)]; [| discriminate H].
      assert (E : er = EInvalidConfig); [| subst er; invalid H0 Hu].
      clear H0. revert H. generalize (cu_hooks x). match goal with |- forall _, foldM _ ?l _ = _ -> _ => induction l as [| c l IH] end; intros o H; [discriminate H |].
      cbn [foldM] in H. apply bind_Err_inv in H as [H | (m' & _ & H)].
      * unfold cu_register1 in H. next_err D H. apply bind_Err_inv in H as [H | (u' & _ & H)]; [now apply ensure_Err_inv in H | no_err D H].
      * refine (IH _ _ H). cbn [emsg_ok forallb] in Hm |- *. now apply andb_true_iff in Hm as [_ Hm].
    + unfold cu_clear in H. guarded H. exfalso. apply D. revert H. apply plain_bind; [| intros; apply plain_Ok]. apply plain_foldM. intros. plainly.
    + unfold cu_clear in H. guarded H. exfalso. apply D. revert H. apply plain_bind; [| intros; apply plain_Ok]. apply plain_foldM. intros. plainly.
  - unfold fb_execute in H. destruct m; try (solve [no_err D H]).
    + owning D H.
    + routing H.
    + guarded H. no_err D H.
  - (* fee *) unfold fe_execute in H. destruct m; try (solve [no_err D H]).
    + owning D H.
    + apply bind_Err_inv in H as [H | (n & Hn & H)].
      { apply pay_err in H as [(-> & H) | [(-> & H) | (-> & H)]]; cbn [cause]; exact H. }
      apply paid_amount in Hn. apply bind_Err_inv in H as [H | (u & _ & H)]; [| discriminate H]. apply ensure_Err_inv in H as [H ->]. apply N.leb_gt in H.
      cbn [cause]. left. exists (fe_fee x). split; [reflexivity | congruence].
    + apply bind_Err_inv in H as [H | (u & _ & H)]; [| discriminate H]. apply ensure_Err_inv in H as [H ->]. apply bytes_eqb_neq in H. alien.
    + apply bind_Err_inv in H as [H | (u & _ & H)]; [| discriminate H]. apply ensure_Err_inv in H as [H ->]. apply bytes_eqb_neq in H. alien.
  - (* oracle *) unfold or_execute in H. destruct m; try (solve [no_err D H]).
    + owning D H.
    + apply bind_Err_inv in H as [H | (u & Hu & H)]; [apply only_err in H as [-> H]; alien |].
      apply bind_Err_inv in H as [H | (mm & _ & H)]; [| discriminate H].
      assert (E : er = EInvalidConfig); [| subst er; invalid H0 Hu].
      clear H0. revert H. generalize (or_data x). match goal with |- forall _, foldM _ ?l _ = _ -> _ => induction l as [| c l IH] end; intros o H; [discriminate H |].
      cbn [foldM] in H. apply bind_Err_inv in H as [H | (m' & _ & H)].
      * apply bind_Err_inv in H as [H | (u' & _ & H)]; [now apply ensure_Err_inv in H | discriminate H].
      * refine (IH _ _ H). cbn [emsg_ok forallb] in Hm |- *. now apply andb_true_iff in Hm as [_ Hm].
    + apply bind_Err_inv in H as [H | (u & Hu & H)]; [apply only_err in H as [-> H]; alien | discriminate H].
  - (* paymaster *) unfold gp_execute in H. destruct m; try (solve [no_err D H]).
    + owning D H.
    + routing H.
    + now apply post_err.
    + guarded H. discriminate H.
    + guarded H. discriminate H.
    + guarded H. discriminate H.
    + guarded H. no_err D H.
    + apply pay_for_err in H; [| cbn [emsg_ok] in Hm; apply andb_true_iff in Hm as [Hm _]; now apply N.ltb_lt in Hm | exact D].
      destruct H as [(-> & H) | [(-> & H) | [(-> & H) | [(-> & H) | (-> & H)]]]]; cbn [cause]; exact H.
    + unfold gp_claim in H. apply bind_Err_inv in H as [H | (u & _ & H)]; [| discriminate H]. apply ensure_Err_inv in H as [H ->]. apply bytes_eqb_neq in H.
      cbn [cause forbidden]. split; [exact I |]. unfold reported_beneficiary. cbn. congruence.
  - unfold wn_execute, wp_common in H. destruct m; try (solve [no_err D H]).
    + owning D H.
    + routing H.
    + apply bind_Err_inv in H as [H | (? & ? & H)]; [apply conn_err in H as [-> H]; [alien | exact D] | discriminate H].
    + unfold wn_handle in H. apply bind_Err_inv in H as [H | (w & _ & H)]; [| no_err D H].
      eapply handle_err; [left; reflexivity | cbn [emsg_ok] in Hm; now apply N.ltb_lt in Hm | exact D | exact H].
    + unfold wn_transfer_remote in H. apply bind_Err_inv in H as [H | (t & Ht & H)]; [no_err D H |]. apply ok_or_Ok_inv in Ht.
      apply bind_Err_inv in H as [H | (f & _ & H)]; [| no_err D H].
      apply take_err in H as (-> & k & H1 & H2). cbn [cause]. exists t, k. split; [| auto].
      unfold reported_token, c_query. cbn [qmsg_ok ensure bind wn_query wp_query]. unfold wn_query. cbn [wp_query]. now rewrite Ht.
  - unfold wc_execute, wp_common in H. destruct m; try (solve [no_err D H]).
    + owning D H.
    + routing H.
    + apply bind_Err_inv in H as [H | (? & ? & H)]; [apply conn_err in H as [-> H]; [alien | exact D] | discriminate H].
    + unfold wc_handle in H. apply bind_Err_inv in H as [H | (w & _ & H)]; [| no_err D H].
      eapply handle_err; [right; reflexivity | cbn [emsg_ok] in Hm; now apply N.ltb_lt in Hm | exact D | exact H].
Qed.

(** ** The errors given in certain situations *)
Lemma only_stranger o i : o_owner o <> i_sender i -> only_owner o i = Err EUnauthorized.
Proof. intros H. unfold only_owner. rewrite (proj2 (bytes_eqb_neq _ _)); [reflexivity | congruence]. Qed.
Lemma own_stranger A i o m : o_owner o <> i_sender i ->
  match m with InitOwnershipTransfer n => valid A n | RevokeOwnershipTransfer => True | ClaimOwnership => False end ->
  own_handle A i m o = Err EUnauthorized.
Proof.
  intros H HV. destruct m; [| | contradiction HV]; cbn [own_handle].
  - unfold addr_validate. rewrite HV. cbn [bind]. unfold init_ownership_transfer. rewrite (proj2 (bytes_eqb_neq _ _)); [reflexivity | congruence].
  - unfold revoke_ownership_transfer. rewrite (proj2 (bytes_eqb_neq _ _)); [reflexivity | congruence].
Qed.

Lemma stranger_refused A Q e i m st P :
  setting A st m = Some P -> P -> reported_owner st <> Some (i_sender i) -> c_execute A Q e i m st = Err EUnauthorized.
Proof.
  intros Hs HP Ho.
  assert (Hm : emsg_ok m = true).
  { destruct (reported_owner st) as [o |] eqn:E.
    - pose proof (proj2 (setting_accepted A e (mkInfo o []) m Q st P Hs) (conj (eq_sym E) HP)) as HA.
      unfold accepted in HA. cbn [c_apply] in HA. unfold c_execute in HA. destruct (emsg_ok m); [reflexivity | discriminate HA].
    - rewrite reported_owner_own in E. destruct st; try discriminate E; destruct m; try discriminate Hs;
        match goal with om : ownable_msg |- _ => destruct om; discriminate Hs end. }
  rewrite reported_owner_own in Ho. unfold c_execute. rewrite Hm. cbn [ensure bind].
  destruct m; cbn [setting] in Hs; try (destruct st; discriminate Hs);
    destruct st; try discriminate Hs;
    (cbn [own_of option_map] in Ho; match type of Ho with Some (o_owner ?o) <> _ => assert (Ho' : o_owner o <> i_sender i) by congruence end).
  all: try (match goal with om : ownable_msg |- _ => idtac end;
    match goal with om : ownable_msg |- _ => assert (HV : match om with InitOwnershipTransfer n => valid A n | RevokeOwnershipTransfer => True | ClaimOwnership => False end)
      by (destruct om; try discriminate Hs; apply Some_inj in Hs; subst P; tauto) end;
    cbn [mb_execute ms_execute ag_execute ri_execute pi_execute ah_execute ph_execute rh_execute cu_execute fb_execute fe_execute or_execute gp_execute wn_execute wc_execute wp_common];
    rewrite (own_stranger A i _ _ Ho' HV); reflexivity).
  all: cbn [mb_execute ms_execute ag_execute ri_execute pi_execute ah_execute ph_execute rh_execute cu_execute fb_execute fe_execute or_execute gp_execute wn_execute wc_execute wp_common].
  all: unfold mb_set_default_ism, mb_set_default_hook, mb_set_required_hook, ms_set_validators, ms_unset_domain, ag_set_isms,
    cu_register, cu_clear, router_handle, pause_handle, conn_handle.
  all: try (rewrite (only_stranger _ _ Ho'); reflexivity).
  all: try (rewrite (proj2 (bytes_eqb_neq _ _)); [reflexivity | congruence]).
Qed.

Lemma smart_of q a m r : q_smart q a m = Ok r -> qres_ok r = true -> smart q a m = Ok r.
Proof. unfold smart. intros -> ->. reflexivity. Qed.

Lemma process_refused A Q e i md raw st hrp dom m recipient :
  reported_hrp st = Some hrp -> reported_domain st = Some dom ->
  msg_decode raw = Ok m -> bech32_encode hrp (m_recipient m) = Ok recipient ->
  (m_version m <> 3 -> c_execute A Q e i (MProcess md raw) st = Err EInvalidMessageVersion) /\
  (m_version m = 3 -> m_dest m <> dom -> c_execute A Q e i (MProcess md raw) st = Err EInvalidDestinationDomain) /\
  (forall own dflt, m_version m = 3 -> m_dest m = dom ->
    q_smart (Q st) recipient QIsmSpecifier = Ok (RIsm own) -> reported_default_ism st = Some dflt ->
    (reported_delivered st (keccak256_hash raw) = Some true ->
      c_execute A Q e i (MProcess md raw) st = Err EAlreadyDeliveredMessage) /\
    (reported_delivered st (keccak256_hash raw) = Some false ->
     (forall st1, reported_delivered st1 (keccak256_hash raw) = Some true ->
       q_smart (Q st1) (match own with Some a => a | None => dflt end) (QVerify md raw) = Ok (RVerified false)) ->
      c_execute A Q e i (MProcess md raw) st = Err EVerifyFailed)).
Proof.
  intros Hh Hd Hm Hr.
  destruct st as [x | | | | | | | | | | | | | | | | |]; try discriminate Hh.
  cbn in Hh, Hd. apply Some_inj in Hh, Hd. subst hrp dom.
  unfold c_execute. cbn [emsg_ok ensure bind]. cbn [mb_execute]. unfold mb_process. rewrite Hm. cbn [bind]. rewrite Hr. cbn [bind].
  pose proof (decoded_id _ _ Hm) as Hid. pose proof (msg_decode_Ok_inv _ _ Hm) as (_ & _ & Hraw).
  repeat split.
  - intros HV. rewrite (proj2 (N.eqb_neq _ _)) by exact HV. reflexivity.
  - intros HV HD. rewrite (proj2 (N.eqb_eq _ _)) by exact HV. rewrite (proj2 (N.eqb_neq _ _)) by exact HD. reflexivity.
  - rewrite reported_ism_of in H2. intros HX. rewrite reported_delivered_of in HX.
    rewrite (proj2 (N.eqb_eq _ _)) by assumption. rewrite (proj2 (N.eqb_eq _ _)) by assumption. cbn [ensure bind].
    unfold recipient_ism. rewrite (smart_of _ _ _ _ H1) by reflexivity. cbn [bind]. unfold get_default_ism. rewrite H2. cbn [ok_or bind].
    rewrite Hid. destruct (om_get _ _); [reflexivity | discriminate HX].
  - rewrite reported_ism_of in H2. intros HX HQ. rewrite reported_delivered_of in HX.
    rewrite (proj2 (N.eqb_eq _ _)) by assumption. rewrite (proj2 (N.eqb_eq _ _)) by assumption. cbn [ensure bind].
    unfold recipient_ism. rewrite (smart_of _ _ _ _ H1) by reflexivity. cbn [bind]. unfold get_default_ism. rewrite H2. cbn [ok_or bind].
    rewrite Hid. destruct (om_get (keccak256_hash raw) (mb_deliveries x)); [discriminate HX |]. cbn [ensure bind].
    unfold ism_verify. rewrite Hraw. cbn [expect bind]. rewrite (smart_of _ _ _ (RVerified false)); [reflexivity | | reflexivity].
    apply HQ. rewrite reported_delivered_of. cbn [mb_deliver mb_deliveries]. now rewrite om_get_set, keqb_refl.
Qed.

Lemma payment_refused A Q e i id d gas refund st : is_igp st -> d < 2 ^ 32 -> gas < 2 ^ 256 ->
  let call := c_execute A Q e i (MPayForGas id d gas refund) st in
  (i_funds i = [] -> call = Err EPaymentNoFunds) /\
  ((1 < length (i_funds i))%nat -> call = Err EPaymentMultiple) /\
  (forall c, i_funds i = [c] -> c_amount c <> 0 ->
    (c_denom c <> gas_token st -> call = Err EPaymentMissingDenom) /\
    (c_denom c = gas_token st ->
      (reported_route st d = Some None -> call = Err EGasOracleNotFound) /\
      (forall price rate, gas_terms (Q st) st d price rate -> fits gas price rate ->
        c_amount c < gas_cost gas price rate -> call = Err EInsufficientFunds))).
Proof.
  intros Hk Hd Hg call. subst call. destruct st; try contradiction Hk.
  unfold c_execute. cbn [emsg_ok]. unfold u32_ok, u256_ok.
  rewrite (proj2 (N.ltb_lt d u32_max)) by exact Hd. rewrite (proj2 (N.ltb_lt gas u256_max)) by exact Hg.
  cbn [andb ensure bind gp_execute]. unfold gp_pay_for_gas, must_pay.
  split; [intros -> ; reflexivity |]. split.
  { destruct (i_funds i) as [| c [| c' l]]; cbn [length]; intros HL; try lia. reflexivity. }
  intros c -> Hc. rewrite (proj2 (N.eqb_neq _ _) Hc). split; intros HD.
  - cbn [gas_token] in HD. rewrite (proj2 (bytes_eqb_neq _ _) HD). reflexivity.
  - cbn [gas_token] in HD. rewrite (proj2 (bytes_eqb_eq _ _) HD). cbn [bind]. split.
    + intros HR. rewrite reported_route_of in HR by exact Hd. cbn [routes_of option_map] in HR. apply Some_inj in HR.
      unfold gp_quote. rewrite HR. reflexivity.
    + intros price rate HT HF HL.
      rewrite (proj2 (gp_quote_iff (Q (SIgp x)) x d gas _ Hd) (ex_intro _ price (ex_intro _ rate (conj HT (conj HF eq_refl))))).
      cbn [bind]. rewrite (proj2 (N.leb_gt _ _) HL). reflexivity.
Qed.

Lemma repeated_refused A Q e i v sg l st ls : deployed A st -> length v = 20%nat ->
  announced st v = Some ls -> In l ls -> c_execute A Q e i (MAnnounce v sg l) st = Err EVerifyReplay.
Proof.
  intros (q & e0 & i0 & m0 & r0 & st0 & h & Hi & ->) Hv Hls Hl.
  assert (HV : is_va (c_run A st0 h)).
  { destruct (c_run A st0 h); try discriminate Hls. exact I. }
  assert (HV0 : is_va st0).
  { revert st0 HV Hi Hls. clear. intros st0 HV _ _. revert st0 HV. induction h as [| ev h IH]; intros st0 Hst; [exact Hst |].
    rewrite c_run_cons in Hst. apply IH in Hst. revert Hst. clear. unfold c_step. destruct (c_apply A ev st0) as [[st' r] | |] eqn:E; auto.
    intros Hv. destruct ev as [e i m Q | id rr]; cbn [c_apply] in E.
    - unfold c_execute, lift in E. apply bind_Ok_inv in E as (u & _ & E).
      destruct st0; apply bind_Ok_inv in E as ([x' r'] & E & E'); apply Ok_inj, pair_equal_spec in E' as [<- _]; try contradiction Hv; exact I.
    - destruct st0; cbn [c_reply] in E; try discriminate E; unfold lift in E; apply bind_Ok_inv in E as ([x' r'] & E & E');
        apply Ok_inj, pair_equal_spec in E' as [<- _]; contradiction Hv. }
  assert (HM : exists mbx, m0 = IVa mbx).
  { unfold c_instantiate, lift in Hi. apply bind_Ok_inv in Hi as (u & _ & Hi).
    destruct m0; try (apply bind_Ok_inv in Hi as ([x' r'] & Hi & E); apply Ok_inj, pair_equal_spec in E as [<- _]; try contradiction HV0); eauto.
    all: try (apply Ok_inj, pair_equal_spec in Hi as [<- _]; contradiction HV0). }
  destruct HM as [mbx ->]. destruct (va_initial A q e0 i0 mbx _ r0 v Hi) as (_ & Ha & _).
  pose proof (announced_history A st0 h v [] HV0 Ha) as HH. rewrite HH in Hls. apply Some_inj in Hls. subst ls.
  cbn [app] in Hl. unfold locations_of in Hl. apply in_map_iff in Hl as ([v' l'] & E & Hin). cbn [snd] in E. subst l'.
  apply filter_In in Hin as [Hin E]. cbn [fst] in E. apply bytes_eqb_eq in E. subst v'.
  destruct st0 as [ | x0 | | | | | | | | | | | | | | | |]; try contradiction HV0.
  pose proof (replay_history A x0 h v l) as HR. destruct (c_run A (SVa x0) h) as [ | x | | | | | | | | | | | | | | | |]; try contradiction HR.
  assert (HF : ~ fresh x v l).
  { intros F. apply HR in F as [_ F]. exact (F v l Hin eq_refl). }
  unfold c_execute. cbn [emsg_ok ensure bind va_execute]. unfold va_announce. rewrite Hv. cbn [Nat.eqb ensure bind]. unfold fresh in HF.
  destruct (om_get (va_replay_hash v l) (va_replay x)); [reflexivity | exfalso; now apply HF].
Qed.

Lemma dispatch_refused A Q e i d st n dom :
  reported_nonce st = Some n -> reported_domain st = Some dom -> d_dest d < 2 ^ 32 ->
  (length (d_recipient d) <> 32%nat ->
    c_execute A Q e i (MDispatch d) st = Err (EInvalidAddressLength (N.of_nat (length (d_recipient d))))) /\
  (forall sender dflt required fees x, length (d_recipient d) = 32%nat ->
    bech32_to_h256 (i_sender i) = Ok sender -> reported_default_hook st = Some dflt ->
    match d_hook d with Some h => valid A h | None => True end -> reported_required_hook st = Some required ->
    q_smart (Q st) required (QHookQuote (request_metadata d)
      (msg_encode (mkMessage 3 n dom sender (d_dest d) (d_recipient d) (d_body d)))) = Ok (RFees fees) ->
    Forall (fun c => c_amount c < 2 ^ 128) fees -> no_repeats (i_funds i) ->
    amount_of x (i_funds i) < amount_of x fees ->
    c_execute A Q e i (MDispatch d) st = Err EHookPayment).
Proof.
  intros Hn Hdom Hd. destruct st as [y | | | | | | | | | | | | | | | | |]; try discriminate Hn.
  cbn in Hn, Hdom. apply Some_inj in Hn, Hdom. subst n dom.
  unfold c_execute. cbn [emsg_ok]. unfold u32_ok. rewrite (proj2 (N.ltb_lt _ u32_max)) by exact Hd.
  cbn [ensure bind mb_execute]. unfold mb_dispatch. cbv zeta. split.
  - intros HL. rewrite (proj2 (PeanoNat.Nat.eqb_neq _ _) HL). reflexivity.
  - intros sender dflt required fees z HL Hs Hdf Hh Hr Hq HF HN HP.
    rewrite (proj2 (PeanoNat.Nat.eqb_eq _ _) HL). cbn [ensure bind]. unfold to_msg. rewrite Hs. cbn [bind].
    unfold get_default_hook, get_required_hook.
    assert (E1 : mb_hook y = Some dflt).
    { revert Hdf. unfold reported_default_hook, c_query. cbn [qmsg_ok ensure bind mb_query]. unfold get_default_hook. destruct (mb_hook y); [intros E; exact E | discriminate]. }
    assert (E2 : mb_required y = Some required).
    { revert Hr. unfold reported_required_hook, c_query. cbn [qmsg_ok ensure bind mb_query]. unfold get_required_hook. destruct (mb_required y); [intros E; exact E | discriminate]. }
    rewrite E1, E2. cbn [expect bind].
    assert (E3 : exists h, get_hook_addr A d dflt = Ok h).
    { unfold get_hook_addr. destruct (d_hook d) as [h |]; [| eauto]. unfold addr_validate. rewrite Hh. eauto. }
    destruct E3 as [h E3]. rewrite E3. cbn [bind]. unfold quote_dispatch.
    rewrite (smart_of _ _ _ (RFees fees)); [cbn [bind] | exact Hq | cbn [qres_ok]].
    2: { apply forallb_forall. rewrite Forall_forall in HF. intros c Hc. apply N.ltb_lt. now apply HF. }
    unfold pay_required. destruct (try_from_ok _ HN) as [m Em]. rewrite Em. cbn [bind].
    destruct (try_from_spec _ _ Em) as (W & G & _).
    destruct (foldM coins_sub fees m) as [m' | |] eqn:E; try reflexivity.
    + exfalso. destruct (coins_sub_all_spec _ _ _ W E) as [_ HS]. specialize (HS z). rewrite G in HS. lia.
    + exfalso. clear -E. revert m E. induction fees as [| c l IH]; intros m E; cbn [foldM] in E; [discriminate E |].
      destruct (coins_sub m c) as [m1 | |] eqn:E1; cbn [bind] in E; [eauto | discriminate E |].
      unfold coins_sub in E1. destruct (om_get _ _); [destruct (_ <? _); [discriminate E1 |]; destruct (_ =? _); discriminate E1 | destruct (_ =? _); discriminate E1].
Qed.

Lemma reserved_refused A Q e i st :
  (is_igp st -> reported_beneficiary st <> Some (i_sender i) -> c_execute A Q e i MClaim st = Err EUnauthorized) /\
  (forall origin sn body, is_warp st -> origin < 2 ^ 32 ->
    (warp_mailbox st <> Some (i_sender i) \/
     exists r, reported_route st origin = Some (Some r) /\ r <> sn) ->
    c_execute A Q e i (MHandle origin sn body) st = Err EUnauthorized) /\
  (forall wrap p, wrap = MOwnable \/ wrap = MOracleOwnership -> setting A st (wrap RevokeOwnershipTransfer) <> None ->
    reported_pending st = Some p -> p <> i_sender i -> c_execute A Q e i (wrap ClaimOwnership) st = Err EUnauthorized).
Proof.
  split; [| split].
  - intros Hk Hb. destruct st; try contradiction Hk. unfold c_execute. cbn [emsg_ok ensure bind gp_execute]. unfold gp_claim.
    rewrite (proj2 (bytes_eqb_neq _ _)); [reflexivity |]. intros E. apply Hb. rewrite E. reflexivity.
  - intros o sn b Hk Ho H. unfold c_execute. cbn [emsg_ok]. unfold u32_ok. rewrite (proj2 (N.ltb_lt _ u32_max)) by exact Ho. cbn [ensure bind].
    assert (HH : forall x, st = SWarpNative x \/ st = SWarpCw20 x -> wp_check_handle i o sn b x = Err EUnauthorized).
    { intros x Hx. unfold wp_check_handle. destruct (bytes_eqb (i_sender i) (wp_mailbox x)) eqn:E; [| reflexivity].
      apply bytes_eqb_eq in E. destruct H as [H | (r & Hr & Hn)].
      - exfalso. apply H. destruct Hx; subst st; cbn [warp_mailbox]; now rewrite E.
      - rewrite reported_route_of in Hr by exact Ho. cbn [ensure bind].
        assert (E' : rs_route (get_route (wp_routes x) o) = Some r) by (destruct Hx; subst st; cbn [routes_of option_map] in Hr; now apply Some_inj in Hr).
        rewrite E'. cbn [expect bind]. rewrite (proj2 (bytes_eqb_neq _ _)); [reflexivity | congruence]. }
    destruct st; try contradiction Hk.
    + cbn [wn_execute wp_common]. unfold wn_handle. rewrite (HH x) by auto. reflexivity.
    + cbn [wc_execute wp_common]. unfold wc_handle. rewrite (HH x) by auto. reflexivity.
  - intros m p Hm Hs Hp Hn. rewrite reported_pending_own in Hp. unfold c_execute.
    assert (HC : forall o, o_pending o = Some p -> own_handle A i ClaimOwnership o = Err EUnauthorized).
    { intros o E. cbn [own_handle]. unfold claim_ownership. rewrite E. cbn [ensure ok_or bind]. rewrite (proj2 (bytes_eqb_neq _ _)); [reflexivity | congruence]. }
    destruct Hm as [-> | ->]; cbn [emsg_ok ensure bind]; destruct st; try (exfalso; apply Hs; reflexivity);
      cbn [own_of option_map] in Hp; match type of Hp with o_pending ?o = _ => specialize (HC o Hp) | Some _ = _ => idtac end;
      cbn [mb_execute ms_execute ag_execute ri_execute pi_execute ah_execute ph_execute rh_execute cu_execute fb_execute fe_execute or_execute gp_execute wn_execute wc_execute wp_common];
      rewrite HC; reflexivity.
Qed.

Lemma post_refused A Q e i md raw st :
  let call := c_execute A Q e i (MPostDispatch md raw) st in
  (is_pausable_hook st -> reported_paused st = Some true -> call = Err EPaused) /\
  (forall m, is_router_hook st -> ~ is_fallback_hook st -> msg_decode raw = Ok m -> selected_hook st m = None ->
    call = Err ERouteNotFound) /\
  (forall m mb latest, is_merkle_hook st -> msg_decode raw = Ok m -> reported_hook_mailbox st = Some mb ->
    q_smart (Q st) mb QLatestDispatchId = Ok (RMessageId latest) -> latest <> keccak256_hash raw ->
    call = Err EUnauthorized) /\
  (forall fee, reported_fee st = Some fee ->
    (i_funds i = [] -> call = Err EPaymentNoFunds) /\
    ((1 < length (i_funds i))%nat -> call = Err EPaymentMultiple) /\
    (forall c, i_funds i = [c] -> c_amount c <> 0 ->
      (c_denom c <> c_denom fee -> call = Err EPaymentMissingDenom) /\
      (c_denom c = c_denom fee -> c_amount c < c_amount fee -> call = Err EInsufficientFunds))).
Proof.
  intros call. subst call. unfold c_execute. cbn [emsg_ok ensure bind].
  split; [| split; [| split]].
  - intros Hk H. destruct st; try contradiction Hk. unfold reported_paused in H. cbn in H.
    assert (E : ph_paused x = true) by congruence. cbn [ph_execute]. rewrite E. reflexivity.
  - intros m Hk Hf Hd H. pose proof (decode_dest _ _ Hd) as Hm. unfold selected_hook in H.
    destruct st; try contradiction Hk.
    + rewrite reported_custom_none in H by (intros []). rewrite reported_route_of in H by exact Hm.
      cbn [routes_of option_map] in H. cbn [rh_execute]. unfold rh_route. rewrite Hd. cbn [bind].
      destruct (rs_route _); [discriminate H | reflexivity].
    + rewrite reported_custom_of, reported_route_of in H by exact Hm. cbn [routes_of option_map] in H.
      cbn [cu_execute]. unfold cu_route. rewrite Hd. cbn [bind].
      destruct (om_get _ _); [discriminate H |]. destruct (rs_route _); [discriminate H | reflexivity].
  - intros m mb latest Hk Hd Hb Hq Hn. destruct st; try contradiction Hk.
    unfold reported_hook_mailbox in Hb. cbn in Hb. apply Some_inj in Hb. subst mb.
    cbn [mk_execute]. unfold mk_post_dispatch, smart. rewrite Hq. cbn [qres_ok bind]. rewrite Hd. cbn [bind].
    rewrite (proj2 (bytes_eqb_neq _ _)); [reflexivity |]. intros E. apply Hn. rewrite E. unfold msg_id. now rewrite (proj2 (proj2 (msg_decode_Ok_inv _ _ Hd))).
  - intros fee Hfee. destruct st; try discriminate Hfee. unfold reported_fee in Hfee. cbn in Hfee. apply Some_inj in Hfee. subst fee.
    cbn [fe_execute]. unfold must_pay.
    split; [intros -> ; reflexivity |]. split.
    { destruct (i_funds i) as [| c [| c' l]]; cbn [length]; intros HL; try lia. reflexivity. }
    intros c -> Hc. rewrite (proj2 (N.eqb_neq _ _) Hc). split.
    + intros HD. rewrite (proj2 (bytes_eqb_neq _ _) HD). reflexivity.
    + intros HD HL. rewrite (proj2 (bytes_eqb_eq _ _) HD). cbn [bind]. rewrite (proj2 (N.leb_gt _ _) HL). reflexivity.
Qed.
