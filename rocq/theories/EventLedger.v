(** * What the events of the merkle hook, the announcement contract, the gas
      paymaster and the warp routes tell. *)
From Coq Require Import List NArith Bool Lia.
From Verif Require Import Base BaseFacts OMap Crypto Message CodecFacts Bech32 Metadata Merkle MerkleFacts Hex HexFacts
  Coins CoinsFacts Chain Ownable Router Mailbox Va Isms Hooks Igp Warp Contracts StepFacts Spec SpecModules SpecVersion
  AccessFacts MailboxConfFacts MailboxFacts IsmFacts HookFacts IgpFacts VaFacts WarpFacts ProtoFacts
  World SpecWorld WorldFacts WorldMailbox WorldMerkle Events SpecEvents EventFacts.
Import ListNotations.

(** ** Merkle hook *)
Definition numbers_from (k n : nat) : list N := map N.of_nat (seq k n).

Lemma merkle_told_from A x ls h :
  tree_rep ls (mk_tree x) ->
  let log := emitted A (SMerkle x) h in
  let new := map keccak256_hash (posted A (SMerkle x) h) in
  told (s "hpl_hook_merkle::post_dispatch") (s "message_id") log = map hex_of new /\
  map decimal (told (s "hpl_hook_merkle::post_dispatch") (s "index") log) = numbers_from (length ls) (length new) /\
  map decimal (told (s "hpl_hook_merkle::inserted_into_tree") (s "index") log) = numbers_from (length ls) (length new) /\
  exists y, c_run A (SMerkle x) h = SMerkle y /\ tree_rep (ls ++ new) (mk_tree y).
Proof.
  cbv zeta. revert x ls. induction h as [|ev h IH]; intros x ls T.
  - repeat split; try reflexivity. exists x. cbn [posted accepted_calls flat_map map]. rewrite app_nil_r. auto.
  - rewrite emitted_cons, c_run_cons, !told_app, !map_app. unfold posted. cbn [accepted_calls]. rewrite flat_map_app.
    fold (posted A (c_step A (SMerkle x) ev) h).
    destruct (accepted A (SMerkle x) ev) eqn:Ha; [|rewrite (c_step_rejected _ _ _ Ha); now apply IH].
    pose proof Ha as Ha'. apply accepted_apply in Ha as [r H].
    pose proof H as H0. apply mk_answer in H as (e & i & md & raw & Q & latest & t & -> & _ & _ & Ht & Es & _).
    rewrite Es. cbn [flat_map snd ev_msg app map].
    assert (Hlt : mt_count (mk_tree x) < MAX_LEAVES).
    { destruct (N.ltb_spec0 (mt_count (mk_tree x)) MAX_LEAVES) as [L|L]; [exact L|].
      rewrite (tree_rep_full _ _ (keccak256_hash raw) T) in Ht by lia. discriminate. }
    destruct (tree_rep_insert _ _ (keccak256_hash raw) T Hlt) as (t' & Ht' & T').
    rewrite Ht' in Ht. apply Ok_inj in Ht. subst t'.
    destruct (IH (mkMk (mk_mailbox x) t) (ls ++ [keccak256_hash raw]) T') as (F1 & F2 & F3 & y & F4 & F5).
    rewrite F1, F2, F3.
    assert (Hd : exists m, msg_decode raw = Ok m /\ msg_encode m = raw).
    { cbn [c_apply] in H0. unfold c_execute, lift in H0. apply bind_Ok_inv in H0 as (u & _ & H0).
      apply bind_Ok_inv in H0 as ([x' r'] & H1 & _). cbn [mk_execute] in H1. unfold mk_post_dispatch in H1.
      apply bind_Ok_inv in H1 as (qr & _ & H1). destruct qr; try discriminate H1.
      apply bind_Ok_inv in H1 as (m & H1 & _). exists m. split; [exact H1|]. apply (msg_decode_Ok_inv _ _ H1). }
    destruct Hd as (m & Hm & Em). cbn [call_events c_events mk_events]. rewrite Hm. unfold msg_id. rewrite Em.
    assert (Hn : decimal (dec (mt_count (mk_tree x))) = N.of_nat (length ls)).
    { destruct T as (T1 & T2 & _). rewrite <- T1. apply dec_read. eapply N.le_lt_trans; [exact T2|reflexivity]. }
    rewrite <- (hex_of_encode (keccak256_hash raw)). unfold numbers_from in *.
    cbn [length seq map]. rewrite app_length. cbn [length]. replace (length ls + 1)%nat with (S (length ls)) by lia.
    rewrite <- Hn. split; [reflexivity|]. split; [reflexivity|]. split; [reflexivity|].
    exists y. split; [exact F4|]. rewrite <- app_assoc in F5. exact F5.
Qed.

Lemma merkle_told A q e i mailbox st0 r h :
  c_instantiate A q e i (IMerkle mailbox) = Ok (st0, r) ->
  let log := emitted A st0 h in
  let leaves := map keccak256_hash (posted A st0 h) in
  told (s "hpl_hook_merkle::post_dispatch") (s "message_id") log = map hex_of leaves /\
  map decimal (told (s "hpl_hook_merkle::post_dispatch") (s "index") log) = map N.of_nat (seq 0 (length leaves)) /\
  map decimal (told (s "hpl_hook_merkle::inserted_into_tree") (s "index") log) = map N.of_nat (seq 0 (length leaves)) /\
  reported_count (c_run A st0 h) = Some (N.of_nat (length leaves)) /\
  reported_root (c_run A st0 h) = Some (padded_root leaves).
Proof.
  intros H. destruct (merkle_message _ _ _ _ _ _ _ H) as (mb & _ & ->).
  { unfold c_instantiate, lift in H. cbn [imsg_ok ensure bind] in H. inv_all. reflexivity. }
  cbv zeta. destruct (merkle_told_from A (mkMk mb mt_default) [] h tree_rep_default) as (F1 & F2 & F3 & y & F4 & F5).
  split; [exact F1|]. split; [exact F2|]. split; [exact F3|]. rewrite F4. cbn [app] in F5.
  set (leaves := map keccak256_hash _) in *. clearbody leaves. pose proof (tree_rep_root _ _ F5) as R.
  destruct F5 as (T1 & T2 & _). unfold reported_count, reported_root, c_query. cbn [qmsg_ok ensure bind mk_query].
  rewrite R, T1 in *. split; [|reflexivity]. f_equal. apply N.mod_small. unfold MAX_LEAVES in T2. unfold u32_max. lia.
Qed.

(** ** Announcements *)
Lemma va_told A st h :
  is_va st ->
  let tells := told (s "validator-announcement") in
  tells (s "validator") (emitted A st h) = map (fun p => hex_of (fst p)) (announcements A st h) /\
  tells (s "storage-location") (emitted A st h) = map snd (announcements A st h).
Proof.
  cbv zeta. revert st. induction h as [|ev h IH]; intros st Hk; [split; reflexivity|].
  rewrite emitted_cons, announcements_cons, !told_app, !map_app.
  destruct (IH (c_step A st ev) (va_rejected_or A st ev Hk)) as [-> ->].
  destruct (accepted A st ev) eqn:Ea; [|split; reflexivity].
  destruct st as [ |x| | | | | | | | | | | | | | | |]; try contradiction Hk.
  destruct (va_step A x ev Ea) as (e & i & v' & sg & l & Q & x' & -> & Es & H).
  cbn [call_events c_events va_events ev_msg map fst snd]. rewrite <- hex_of_encode. split; reflexivity.
Qed.

(** ** Gas payment *)
Lemma pay_told q i id d gas refund x r :
  d < u32_max -> gas < u256_max -> gas_paid q (SIgp x) i d gas refund r ->
  exists w, pay_events q i id d gas x = [w] /\ payment_told q (SIgp x) i id d gas r w.
Proof.
  intros Hd Hg H. pose proof H as (price & rate & paid & H1 & H2 & H3 & H4 & H5 & H6 & Hr).
  pose proof (gas_kept _ _ _ _ _ _ _ H) as (p' & r' & H1' & Hk).
  destruct (terms_unique q (SIgp x) d p' r' price rate H1' H1) as [-> ->].
  cbn [gas_token] in *.
  assert (Q1 : must_pay (i_funds i) (gp_token x) = Ok paid) by (apply must_pay_iff; auto).
  assert (Q2 : gp_quote q x d gas = Ok (gas_cost gas price rate)).
  { apply gp_quote_iff; [exact Hd|]. exists price, rate. auto. }
  unfold pay_events. rewrite Q1, Q2. eexists. split; [reflexivity|].
  assert (Hp : amount_of (gp_token x) (i_funds i) = paid).
  { rewrite H3, amount_of_cons, bytes_eqb_refl. cbn. lia. }
  specialize (Hk (gp_token x)). rewrite bytes_eqb_refl in Hk.
  assert (Hc : gas_cost gas price rate * 10 ^ 10 < u256_max).
  { eapply N.le_lt_trans; [|exact (proj2 H2)]. unfold gas_cost. rewrite N.mul_comm. apply N.mul_div_le. lia. }
  remember (gas_cost gas price rate) as c eqn:Ec.
  assert (Hpaid : paid < u256_max).
  { clear - Hc H6. change (10 ^ 10) with 10000000000 in Hc. unfold u256_max in *. lia. }
  assert (Hc' : c < u256_max) by lia. clear Hc.
  split; [reflexivity|]. split; [reflexivity|]. split; [rewrite <- hex_of_encode; reflexivity|].
  split; [exact (f_equal Some (dec_read d (small_u256 d Hd)))|].
  split; [exact (f_equal Some (dec_read gas Hg))|].
  exists price, rate. rewrite <- Ec. split; [exact H1|]. split; [exact (f_equal Some (dec_read _ Hc'))|].
  cbn [gas_token].
  split; [rewrite Hp; exact (f_equal Some (dec_read _ Hpaid))|]. rewrite Hp in Hk.
  split; [|rewrite Hp; exact Hk].
  replace (amount_of (gp_token x) (sends r)) with (paid - c) by lia.
  refine (f_equal Some (dec_read _ _)). eapply N.le_lt_trans; [|exact Hpaid]. lia.
Qed.

Lemma payment_events A Q e i id d gas refund st st' r :
  is_igp st -> c_execute A Q e i (MPayForGas id d gas refund) st = Ok (st', r) ->
  exists w, call_events (EvExec e i (MPayForGas id d gas refund) Q) st = [w] /\
    payment_told (Q st) st i id d gas r w.
Proof.
  intros Hk H. apply gas_payment in H as (Hd & Hg & _ & H); [|exact Hk].
  destruct st as [ | | | | | | | | | | | | | |x| | |]; try contradiction Hk.
  exact (pay_told (Q (SIgp x)) i id d gas refund x r Hd Hg H).
Qed.

(** gas figures set by calls fit 128 bits *)
Definition small_gas (st : cstate) : Prop :=
  (forall d g, d < 2 ^ 32 -> reported_gas st d = Some g -> g < 2 ^ 128) /\
  (forall g, reported_default_gas st = Some g -> g < 2 ^ 128).

Lemma fold_gas d l acc g :
  forallb (fun p : N * N => u32_ok (fst p) && u128_ok (snd p))%bool l = true ->
  (forall g, acc = Some g -> g < 2 ^ 128) ->
  fold_left (fun acc p => if fst p =? d then Some (snd p) else acc) l acc = Some g -> g < 2 ^ 128.
Proof.
  revert acc. induction l as [|[d' g'] l IH]; intros acc Hl Ha H; [now apply Ha|].
  cbn [forallb fst snd] in Hl. apply andb_true_iff in Hl as [Hg Hl]. apply andb_true_iff in Hg as [_ Hg].
  cbn [fold_left fst snd] in H. apply (IH _ Hl) in H; [exact H|].
  intros g0. destruct (d' =? d); [|apply Ha]. intros E. apply Some_inj in E as <-. now apply N.ltb_lt in Hg.
Qed.

Lemma small_gas_step A st ev : is_igp st -> small_gas st -> small_gas (c_step A st ev).
Proof.
  intros Hk [H1 H2]. destruct (accepted A st ev) eqn:Ha; [|rewrite (c_step_rejected _ _ _ Ha); now split].
  split.
  - intros d g Hd. pose proof (gas_last_set A st [ev] d Hk Hd) as E. rewrite c_run_cons in E. cbn [c_run fold_left] in E.
    unfold replay in E. cbn [accepted_calls] in E. rewrite Ha in E. cbn [app fold_left snd] in E. cbn in E. rewrite E. clear E.
    destruct ev as [e i m Q|]; [|apply (H1 d g Hd)]. cbn [ev_msg]. pose proof (accepted_ok _ _ _ _ _ _ Ha) as Hok.
    destruct m; try apply (H1 d g Hd); cbn [gas_update emsg_ok] in *.
    + apply (fold_gas d _ _ g Hok). intros g0. apply (H1 d g0 Hd).
    + destruct (existsb _ _); [discriminate|apply (H1 d g Hd)].
  - intros g. pose proof (default_gas_last_set A st [ev] Hk) as E. rewrite c_run_cons in E. cbn [c_run fold_left] in E.
    unfold replay in E. cbn [accepted_calls] in E. rewrite Ha in E. cbn [app fold_left snd] in E. cbn in E. rewrite E. clear E.
    destruct ev as [e i m Q|]; [|apply (H2 g)]. cbn [ev_msg]. pose proof (accepted_ok _ _ _ _ _ _ Ha) as Hok.
    destruct m; try apply (H2 g); cbn [default_gas_update emsg_ok] in *.
    intros E. apply Some_inj in E as <-. now apply N.ltb_lt in Hok.
Qed.

Lemma igp_keep A st ev : is_igp st -> is_igp (c_step A st ev).
Proof. revert st ev. keep_kind. Qed.

Lemma small_gas_keep A st h : is_igp st -> small_gas st -> is_igp (c_run A st h) /\ small_gas (c_run A st h).
Proof.
  revert st. induction h as [|ev h IH]; intros st Hk Hg; [now split|]. rewrite c_run_cons.
  apply IH; [now apply igp_keep|now apply small_gas_step].
Qed.

Lemma small_gas_born A q e i hrp o tk b g st0 r :
  c_instantiate A q e i (IIgp hrp o tk b g) = Ok (st0, r) -> is_igp st0 /\ small_gas st0.
Proof.
  intros H. split; [exact (proj1 (igp_initial _ _ _ _ _ _ _ _ _ _ _ 0 H eq_refl))|]. split.
  - intros d n Hd. destruct (igp_initial _ _ _ _ _ _ _ _ _ _ _ d H Hd) as (_ & -> & _). discriminate.
  - intros n. destruct (igp_initial _ _ _ _ _ _ _ _ _ _ _ 0 H eq_refl) as (_ & _ & -> & _).
    intros E. apply Some_inj in E as <-. unfold c_instantiate in H. apply bind_Ok_inv in H as (u & H & _).
    apply ensure_Ok_inv in H. cbn [imsg_ok] in H. now apply N.ltb_lt in H.
Qed.

Lemma post_dispatch_events A Q e i md raw st st' r :
  is_igp st -> small_gas st -> c_execute A Q e i (MPostDispatch md raw) st = Ok (st', r) ->
  exists w w' m gas, call_events (EvExec e i (MPostDispatch md raw) Q) st = [w; w'] /\
    msg_decode raw = Ok m /\ requested_gas st md m gas /\
    payment_told (Q st) st i (keccak256_hash raw) (m_dest m) gas r w /\
    of_type (s "igp-core-post-dispatch") w' = true /\ attr (s "message") w' = Some (hex_of raw) /\
    attr (s "metadata") w' = Some (match md with [] => s "0x" | _ => hex_of md end).
Proof.
  intros Hk Hs H. apply gas_dispatch in H as (m & gas & refund & Hd & Hg & _ & _ & H); [|exact Hk].
  destruct st as [ | | | | | | | | | | | | | |x| | |]; try contradiction Hk.
  pose proof (decode_dest _ _ Hd) as Hm.
  assert (Hg' : (if Nat.ltb (length md) 32 then Ok (gp_gas_for x (m_dest m))
                 else g <- igp_decode md ;; Ok (ig_gas_limit g)) = Ok gas /\ gas < u256_max).
  { unfold requested_gas in Hg. destruct (Nat.ltb (length md) 32) eqn:El.
    - assert (Hb : gas < 2 ^ 128).
      { unfold used_gas in Hg. destruct (reported_gas (SIgp x) (m_dest m)) as [g|] eqn:Eg.
        - apply Some_inj in Hg. subst g. exact (proj1 Hs _ _ Hm Eg).
        - exact (proj2 Hs _ Hg). }
      rewrite used_gas_of in Hg by exact Hm. apply Some_inj in Hg as <-. split; [reflexivity|].
      eapply N.lt_trans; [exact Hb|reflexivity].
    - apply PeanoNat.Nat.ltb_ge in El. rewrite (proj2 (igp_decode_short_iff md _) (conj El eq_refl)). subst gas.
      split; [reflexivity|]. rewrite <- pow256_32. apply of_be_lt_len. rewrite firstn_length. lia. }
  destruct Hg' as [Hg1 Hg2].
  destruct (pay_told (Q (SIgp x)) i (msg_id m) (m_dest m) gas refund x r Hm Hg2 H) as (w & Ew & Tw).
  exists w. eexists. exists m, gas. split.
  { cbn [call_events c_events gp_events]. unfold gp_post_events. rewrite Hd, Hg1, Ew. reflexivity. }
  split; [exact Hd|]. split; [exact Hg|]. split.
  { unfold msg_id in Tw. now rewrite (proj2 (proj2 (msg_decode_Ok_inv _ _ Hd))) in Tw. }
  split; [reflexivity|]. rewrite <- !hex_of_encode. split; reflexivity.
Qed.

(** ** Totals of a paymaster's history *)
Lemma total_app ty k l1 l2 : total_told ty k (l1 ++ l2) = total_told ty k l1 + total_told ty k l2.
Proof.
  unfold total_told. rewrite told_app, map_app. generalize (map decimal (told ty k l2)). intros ns.
  induction (map decimal (told ty k l1)) as [|n l IH]; [reflexivity|]. cbn [app fold_right]. rewrite IH. lia.
Qed.

Lemma total_one ty k w : total_told ty k [w]
  = if of_type ty w then match number_told k w with Some n => n | None => 0 end else 0.
Proof.
  unfold total_told, told, number_told. cbn [flat_map]. destruct (of_type ty w); [|reflexivity].
  destruct (attr k w); [|reflexivity]. cbn [app map fold_right option_map]. lia.
Qed.

Lemma total_none ty k l : forallb (fun w => negb (of_type ty w)) l = true -> total_told ty k l = 0.
Proof.
  induction l as [|w l IH]; [reflexivity|]. cbn [forallb]. intros H. apply andb_true_iff in H as [H1 H2].
  change (w :: l) with ([w] ++ l). rewrite total_app, total_one, (IH H2). destruct (of_type ty w); [discriminate|reflexivity].
Qed.

Lemma gas_payments_cons A st ev h :
  gas_payments A st (ev :: h) =
  (if accepted A st ev
   then match ev with EvExec _ i (MPayForGas _ _ _ _) _ | EvExec _ i (MPostDispatch _ _) _ => [i] | _ => [] end else [])
  ++ gas_payments A (c_step A st ev) h.
Proof.
  unfold gas_payments. cbn [accepted_calls]. rewrite flat_map_app. f_equal.
  destruct (accepted A st ev); [|reflexivity]. cbn [flat_map fst snd]. now rewrite app_nil_r.
Qed.

Lemma token_kept A st ev : is_igp st -> gas_token (c_step A st ev) = gas_token st.
Proof.
  intros Hk. unfold c_step. destruct (c_apply A ev st) as [[st' r]| |] eqn:E; [|reflexivity|reflexivity].
  destruct st; try contradiction Hk. destruct ev as [e i m Q|]; [|discriminate E].
  cbn [c_apply] in E. unfold c_execute, lift in E. apply bind_Ok_inv in E as (u & _ & E).
  apply bind_Ok_inv in E as ([x' r'] & H & E). apply Ok_inj, pair_equal_spec in E as [<- _]. cbn [fst gas_token].
  destruct m; try discriminate H; cbn [gp_execute] in H; unfold gp_post_dispatch, gp_pay_for_gas, gp_claim in H; inv_all;
    split_matches; reflexivity.
Qed.

Lemma sum_app l1 l2 : fold_right N.add 0 (l1 ++ l2) = fold_right N.add 0 l1 + fold_right N.add 0 l2.
Proof. induction l1 as [|n l IH]; [reflexivity|]. cbn [app fold_right]. rewrite IH. lia. Qed.

Lemma payment_total A st ev :
  is_igp st -> small_gas st -> accepted A st ev = true ->
  let total k := total_told (s "igp-core-pay-for-gas") k (call_events ev st) in
  total (s "payment") = total (s "gas_required") + total (s "gas_refunded") /\
  total (s "payment") = fold_right N.add 0 (map (fun i => amount_of (gas_token st) (i_funds i))
    (match ev with EvExec _ i (MPayForGas _ _ _ _) _ | EvExec _ i (MPostDispatch _ _) _ => [i] | _ => [] end)).
Proof.
  cbv zeta. intros Hk Hs Ha.
  assert (Hone : forall Q i id d gas r w, payment_told Q st i id d gas r w ->
    total_told (s "igp-core-pay-for-gas") (s "payment") [w] = amount_of (gas_token st) (i_funds i) /\
    amount_of (gas_token st) (i_funds i) = total_told (s "igp-core-pay-for-gas") (s "gas_required") [w]
      + total_told (s "igp-core-pay-for-gas") (s "gas_refunded") [w]).
  { intros Q i id d gas r w (T & _ & _ & _ & _ & price & rate & _ & N1 & N2 & N3 & N4).
    rewrite !total_one, T, N1, N2, N3. split; [reflexivity|exact N4]. }
  apply accepted_apply in Ha as [r H]. destruct ev as [e i m Q|]; [|destruct st; try contradiction Hk; discriminate H].
  assert (Hquiet : forallb (fun w => negb (of_type (s "igp-core-pay-for-gas") w)) (call_events (EvExec e i m Q) st) = true ->
    total_told (s "igp-core-pay-for-gas") (s "payment") (call_events (EvExec e i m Q) st) =
    total_told (s "igp-core-pay-for-gas") (s "gas_required") (call_events (EvExec e i m Q) st) +
    total_told (s "igp-core-pay-for-gas") (s "gas_refunded") (call_events (EvExec e i m Q) st) /\
    total_told (s "igp-core-pay-for-gas") (s "payment") (call_events (EvExec e i m Q) st) = 0).
  { intros Hq. rewrite !(total_none _ _ _ Hq). split; reflexivity. }
  destruct m; try (apply Hquiet; clear - Hk; destruct st; try contradiction Hk;
    cbn [call_events c_events gp_events]; unfold own_events, router_events; quiet_events).
  - cbn [c_apply] in H. destruct (post_dispatch_events A Q e i _ _ st _ r Hk Hs H) as (w & w' & m & gas & Ew & _ & _ & Tw & Tw' & _).
    apply Hone in Tw as [T1 T2]. rewrite Ew. change [w; w'] with ([w] ++ [w']). rewrite !total_app, !(total_one _ _ w').
    assert (T3 : of_type (s "igp-core-pay-for-gas") w' = false).
    { apply of_type_eq in Tw'. unfold of_type. rewrite Tw'. reflexivity. }
    rewrite T3. cbn [map fold_right]. lia.
  - cbn [c_apply] in H. destruct (payment_events A Q e i _ _ _ _ st _ r Hk H) as (w & Ew & Tw).
    apply Hone in Tw as [T1 T2]. rewrite Ew. cbn [map fold_right]. lia.
Qed.

Lemma payments_total A st h :
  is_igp st -> small_gas st ->
  let total := total_told (s "igp-core-pay-for-gas") in
  let log := emitted A st h in
  total (s "payment") log = total (s "gas_required") log + total (s "gas_refunded") log /\
  total (s "payment") log
  = fold_right N.add 0 (map (fun i => amount_of (gas_token st) (i_funds i)) (gas_payments A st h)).
Proof.
  cbv zeta. revert st. induction h as [|ev h IH]; intros st Hk Hs; [split; reflexivity|].
  destruct (IH (c_step A st ev) (igp_keep A st ev Hk) (small_gas_step A st ev Hk Hs)) as [I1 I2].
  rewrite (token_kept A st ev Hk) in I2.
  rewrite emitted_cons, gas_payments_cons, !total_app, map_app, sum_app, <- I2.
  destruct (accepted A st ev) eqn:Ha.
  - destruct (payment_total A st ev Hk Hs Ha) as [P1 P2]. rewrite <- P2. split; [|reflexivity].
    rewrite P1, I1. clear. lia.
  - cbn [map fold_right]. change (total_told _ _ []) with 0. split; [exact I1|reflexivity].
Qed.

(** ** Warp routes *)
Lemma delivery_told A Q e i origin sender body st st' r :
  is_warp st -> c_execute A Q e i (MHandle origin sender body) st = Ok (st', r) ->
  exists w recipient amount, call_events (EvExec e i (MHandle origin sender body) Q) st = [w] /\
    of_type (match st with SWarpNative _ => s "hpl_warp_native::handle" | _ => s "hpl_warp_cw20::handle" end) w = true /\
    warp_delivery st i origin sender body recipient amount /\
    attr (s "recipient") w = Some recipient /\ number_told (s "amount") w = Some amount /\
    attr (s "token") w = reported_token st.
Proof.
  intros Hk H.
  assert (D : exists recipient amount token, warp_delivery st i origin sender body recipient amount /\ reported_token st = Some token).
  { destruct st; try contradiction Hk.
    - apply native_delivery in H; [|exact I]. destruct H as (a & b & c & H1 & H2 & _). eauto.
    - apply cw20_delivery in H; [|exact I]. destruct H as (a & b & c & H1 & H2 & _). eauto. }
  destruct D as (recipient & amount & token & D & T).
  pose proof D as (_ & _ & _ & Ha & rcp & tail & Eb & Hl & Er).
  assert (Ew : warp_decode body = Ok (mkWarp rcp amount tail)).
  { apply warp_body. exists tail. cbn [w_recipient w_amount w_metadata]. repeat split; try assumption.
    eapply N.lt_trans; [exact Ha|reflexivity]. }
  assert (Hn : amount < u256_max) by (eapply N.lt_trans; [exact Ha|reflexivity]).
  destruct st as [ | | | | | | | | | | | | | | |x|x|]; try contradiction Hk;
    [rewrite (proj1 (wtoken_of x)) in *|rewrite (proj2 (wtoken_of x)) in *]; cbn [warp_hrp] in Er.
  all: eexists; exists recipient, amount; (split; [cbn [call_events c_events wn_events wc_events]; unfold handle_events; rewrite Ew, T;
        cbn [w_recipient w_amount]; rewrite Er; reflexivity|]);
    (split; [reflexivity|]); (split; [exact D|]); (split; [reflexivity|]);
    (split; [exact (f_equal Some (dec_read _ Hn))|]); rewrite T; reflexivity.
Qed.

Lemma transfers_cons A st ev h :
  transfers A st (ev :: h) =
  (if accepted A st ev
   then match ev with EvExec _ i (MTransferRemote d r a _ _) _ => [(i_sender i, (d, (r, a)))] | _ => [] end else [])
  ++ transfers A (c_step A st ev) h.
Proof.
  unfold transfers. cbn [accepted_calls]. rewrite flat_map_app. f_equal.
  destruct (accepted A st ev); [|reflexivity]. cbn [flat_map fst snd]. now rewrite app_nil_r.
Qed.

Lemma told_quiet ty k l : forallb (fun w => negb (of_type ty w)) l = true -> told ty k l = [].
Proof.
  induction l as [|w l IH]; [reflexivity|]. cbn [forallb]. intros H. apply andb_true_iff in H as [H1 H2].
  rewrite told_cons, (IH H2). destruct (of_type ty w); [discriminate|reflexivity].
Qed.

Lemma transfer_type_step A st ev : is_warp st -> transfer_type (c_step A st ev) = transfer_type st.
Proof.
  intros Hk. pose proof (step_kind A ev st) as K. destruct st; try contradiction Hk; destruct (c_step A _ ev); try discriminate K; reflexivity.
Qed.

Lemma transfers_told A st h :
  is_warp st ->
  let tells k := told (transfer_type st) k (emitted A st h) in
  tells (s "sender") = map fst (transfers A st h) /\
  tells (s "recipient") = map (fun t => hex_of (fst (snd (snd t)))) (transfers A st h) /\
  map decimal (tells (s "amount")) = map (fun t => snd (snd (snd t))) (transfers A st h) /\
  (is_warp_cw20 st -> map decimal (tells (s "dest_domain")) = map (fun t => fst (snd t)) (transfers A st h)).
Proof.
  cbv zeta. revert st. induction h as [|ev h IH]; intros st Hk; [repeat split; reflexivity|].
  assert (Hc : is_warp_cw20 st -> is_warp_cw20 (c_step A st ev)).
  { intros H. pose proof (step_kind A ev st) as K. destruct st; try contradiction H. destruct (c_step A _ ev); try discriminate K; exact I. }
  destruct (IH (c_step A st ev) (warp_keep A st ev Hk)) as (I1 & I2 & I3 & I4). rewrite (transfer_type_step A st ev Hk) in *.
  rewrite emitted_cons, transfers_cons, !told_app, !map_app, I1, I2, I3.
  destruct (accepted A st ev) eqn:Ha.
  2:{ change (told _ _ []) with ([] : list str). cbn [map app]. repeat split. intros H. now apply I4, Hc. }
  assert (C : told (transfer_type st) (s "sender") (call_events ev st) =
      map fst (match ev with EvExec _ i (MTransferRemote d r a _ _) _ => [(i_sender i, (d, (r, a)))] | _ => [] end) /\
    told (transfer_type st) (s "recipient") (call_events ev st) =
      map (fun t => hex_of (fst (snd (snd t)))) (match ev with EvExec _ i (MTransferRemote d r a _ _) _ => [(i_sender i, (d, (r, a)))] | _ => [] end) /\
    map decimal (told (transfer_type st) (s "amount") (call_events ev st)) =
      map (fun t => snd (snd (snd t))) (match ev with EvExec _ i (MTransferRemote d r a _ _) _ => [(i_sender i, (d, (r, a)))] | _ => [] end) /\
    (is_warp_cw20 st -> map decimal (told (transfer_type st) (s "dest_domain") (call_events ev st)) =
      map (fun t => fst (snd t)) (match ev with EvExec _ i (MTransferRemote d r a _ _) _ => [(i_sender i, (d, (r, a)))] | _ => [] end))).
  { clear - Hk Ha. destruct ev as [e i m Q|id rr].
    2:{ destruct st; try contradiction Hk; cbn [call_events]; unfold reply_events; destruct rr as [[]| |]; repeat split; reflexivity. }
    pose proof (accepted_ok _ _ _ _ _ _ Ha) as Hok.
    destruct m; try (rewrite !told_quiet by (clear - Hk; destruct st; try contradiction Hk;
      cbn [call_events c_events wn_events wc_events wp_common_events]; unfold own_events, router_events, conn_events, handle_events; quiet_events);
      repeat split; reflexivity).
    cbn [emsg_ok] in Hok. apply andb_true_iff in Hok as [Hd Hm]. cbn [map fst snd].
    rewrite <- hex_of_encode. destruct st; try contradiction Hk;
      (split; [reflexivity|]); (split; [reflexivity|]);
      (split; [exact (f_equal (fun n => [n]) (u128_dec _ Hm))|]); [intros []|intros _].
    exact (f_equal (fun n => [n]) (u32_dec _ Hd)). }
  destruct C as (-> & -> & -> & C4). split; [reflexivity|]. split; [reflexivity|]. split; [reflexivity|].
  intros H. rewrite (C4 H), (I4 (Hc H)). reflexivity.
Qed.

(** ** From instantiation on *)
Lemma payment_of_history A q e0 i0 hrp o tk b g st0 r0 h Q e i m st' r :
  c_instantiate A q e0 i0 (IIgp hrp o tk b g) = Ok (st0, r0) ->
  c_execute A Q e i m (c_run A st0 h) = Ok (st', r) ->
  match m with
  | MPayForGas id d gas _ =>
      exists w, call_events (EvExec e i m Q) (c_run A st0 h) = [w] /\
        payment_told (Q (c_run A st0 h)) (c_run A st0 h) i id d gas r w
  | MPostDispatch md raw =>
      exists w w' msg gas, call_events (EvExec e i m Q) (c_run A st0 h) = [w; w'] /\
        msg_decode raw = Ok msg /\ requested_gas (c_run A st0 h) md msg gas /\
        payment_told (Q (c_run A st0 h)) (c_run A st0 h) i (keccak256_hash raw) (m_dest msg) gas r w /\
        of_type (s "igp-core-post-dispatch") w' = true /\ attr (s "message") w' = Some (hex_of raw) /\
        attr (s "metadata") w' = Some (match md with [] => s "0x" | _ => hex_of md end)
  | _ => told (s "igp-core-pay-for-gas") (s "payment") (call_events (EvExec e i m Q) (c_run A st0 h)) = []
  end.
Proof.
  intros H0 H. destruct (small_gas_born _ _ _ _ _ _ _ _ _ _ _ H0) as [K S].
  destruct (small_gas_keep A st0 h K S) as [K' S'].
  destruct m; try (apply told_quiet; clear - K'; destruct (c_run A st0 h); try contradiction K';
    cbn [call_events c_events gp_events]; unfold own_events, router_events; quiet_events).
  - exact (post_dispatch_events A Q e i _ _ _ _ r K' S' H).
  - exact (payment_events A Q e i _ _ _ _ _ _ r K' H).
Qed.

Lemma payments_of_history A q e i hrp o tk b g st0 r h :
  c_instantiate A q e i (IIgp hrp o tk b g) = Ok (st0, r) ->
  let total := total_told (s "igp-core-pay-for-gas") in
  let log := emitted A st0 h in
  total (s "payment") log = total (s "gas_required") log + total (s "gas_refunded") log /\
  total (s "payment") log
  = fold_right N.add 0 (map (fun j => amount_of tk (i_funds j)) (gas_payments A st0 h)).
Proof.
  intros H0. destruct (small_gas_born _ _ _ _ _ _ _ _ _ _ _ H0) as [K S].
  assert (T : gas_token st0 = tk).
  { unfold c_instantiate, lift in H0. apply bind_Ok_inv in H0 as (u & _ & H0).
    apply bind_Ok_inv in H0 as ([x r'] & H1 & H0). apply Ok_inj in H0. injection H0 as <- _.
    unfold gp_instantiate in H1. inv_all. reflexivity. }
  rewrite <- T. exact (payments_total A st0 h K S).
Qed.

Lemma claim_told A Q e i st st' r :
  is_igp st -> c_execute A Q e i MClaim st = Ok (st', r) ->
  exists w, call_events (EvExec e i MClaim Q) st = [w] /\ of_type (s "igp-core-claim") w = true /\
    attr (s "beneficiary") w = reported_beneficiary st /\ attr (s "beneficiary") w = Some (i_sender i) /\
    attr (s "collected") w = Some (dec (amount_of (gas_token st) (sends r)) ++ gas_token st).
Proof.
  intros Hk H. apply claim_iff in H; [|exact Hk]. destruct H as (H1 & _ & ->).
  destruct st as [ | | | | | | | | | | | | | |x| | |]; try contradiction Hk.
  eexists. split; [reflexivity|]. split; [reflexivity|]. split; [reflexivity|]. split; [symmetry; exact H1|].
  assert (Ea : amount_of (gas_token (SIgp x)) (sends (mkResp [mkSub (CBankSend (i_sender i)
      [mkCoin (gas_token (SIgp x)) (q_balance (Q (SIgp x)) (e_contract e) (gas_token (SIgp x)))]) RpNever] None))
    = q_balance (Q (SIgp x)) (e_contract e) (gas_token (SIgp x))).
  { unfold sends, amount_of. cbn [r_msgs flat_map app fold_right c_denom c_amount].
    rewrite bytes_eqb_refl. apply N.add_0_r. }
  rewrite Ea. reflexivity.
Qed.
