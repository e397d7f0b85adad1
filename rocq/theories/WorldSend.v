(** * A dispatch that pays its quote succeeds. *)
From Coq Require Import List Arith NArith Bool Lia.
From Verif Require Import Base BaseFacts OMap Crypto Bech32 Message CodecFacts Merkle MerkleFacts Coins CoinsFacts Chain Ownable
  Router Mailbox Va Isms Hooks Igp Warp Cw20 Contracts Spec SpecModules StepFacts AccessFacts MailboxConfFacts MailboxFacts
  HookFacts IgpFacts World SpecWorld WorldFacts WorldMailbox WorldMerkle SpecBridge WorldWarp WorldToken SpecRoute WorldRoute
  SpecVerify WorldVerify SpecLive WorldLive SpecSend.
Import ListNotations.

Scheme takes_ind2 := Induction for takes Sort Prop
  with take_all_ind2 := Induction for take_all Sort Prop.
Combined Scheme takes_both from takes_ind2, take_all_ind2.

(** ** Coins *)
Lemma norm_wf l : exists m, coins_wf m /\ norm_coins l = coins_to_vec m /\ forall d, cget d m = amount_of d l.
Proof.
  unfold norm_coins. eexists. split; [| split; [reflexivity |]].
  - split; [apply norm_fold_sorted; exact I |].
    pose proof (norm_positive l) as H. unfold norm_coins, coins_to_vec in H. rewrite Forall_map in H. exact H.
  - intros d. rewrite norm_fold_get. reflexivity.
Qed.

Lemma norm_unique l m : coins_wf m -> (forall d, cget d m = amount_of d l) -> norm_coins l = coins_to_vec m.
Proof.
  intros W H. destruct (norm_wf l) as (m' & W' & -> & H'). f_equal. apply coins_ext; auto. intros d. rewrite H, H'. reflexivity.
Qed.

Lemma norm_same l1 l2 : (forall d, amount_of d l1 = amount_of d l2) -> norm_coins l1 = norm_coins l2.
Proof.
  intros H. destruct (norm_wf l1) as (m & W & -> & G). symmetry. apply norm_unique; [exact W |]. intros d. rewrite G. apply H.
Qed.

Lemma norm_idem l : norm_coins (norm_coins l) = norm_coins l.
Proof. apply norm_same. intros d. apply norm_amount. Qed.

Lemma norm_to_vec m : coins_wf m -> norm_coins (coins_to_vec m) = coins_to_vec m.
Proof. intros W. apply norm_unique; [exact W |]. intros d. symmetry. apply amount_to_vec. apply W. Qed.

Lemma amount_in c l : In c l -> c_amount c <= amount_of (c_denom c) l.
Proof.
  induction l as [| x l IH]; [intros [] |]. intros [-> | H]; rewrite amount_of_cons.
  - rewrite bytes_eqb_refl. lia.
  - specialize (IH H). lia.
Qed.

Lemma coins_bounded l : (forall d, amount_of d l < 2 ^ 128) -> Forall (fun c => c_amount c < 2 ^ 128) l.
Proof. intros H. apply Forall_forall. intros c Hc. eapply N.le_lt_trans; [apply amount_in, Hc | apply H]. Qed.

Lemma coins_ok_iff l : coins_ok l = true <-> Forall (fun c => c_amount c < 2 ^ 128) l.
Proof.
  unfold coins_ok. rewrite forallb_forall, Forall_forall. split; intros H c Hc; specialize (H c Hc).
  - unfold u128_ok in H. apply N.ltb_lt in H. exact H.
  - unfold u128_ok. apply N.ltb_lt. exact H.
Qed.

Lemma move_fold_ok (c a : addr) l : forall b,
  (forall d, amount_of d l <= bal b c d) ->
  exists b', foldM (fun b x => move_coin c a x b) l b = Ok b' /\
    forall y d, bal b' y d + (if bytes_eqb y c then amount_of d l else 0)
      = bal b y d + (if bytes_eqb y a then amount_of d l else 0).
Proof.
  induction l as [| x l IH]; intros b H; cbn [foldM].
  - exists b. split; [reflexivity |]. intros y d. cbn [amount_of fold_right]. destruct (bytes_eqb y c), (bytes_eqb y a); lia.
  - unfold move_coin at 1. unfold debit.
    assert (Hx : c_amount x <= bal b c (c_denom x)).
    { specialize (H (c_denom x)). rewrite amount_of_cons, bytes_eqb_refl in H. lia. }
    rewrite (proj2 (N.leb_le _ _) Hx). cbn [bind].
    set (b1 := credit a (c_denom x) (c_amount x) (om_set (c, c_denom x) (bal b c (c_denom x) - c_amount x) b)).
    assert (G : forall y d, bal b1 y d + (if (bytes_eqb y c && bytes_eqb d (c_denom x))%bool then c_amount x else 0)
      = bal b y d + (if (bytes_eqb y a && bytes_eqb d (c_denom x))%bool then c_amount x else 0)).
    { intros y d. unfold b1, credit. rewrite !bal_set.
      destruct (bytes_eqb d (c_denom x)) eqn:Ed; rewrite ?andb_true_r, ?andb_false_r; [| lia].
      apply bytes_eqb_eq in Ed. subst d. rewrite bytes_eqb_refl.
      destruct (bytes_eqb y a) eqn:E1, (bytes_eqb y c) eqn:E2, (bytes_eqb a c) eqn:E3; cbn [andb];
        repeat match goal with H : bytes_eqb _ _ = true |- _ => apply bytes_eqb_eq in H; subst end;
        rewrite ?bytes_eqb_refl in *; try discriminate; try lia. }
    destruct (IH b1) as (b' & Hb & B').
    { intros d. specialize (H d). rewrite amount_of_cons in H. specialize (G c d). rewrite bytes_eqb_refl in G. cbn [andb] in G.
      destruct (bytes_eqb d (c_denom x)), (bytes_eqb c a); cbn [andb] in G; lia. }
    exists b'. split; [exact Hb |]. intros y d. specialize (B' y d). specialize (G y d). rewrite amount_of_cons.
    destruct (bytes_eqb y c), (bytes_eqb y a), (bytes_eqb d (c_denom x)); cbn [andb] in G; lia.
Qed.

Lemma move_ok (c a : addr) l w :
  Forall (fun c => c_amount c < 2 ^ 128) l -> (forall d, amount_of d l <= balance w c d) ->
  exists b, move_coins c a l w = Ok (set_bank b w) /\
    forall y d, bal b y d + (if bytes_eqb y c then amount_of d l else 0)
      = balance w y d + (if bytes_eqb y a then amount_of d l else 0).
Proof.
  intros H1 H2. unfold move_coins. rewrite (proj2 (coins_ok_iff l) H1). cbn [ensure bind].
  destruct (move_fold_ok c a (norm_coins l) (w_bank w)) as (b & -> & B).
  { intros d. rewrite norm_amount. apply H2. }
  exists b. split; [reflexivity |]. intros y d. specialize (B y d). rewrite norm_amount in B. exact B.
Qed.

(** ** Counting *)
Lemma occ_app a l1 l2 : occ a (l1 ++ l2) = occ a l1 + occ a l2.
Proof. unfold occ. rewrite filter_app, app_length, Nat2N.inj_add. reflexivity. Qed.
Lemma occ_self a : occ a [a] = 1.
Proof. unfold occ. cbn [filter]. rewrite bytes_eqb_refl. reflexivity. Qed.
Lemma occ_other a h : a <> h -> occ a [h] = 0.
Proof. intros H. unfold occ. cbn [filter]. apply bytes_eqb_neq in H. rewrite H. reflexivity. Qed.
Lemma gets_app a d l1 l2 : gets a d (l1 ++ l2) = gets a d l1 + gets a d l2.
Proof. unfold gets. rewrite filter_app, map_app, amount_of_app. reflexivity. Qed.
Lemma gets_nil a d : gets a d [] = 0.
Proof. reflexivity. Qed.
Lemma gets_one a d h c : gets a d [(h, c)] = if bytes_eqb a h then amount_of d [c] else 0.
Proof. unfold gets. cbn [filter fst]. now destruct (bytes_eqb a h). Qed.

Lemma gets_all a d (h : addr) l : gets a d (map (fun c => (h, c)) l) = if bytes_eqb a h then amount_of d l else 0.
Proof.
  unfold gets. destruct (bytes_eqb a h) eqn:E.
  - f_equal. induction l as [| c l IH]; cbn [map filter fst snd]; [reflexivity |]. rewrite E. cbn [map snd]. now rewrite IH.
  - induction l as [| c l IH]; cbn [map filter fst snd]; [reflexivity |]. rewrite E. exact IH.
Qed.

(** every fee is somebody's *)
Lemma takes_paid C w mb md raw :
  (forall n h fees pays marks, takes C w mb md raw n h fees pays marks ->
     forall d, amount_of d fees = amount_of d (map snd pays)) /\
  (forall n hs fees pays marks, take_all C w mb md raw n hs fees pays marks ->
     forall d, amount_of d (concat fees) = amount_of d (map snd pays)).
Proof.
  apply (takes_both C w mb md raw
    (fun n h fees pays marks _ => forall d, amount_of d fees = amount_of d (map snd pays))
    (fun n hs fees pays marks _ => forall d, amount_of d (concat fees) = amount_of d (map snd pays)));
    intros; try reflexivity; auto.
  - rewrite map_map. cbn [snd]. now rewrite map_id.
  - rewrite norm_amount. auto.
  - cbn [concat]. rewrite map_app, !amount_of_app. f_equal; auto.
Qed.

Lemma takes_normal C w mb md raw n h fees pays marks :
  takes C w mb md raw n h fees pays marks -> norm_coins fees = fees /\ (forall d, amount_of d fees < 2 ^ 128).
Proof.
  intros H.
  assert (One : forall c, c_amount c <> 0 -> c_amount c < 2 ^ 128 ->
    norm_coins [c] = [c] /\ forall d, amount_of d [c] < 2 ^ 128).
  { intros [dn am] H1 H2. cbn [c_amount] in *. split; [now apply norm_one |]. intros d. rewrite amount_of_cons. cbn [c_amount c_denom].
    change (amount_of d []) with 0. destruct (bytes_eqb d dn); lia. }
  inversion H; subst; try (split; [reflexivity | intros d; reflexivity]); try (apply One; assumption); try (split; assumption).
  split; [apply norm_idem |]. intros d. rewrite norm_amount. auto.
Qed.

(** ** The chain while the hooks run *)
Definition mid (w : world) (mb : addr) (raw : bytes) (s : cstate) (am : list (event * response))
    (dn : list addr) (v : world) : Prop :=
  contract_at v mb s /\ answers_at mb (w_log v) = am /\
  (forall a : addr, a <> mb -> occ a dn = 0 -> om_get a (w_inst v) = om_get a (w_inst w)) /\
  (forall a, occ a dn <> 0 -> exists x, contract_at w a (SMerkle x)) /\
  (forall a x, contract_at w a (SMerkle x) -> exists x', contract_at v a (SMerkle x') /\ mk_mailbox x' = mk_mailbox x /\
     (forall ls, tree_rep ls (mk_tree x) -> tree_rep (ls ++ repeat (keccak256_hash raw) (N.to_nat (occ a dn))) (mk_tree x')) /\
     posted_at a (w_log v) = posted_at a (w_log w) ++ repeat raw (N.to_nat (occ a dn))) /\
  w_admin v = w_admin w /\ w_height v = w_height w /\ w_next v = w_next w.

(** room for [marks] more after [dn] *)
Definition fits_in (w : world) (dn marks : list addr) : Prop :=
  forall a x, contract_at w a (SMerkle x) -> exists ls, tree_rep ls (mk_tree x) /\
    N.of_nat (length ls) + occ a dn + occ a marks <= MAX_LEAVES.

Lemma fits_left w dn k1 k2 : fits_in w dn (k1 ++ k2) -> fits_in w dn k1.
Proof. intros H a x Hx. destruct (H a x Hx) as (ls & T & L). exists ls. split; [exact T |]. rewrite occ_app in L. lia. Qed.
Lemma fits_right w dn k1 k2 : fits_in w dn (k1 ++ k2) -> fits_in w (dn ++ k1) k2.
Proof. intros H a x Hx. destruct (H a x Hx) as (ls & T & L). exists ls. split; [exact T |]. rewrite occ_app in *. lia. Qed.

Lemma mid_keeps w mb raw s am dn v a st mbst :
  mid w mb raw s am dn v -> contract_at w mb mbst -> is_mailbox mbst ->
  contract_at w a st -> ~ is_merkle_hook st -> ~ is_mailbox st -> contract_at v a st.
Proof.
  intros (_ & _ & H1 & H2 & _) Hmb Hk Ha Hn Hm.
  assert (Hne : a <> mb). { intros ->. unfold contract_at in *. assert (st = mbst) by congruence. subst. contradiction. }
  destruct (N.eq_dec (occ a dn) 0) as [E | E].
  - unfold contract_at in *. rewrite H1; auto.
  - destruct (H2 a E) as (x & Hx). unfold contract_at in *. assert (st = SMerkle x) by congruence. subst st. destruct Hn. exact I.
Qed.

(** a call that returns the state it was given *)
Lemma mid_same w mb raw s am dn v v' (a : addr) st e i m Q r b c y :
  mid w mb raw s am dn v -> contract_at v a st -> ~ is_merkle_hook st -> a <> mb -> 
  v' = add_log (LCall a (EvExec e i m Q) r) (set_inst a (IC st) (set_bank b (add_log (LDo c y) v))) ->
  mid w mb raw s am dn v'.
Proof.
  intros (H1 & H2 & H3 & H4 & H5 & H6 & H7 & H8) Ha Hn Hne ->.
  assert (Ei : forall z : addr, om_get z (w_inst (add_log (LCall a (EvExec e i m Q) r)
    (set_inst a (IC st) (set_bank b (add_log (LDo c y) v))))) = om_get z (w_inst v)).
  { intros z. exact (same_at v a st Ha z). }
  assert (Ea : forall z : addr, z <> a -> answers_at z (w_log (add_log (LCall a (EvExec e i m Q) r)
    (set_inst a (IC st) (set_bank b (add_log (LDo c y) v))))) = answers_at z (w_log v)).
  { intros z Hz. cbn [w_log add_log set_inst set_bank]. rewrite !answers_at_snoc.
    replace (answers_at z [LCall a (EvExec e i m Q) r]) with (@nil (event * response)).
    - cbn. rewrite !app_nil_r. reflexivity.
    - apply bytes_eqb_neq in Hz. unfold answers_at. cbn [flat_map]. rewrite Hz. reflexivity. }
  unfold mid. split; [unfold contract_at; rewrite Ei; exact H1 |].
  split; [rewrite Ea; [exact H2 | congruence] |].
  split; [intros z Hz Ho; rewrite Ei; auto |].
  split; [exact H4 |]. split; [| auto].
  intros z x Hz. destruct (H5 z x Hz) as (x' & X1 & X2 & X3 & X4). exists x'.
  split; [unfold contract_at; rewrite Ei; exact X1 |]. split; [exact X2 |]. split; [exact X3 |].
  unfold posted_at, posts_at. rewrite Ea; [exact X4 |].
  intros ->. unfold contract_at in *. assert (st = SMerkle x') by congruence. subst st. apply Hn. exact I.
Qed.

(** ** Quotes *)
Definition seen (w v : world) : Prop :=
  (forall a st, contract_at w a st -> ~ is_merkle_hook st -> ~ is_mailbox st -> contract_at v a st) /\
  (forall a x, contract_at w a (SMerkle x) -> exists x', contract_at v a (SMerkle x')) /\
  (forall (a : addr) b, om_get a (w_inst w) = Some (IX b) -> om_get a (w_inst v) = Some (IX b)).

Lemma mid_outside w mb raw s am dn v mbst (a : addr) b :
  mid w mb raw s am dn v -> contract_at w mb mbst -> om_get a (w_inst w) = Some (IX b) ->
  a <> mb /\ om_get a (w_inst v) = Some (IX b).
Proof.
  intros (_ & _ & H1 & H2 & _) Hmb Ha.
  assert (Hne : a <> mb). { intros ->. unfold contract_at in *. congruence. }
  split; [exact Hne |].
  destruct (N.eq_dec (occ a dn) 0) as [E | E]; [rewrite H1; auto |].
  destruct (H2 a E) as (x & Hx). unfold contract_at in *. congruence.
Qed.

Lemma mid_seen w mb raw s am dn v mbst :
  mid w mb raw s am dn v -> contract_at w mb mbst -> is_mailbox mbst -> seen w v.
Proof.
  intros H Hmb Hk. split; [| split].
  - intros a st. exact (mid_keeps w mb raw s am dn v a st mbst H Hmb Hk).
  - intros a x Hx. destruct H as (_ & _ & _ & _ & H & _). destruct (H a x Hx) as (x' & Hx' & _). eauto.
  - intros a b Ha. exact (proj2 (mid_outside _ _ _ _ _ _ _ _ _ _ H Hmb Ha)).
Qed.

Lemma seen_inst w v v' : seen w v -> (forall a : addr, om_get a (w_inst v') = om_get a (w_inst v)) -> seen w v'.
Proof.
  intros (H1 & H2 & H3) E. split; [| split]; intros a; unfold contract_at; [intros st | intros x | intros b]; rewrite E;
    [apply H1 | apply H2 | apply H3].
Qed.

Lemma oracle_answers st d price rate A q : reported_gas_data st d = Some (price, rate) ->
  c_query A q (QOracle d) st = Ok (ROracle price rate).
Proof.
  unfold reported_gas_data, c_query. destruct (qmsg_ok (QOracle d)); [| discriminate]. cbn [ensure bind].
  destruct st; try discriminate; cbn.
  - destruct (om_get d (or_data x)) as [[p r] |]; cbn; [| discriminate]. intros H. injection H as -> ->. reflexivity.
  - match goal with |- context[ok_or ?r _] => destruct r end; cbn; discriminate.
Qed.

Lemma gas_data_oracle st d v : reported_gas_data st d = Some v -> is_oracle st.
Proof.
  unfold reported_gas_data, c_query. destruct (qmsg_ok (QOracle d)); [| discriminate]. cbn [ensure bind].
  destruct st; try discriminate; cbn; [now intros _ |].
  match goal with |- context[ok_or ?r _] => destruct r end; cbn; discriminate.
Qed.

Lemma takes_quotes C w mb md raw v : seen w v ->
  (forall n h fees pays marks, takes C w mb md raw n h fees pays marks -> forall k, (n <= k)%nat ->
     q_smart (wq C k v) h (QHookQuote md raw) = Ok (RFees fees)) /\
  (forall n hs fees pays marks, take_all C w mb md raw n hs fees pays marks -> forall k, (n <= k)%nat ->
     quotes (wq C k v) md raw hs fees).
Proof.
  intros (S1 & S2 & S3).
  apply (takes_both C w mb md raw
    (fun n h fees pays marks _ => forall k, (n <= k)%nat -> q_smart (wq C k v) h (QHookQuote md raw) = Ok (RFees fees))
    (fun n hs fees pays marks _ => forall k, (n <= k)%nat -> quotes (wq C k v) md raw hs fees)).
  - intros n h st Hc Hi Hm Hn k Hk. destruct k as [| k]; [lia |]. destruct st; try contradiction Hi.
    destruct (S2 _ _ Hc) as (x' & Hx). cbn [wq q_smart]. rewrite Hx. reflexivity.
  - intros n h st Hc Hi Hm Hn k Hk. destruct k as [| k]; [lia |].
    cbn [wq q_smart]. rewrite (S1 h st Hc); [| destruct st; try contradiction Hi; easy ..].
    destruct st; try contradiction Hi. reflexivity.
  - intros n h st fee Hc Hf Hz Hb Hn k Hk. destruct k as [| k]; [lia |].
    cbn [wq q_smart]. rewrite (S1 h st Hc); [| destruct st; try discriminate Hf; easy ..].
    now apply fee_quote.
  - intros n h st m gas refund oracle ost price rate Hc Hi Hd Hg Hr Ho Hco Hgd B1 B2 Hf Hz Hb Hn k Hk.
    destruct k as [| k]; [lia |]. cbn [wq q_smart]. rewrite (S1 h st Hc); [| destruct st; try contradiction Hi; easy ..].
    apply gas_hook_quote; [exact Hi |]. exists m, gas, price, rate. split; [exact Hd |]. split; [exact Hg |].
    split; [| split; [exact Hf |]].
    + exists oracle. split; [exact Ho |]. split; [| auto]. destruct k as [| k]; [lia |]. cbn [wq q_smart].
      rewrite (S1 oracle ost Hco); [now apply oracle_answers | |];
        apply gas_data_oracle in Hgd; destruct ost; try contradiction Hgd; easy.
    + cbv zeta. split; [exact Hb |]. apply N.eqb_neq in Hz. now rewrite Hz.
  - intros n h b fees Hc Hq _ _ Hn k Hk. destruct k as [| k]; [lia |].
    cbn [wq q_smart]. rewrite (S3 h b Hc). exact (proj1 (Hq (mkEnv h (w_height v)) (wq C k v) eq_refl)).
  - intros n n' h st m x pays marks Hc Hi Hfb Hd Hs Ht IH Hn k Hk. destruct k as [| k]; [lia |].
    cbn [wq q_smart]. rewrite (S1 h st Hc); [| destruct st; try contradiction Hi; easy ..].
    apply routing_quotes; [exact Hi | exact Hfb |]. exists m, x. split; [exact Hd |]. split; [exact Hs |].
    split; [apply IH; lia | constructor].
  - intros n n' h st m hooks fees pays marks Hc Hh Hd Ht IH Hb Hn k Hk. destruct k as [| k]; [lia |].
    cbn [wq q_smart]. rewrite (S1 h st Hc); [| destruct st; try discriminate Hh; easy ..].
    assert (Hq : quotes (wq C k v) md raw hooks fees) by (apply IH; lia).
    destruct (aggregate_quote_total (ch_api C) (wq C k v) md raw st hooks fees Hh Hq Hb) as (total & Et).
    rewrite Et. do 2 f_equal.
    destruct (agg_hooks_of st hooks Hh) as (x & -> & <-).
    unfold c_query in Et. cbn [qmsg_ok ensure bind ah_query] in Et.
    apply bind_Ok_inv in Et as (f & Et & E). apply Ok_inj in E. injection E as ->.
    unfold ah_quote in Et. apply bind_Ok_inv in Et as (tot & Et & E). apply Ok_inj in E. subst total.
    apply agg_quote_spec in Et as (fees' & Q' & W & G); [| apply coins_wf_nil].
    rewrite (quotes_unique _ _ _ _ _ _ Q' Hq) in G. symmetry. apply norm_unique; [exact W |]. intros d. rewrite G. reflexivity.
  - intros n k Hk. constructor.
  - intros n h f p k hooks fees pays marks Ht IH1 Ha IH2 k' Hk'. constructor; [| now apply IH2].
    split; [now apply IH1 |]. apply coins_bounded. eapply takes_normal. exact Ht.
Qed.

Lemma query_at C k w (a : addr) st qm : contract_at w a st ->
  q_smart (wq C (S k) w) a qm = c_query (ch_api C) (wq C k w) qm st.
Proof. intros H. cbn [wq q_smart]. rewrite H. reflexivity. Qed.

(** ** Calls *)
Lemma call_same C k c (h : addr) fees md raw w mb s am dn v st subs :
  mid w mb raw s am dn v -> contract_at v h st -> ~ is_merkle_hook st -> h <> mb ->
  norm_coins fees = fees -> (forall d, amount_of d fees < 2 ^ 128) -> (forall d, amount_of d fees <= balance v c d) ->
  (forall u, (forall a : addr, om_get a (w_inst u) = om_get a (w_inst v)) ->
     c_execute (ch_api C) (fun s => wq C k (set_inst h (IC s) u)) (mkEnv h (w_height u)) (mkInfo c fees)
       (MPostDispatch md raw) st = Ok (st, mkResp subs None)) ->
  exists v1, mid w mb raw s am dn v1 /\
    (forall y d, balance v1 y d + (if bytes_eqb y c then amount_of d fees else 0)
       = balance v y d + (if bytes_eqb y h then amount_of d fees else 0)) /\
    (forall v2, exec C k h subs v1 = Ok v2 ->
       perform C k (exec C k) c (CExec h (MPostDispatch md raw) fees) v = Ok (v2, RrNone)).
Proof.
  intros Hm Hc Hn Hne Hno Hlt Hle Hx.
  set (u0 := add_log (LDo c (CExec h (MPostDispatch md raw) fees)) v).
  destruct (move_ok c h fees u0 (coins_bounded fees Hlt) Hle) as (b & Hmv & B).
  specialize (Hx (set_bank b u0) (fun a => eq_refl)).
  eexists. split; [| split].
  - eapply mid_same; [exact Hm | exact Hc | exact Hn | exact Hne | reflexivity].
  - intros y d. exact (B y d).
  - intros v2 H2. unfold perform. fold u0. rewrite Hmv. cbn [bind]. rewrite Hno.
    erewrite invoke_ok; [reflexivity | exact Hc | exact Hx |]. exact H2.
Qed.

(** ... and one to a program of others *)
Lemma call_outside C k c (h : addr) fees md raw w mb s am dn v b :
  mid w mb raw s am dn v -> om_get h (w_inst v) = Some (IX b) -> h <> mb ->
  norm_coins fees = fees -> (forall d, amount_of d fees < 2 ^ 128) -> (forall d, amount_of d fees <= balance v c d) ->
  takes_quietly (ch_ext C) h b md raw fees -> (1 <= k)%nat ->
  exists v1, mid w mb raw s am dn v1 /\
    (forall y d, balance v1 y d + (if bytes_eqb y c then amount_of d fees else 0)
       = balance v y d + (if bytes_eqb y h then amount_of d fees else 0)) /\
    perform C k (exec C k) c (CExec h (MPostDispatch md raw) fees) v = Ok (v1, RrNone).
Proof.
  intros Hm Hc Hne Hno Hlt Hle Hq Hk.
  set (u0 := add_log (LDo c (CExec h (MPostDispatch md raw) fees)) v).
  destruct (move_ok c h fees u0 (coins_bounded fees Hlt) Hle) as (bk & Hmv & B).
  set (u := set_bank bk u0) in *.
  destruct (proj2 (Hq (mkEnv h (w_height u)) (wq C k u) eq_refl) c) as (r & Hx & Hr).
  set (ev := EvExec (mkEnv h (w_height u)) (mkInfo c fees) (MPostDispatch md raw) (fun _ => wq C k u)).
  exists (add_log (LCall h ev r) (set_inst h (IX b) u)). split; [| split].
  - destruct Hm as (H1 & H2 & H3 & H4 & H5 & H6 & H7 & H8).
    assert (Ei : forall z : addr, om_get z (w_inst (add_log (LCall h ev r) (set_inst h (IX b) u))) = om_get z (w_inst v)).
    { intros z. exact (set_inst_same v h (IX b) z Hc). }
    assert (Ea : forall z : addr, z <> h -> answers_at z (w_log (add_log (LCall h ev r) (set_inst h (IX b) u))) = answers_at z (w_log v)).
    { intros z Hz. cbn [w_log add_log set_inst set_bank u u0]. rewrite !answers_at_snoc.
      replace (answers_at z [LCall h ev r]) with (@nil (event * response)).
      - cbn. rewrite !app_nil_r. reflexivity.
      - apply bytes_eqb_neq in Hz. unfold answers_at. cbn [flat_map]. rewrite Hz. reflexivity. }
    unfold mid. split; [unfold contract_at; rewrite Ei; exact H1 |].
    split; [rewrite Ea; [exact H2 | congruence] |].
    split; [intros z Hz Ho; rewrite Ei; auto |].
    split; [exact H4 |]. split; [| auto].
    intros z x Hz. destruct (H5 z x Hz) as (x' & X1 & X2 & X3 & X4). exists x'.
    split; [unfold contract_at; rewrite Ei; exact X1 |]. split; [exact X2 |]. split; [exact X3 |].
    unfold posted_at, posts_at. rewrite Ea; [exact X4 |].
    intros ->. unfold contract_at in *. congruence.
  - intros y d. exact (B y d).
  - unfold perform. fold u0. rewrite Hmv. cbn [bind]. fold u. rewrite Hno. unfold invoke.
    change (w_inst u) with (w_inst v). rewrite Hc, Hx. cbn [bind]. rewrite Hr. destruct k; [lia | reflexivity].
Qed.

Lemma call_merkle C k c (h : addr) md raw w mb s am dn v x0 m :
  mid w mb raw s am dn v -> contract_at w h (SMerkle x0) -> mk_mailbox x0 = mb -> h <> mb ->
  reported_latest s = Some (keccak256_hash raw) -> msg_decode raw = Ok m -> fits_in w dn [h] -> (1 <= k)%nat ->
  exists v1, mid w mb raw s am (dn ++ [h]) v1 /\
    (forall y d, balance v1 y d = balance v y d) /\
    perform C k (exec C k) c (CExec h (MPostDispatch md raw) []) v = Ok (v1, RrNone).
Proof.
  intros (H1 & H2 & H3 & H4 & H5 & H6) Hc Hmb Hne Hl Hd Hf Hk.
  destruct (H5 h x0 Hc) as (x & Hx & Ex & T & P).
  destruct (Hf h x0 Hc) as (ls & T0 & L). specialize (T ls T0). rewrite occ_self in L.
  destruct k as [| k]; [lia |].
  destruct (tree_rep_insert _ _ (keccak256_hash raw) T) as (t & Et & T').
  { destruct T as (T & _). rewrite T, app_length, repeat_length. unfold MAX_LEAVES in *. lia. }
  set (x' := mkMk (mk_mailbox x) t).
  set (u := add_log (LDo c (CExec h (MPostDispatch md raw) [])) v).
  set (Q := fun s => wq C (S k) (set_inst h (IC s) u)).
  set (e := mkEnv h (w_height u)). set (i := mkInfo c (norm_coins [])).
  assert (Hx1 : c_execute (ch_api C) Q e i (MPostDispatch md raw) (SMerkle x) = Ok (SMerkle x', resp0)).
  { unfold c_execute, lift. cbn [emsg_ok ensure bind mk_execute]. unfold mk_post_dispatch, smart.
    assert (Eq : q_smart (Q (SMerkle x)) (mk_mailbox x) QLatestDispatchId = Ok (RMessageId (keccak256_hash raw))).
    { unfold Q. cbn [wq q_smart]. rewrite Ex, Hmb. cbn [w_inst set_inst]. rewrite om_get_set_neq by congruence.
      change (w_inst u) with (w_inst v). rewrite H1.
      unfold reported_latest in Hl. destruct s; try discriminate Hl. cbn in Hl |- *.
      destruct (mb_latest x1); [| discriminate Hl]. apply Some_inj in Hl. cbn. now rewrite Hl. }
    rewrite Eq. cbn. rewrite Hd. cbn [bind]. destruct (msg_decode_Ok_inv _ _ Hd) as (_ & _ & Hraw).
    unfold msg_id. rewrite Hraw, bytes_eqb_refl. cbn [ensure bind]. rewrite Et. reflexivity. }
  exists (add_log (LCall h (EvExec e i (MPostDispatch md raw) Q) resp0) (set_inst h (IC (SMerkle x')) u)).
  split; [| split].
  - unfold mid. unfold contract_at. cbn [w_inst w_log w_admin w_height w_next add_log set_inst].
    change (w_inst u) with (w_inst v).
    split; [rewrite om_get_set_neq by congruence; exact H1 |].
    assert (Ea : forall z : addr, z <> h ->
      answers_at z (w_log u ++ [LCall h (EvExec e i (MPostDispatch md raw) Q) resp0]) = answers_at z (w_log v)).
    { intros z Hz. change (w_log u) with (w_log v ++ [LDo c (CExec h (MPostDispatch md raw) [])]). rewrite !answers_at_snoc.
      replace (answers_at z [LCall h (EvExec e i (MPostDispatch md raw) Q) resp0]) with (@nil (event * response)).
      - cbn. rewrite !app_nil_r. reflexivity.
      - apply bytes_eqb_neq in Hz. unfold answers_at. cbn [flat_map]. rewrite Hz. reflexivity. }
    split; [rewrite Ea by congruence; exact H2 |].
    split; [| split; [| split; [| exact H6]]].
    + intros a Ha Ho. rewrite occ_app in Ho. destruct (bytes_eqb a h) eqn:E.
      { apply bytes_eqb_eq in E. subst a. rewrite occ_self in Ho. lia. }
      apply bytes_eqb_neq in E. rewrite om_get_set_neq by congruence. apply H3; [exact Ha | lia].
    + intros a Ho. destruct (bytes_eqb a h) eqn:E; [apply bytes_eqb_eq in E; subst a; eauto |].
      apply bytes_eqb_neq in E. rewrite occ_app, occ_other in Ho by exact E. apply H4. lia.
    + intros a y Hy. destruct (bytes_eqb a h) eqn:E.
      * apply bytes_eqb_eq in E. subst a. unfold contract_at in Hc. assert (y = x0) by congruence. subst y.
        exists x'. split; [apply om_get_set_eq |]. split; [exact Ex |]. rewrite occ_app, occ_self.
        replace (N.to_nat (occ h dn + 1)) with (N.to_nat (occ h dn) + 1)%nat by lia. split.
        -- intros ls' T1. destruct (H5 h x0 Hc) as (x2 & Hx2 & _ & T2 & _).
           assert (x2 = x) by (unfold contract_at in *; congruence). subst x2.
           destruct (tree_rep_insert _ _ (keccak256_hash raw) (T2 ls' T1)) as (t' & Et' & T3).
           { destruct T as (T & _). rewrite T, app_length, repeat_length. unfold MAX_LEAVES in *. lia. }
           assert (t' = t) by congruence. subst t'. rewrite repeat_app. cbn [repeat]. rewrite app_assoc. exact T3.
        -- unfold posted_at, posts_at. change (w_log u) with (w_log v ++ [LDo c (CExec h (MPostDispatch md raw) [])]).
           rewrite !answers_at_snoc. rewrite !flat_map_app, !map_app.
           unfold posted_at, posts_at in P. rewrite P. unfold answers_at at 2 3. cbn [flat_map]. rewrite bytes_eqb_refl.
           cbn [flat_map app map post_of snd]. rewrite repeat_app. cbn [repeat]. rewrite app_nil_r, <- app_assoc. reflexivity.
      * apply bytes_eqb_neq in E. destruct (H5 a y Hy) as (y' & Y1 & Y2 & Y3 & Y4). exists y'.
        split; [rewrite om_get_set_neq by congruence; exact Y1 |]. split; [exact Y2 |].
        rewrite occ_app, occ_other by exact E. rewrite N.add_0_r. split; [exact Y3 |].
        unfold posted_at, posts_at. rewrite Ea by exact E. exact Y4.
  - intros y d. reflexivity.
  - unfold perform. fold u. rewrite move_none. cbn [bind].
    erewrite invoke_ok; [reflexivity | exact Hx | exact Hx1 |]. reflexivity.
Qed.

Lemma hook_elsewhere w mb mbst (h : addr) st :
  contract_at w mb mbst -> is_mailbox mbst -> contract_at w h st -> ~ is_mailbox st -> h <> mb.
Proof. intros H1 H2 H3 H4 ->. unfold contract_at in *. assert (st = mbst) by congruence. subst. contradiction. Qed.

Lemma takes_run C w mb md raw mbst s am m :
  contract_at w mb mbst -> is_mailbox mbst -> reported_latest s = Some (keccak256_hash raw) -> msg_decode raw = Ok m ->
  (forall n h fees pays marks, takes C w mb md raw n h fees pays marks -> forall k c dn v, (n <= k)%nat ->
     mid w mb raw s am dn v -> (forall d, amount_of d fees <= balance v c d) -> fits_in w dn marks ->
     exists v', perform C k (exec C k) c (CExec h (MPostDispatch md raw) fees) v = Ok (v', RrNone) /\
       mid w mb raw s am (dn ++ marks) v' /\
       forall y d, balance v' y d + (if bytes_eqb y c then amount_of d fees else 0) = balance v y d + gets y d pays) /\
  (forall n hs fees pays marks, take_all C w mb md raw n hs fees pays marks -> forall k c dn v, (n + length hs + 1 <= k)%nat ->
     mid w mb raw s am dn v -> (forall d, amount_of d (concat fees) <= balance v c d) -> fits_in w dn marks ->
     exists v', exec C k c (map (fun p => hook_call md raw (fst p) (snd p)) (combine hs fees)) v = Ok v' /\
       mid w mb raw s am (dn ++ marks) v' /\
       forall y d, balance v' y d + (if bytes_eqb y c then amount_of d (concat fees) else 0) = balance v y d + gets y d pays).
Proof.
  intros Hmb Hmk Hlat Hdec.
  assert (Leaf : forall n h st fees pays k c dn v,
    takes C w mb md raw n h fees pays [] -> (2 <= k)%nat -> contract_at w h st -> ~ is_merkle_hook st -> ~ is_mailbox st ->
    mid w mb raw s am dn v -> (forall d, amount_of d fees <= balance v c d) ->
    (forall y d, gets y d pays = if bytes_eqb y h then amount_of d fees else 0) ->
    (forall u, (forall a : addr, om_get a (w_inst u) = om_get a (w_inst v)) ->
       c_execute (ch_api C) (fun s => wq C k (set_inst h (IC s) u)) (mkEnv h (w_height u)) (mkInfo c fees)
         (MPostDispatch md raw) st = Ok (st, mkResp [] None)) ->
    exists v', perform C k (exec C k) c (CExec h (MPostDispatch md raw) fees) v = Ok (v', RrNone) /\
       mid w mb raw s am (dn ++ []) v' /\
       forall y d, balance v' y d + (if bytes_eqb y c then amount_of d fees else 0) = balance v y d + gets y d pays).
  { intros n h st fees pays k c dn v Ht Hk Hc Hn Hn' Hm Hle Hg Hx.
    destruct (takes_normal _ _ _ _ _ _ _ _ _ _ Ht) as [No Lt].
    destruct (call_same C k c h fees md raw w mb s am dn v st []) as (v1 & M1 & B1 & P1); auto.
    - eapply mid_keeps; eauto.
    - eapply hook_elsewhere; eauto.
    - exists v1. rewrite app_nil_r. split; [| split; [exact M1 |]].
      + apply P1. destruct k; [lia | reflexivity].
      + intros y d. rewrite B1, Hg. reflexivity. }
  assert (HF : forall y d : str, gets y d [] = 0) by reflexivity.
  apply (takes_both C w mb md raw
    (fun n h fees pays marks _ => forall k c dn v, (n <= k)%nat ->
     mid w mb raw s am dn v -> (forall d, amount_of d fees <= balance v c d) -> fits_in w dn marks ->
     exists v', perform C k (exec C k) c (CExec h (MPostDispatch md raw) fees) v = Ok (v', RrNone) /\
       mid w mb raw s am (dn ++ marks) v' /\
       forall y d, balance v' y d + (if bytes_eqb y c then amount_of d fees else 0) = balance v y d + gets y d pays)
    (fun n hs fees pays marks _ => forall k c dn v, (n + length hs + 1 <= k)%nat ->
     mid w mb raw s am dn v -> (forall d, amount_of d (concat fees) <= balance v c d) -> fits_in w dn marks ->
     exists v', exec C k c (map (fun p => hook_call md raw (fst p) (snd p)) (combine hs fees)) v = Ok v' /\
       mid w mb raw s am (dn ++ marks) v' /\
       forall y d, balance v' y d + (if bytes_eqb y c then amount_of d (concat fees) else 0) = balance v y d + gets y d pays)).
  - intros n h st Hc Hi Hm Hn k c dn v Hk M Hle Hf. destruct st as [ | | | | | |x| | | | | | | | | | |]; try contradiction Hi.
    destruct (call_merkle C k c h md raw w mb s am dn v x m) as (v1 & M1 & B1 & P1); auto; try lia.
    + cbn in Hm. apply Some_inj in Hm. exact Hm.
    + eapply hook_elsewhere; [exact Hmb | exact Hmk | exact Hc | discriminate].
    + exists v1. split; [exact P1 |]. split; [exact M1 |]. intros y d. rewrite B1, HF. change (amount_of d []) with 0. destruct (bytes_eqb y c); lia.
  - intros n h st Hc Hi Hm Hn k c dn v Hk M Hle Hf.
    eapply (Leaf n h st [] []); try lia; try eassumption; [econstructor 2; eassumption | | | |].
    + destruct st; try contradiction Hi; easy.
    + destruct st; try contradiction Hi; easy.
    + intros y d. rewrite HF. change (amount_of d []) with 0. now destruct (bytes_eqb y h).
    + intros u Hu. destruct st as [ | | | | | | | |x| | | | | | | | |]; try contradiction Hi. cbn in Hm. apply Some_inj in Hm.
      unfold c_execute, lift. cbn [emsg_ok ensure bind ph_execute]. rewrite Hm. reflexivity.
  - intros n h st fee Hc Hfee Hz Hb Hn k c dn v Hk M Hle Hf.
    eapply (Leaf n h st [fee] [(h, fee)]); try lia; try eassumption; [econstructor 3; eassumption | | | |].
    + destruct st; try discriminate Hfee; easy.
    + destruct st; try discriminate Hfee; easy.
    + intros y d. apply gets_one.
    + intros u Hu. apply (fee_accepts _ _ _ _ _ _ _ _ _ _ Hfee). split; [reflexivity |]. split; [reflexivity |].
      exists (c_amount fee). split; [destruct fee; reflexivity |]. split; [exact Hz | lia].
  - intros n h st m' gas refund oracle ost price rate Hc Hi Hd Hg Hr Ho Hco Hgd B1 B2 Hfit Hz Hb Hn k c dn v Hk M Hle Hf.
    eapply (Leaf n h st); try lia; try eassumption; [econstructor 4; eassumption | | | |].
    + destruct st; try contradiction Hi; easy.
    + destruct st; try contradiction Hi; easy.
    + intros y d. apply gets_one.
    + intros u Hu. apply gas_dispatch; [exact Hi |]. exists m', gas, refund. split; [exact Hd |]. split; [exact Hg |].
      split; [exact Hr |]. split; [reflexivity |]. exists price, rate, (gas_cost gas price rate).
      split; [| split; [exact Hfit | split; [reflexivity | split; [exact Hz | split; [lia | split]]]]].
      * exists oracle. split; [exact Ho |]. split; [| auto]. destruct k as [| k]; [lia |].
        assert (Hov : contract_at v oracle ost).
        { eapply mid_keeps; [exact M | exact Hmb | exact Hmk | exact Hco | |];
          apply gas_data_oracle in Hgd; destruct ost; try contradiction Hgd; easy. }
        assert (Hhv : contract_at v h st).
        { eapply mid_keeps; [exact M | exact Hmb | exact Hmk | exact Hc | |]; destruct st; try contradiction Hi; easy. }
        assert (Hou : om_get oracle (w_inst (set_inst h (IC st) u)) = Some (IC ost)).
        { assert (Hhu : contract_at u h st) by (unfold contract_at; rewrite Hu; exact Hhv).
          rewrite (same_at u h st Hhu). rewrite Hu. exact Hov. }
        rewrite (query_at C k (set_inst h (IC st) u) oracle ost _ Hou). now apply oracle_answers.
      * rewrite N.sub_diag. reflexivity.
      * rewrite N.eqb_refl. reflexivity.
  - intros n h b fees Hc Hq No Lt Hn k c dn v Hk M Hle Hf.
    destruct (mid_outside _ _ _ _ _ _ _ _ _ _ M Hmb Hc) as [Hne Hv].
    destruct (call_outside C k c h fees md raw w mb s am dn v b) as (v1 & M1 & B1 & P1); auto; [lia |].
    exists v1. rewrite app_nil_r. split; [exact P1 |]. split; [exact M1 |].
    intros y d. rewrite B1, gets_all. reflexivity.
  - intros n n' h st m' x pays marks Hc Hi Hfb Hd Hs Ht IH Hn k c dn v Hk M Hle Hf.
    assert (Hne : h <> mb). { eapply hook_elsewhere; [exact Hmb | exact Hmk | exact Hc |]; destruct st; try contradiction Hi; easy. }
    destruct (call_same C k c h [] md raw w mb s am dn v st [hook_call md raw x []]) as (v1 & M1 & B1 & P1); auto.
    + eapply mid_keeps; [exact M | exact Hmb | exact Hmk | exact Hc | |]; destruct st; try contradiction Hi; easy.
    + destruct st; try contradiction Hi; easy.
    + intros d. reflexivity.
    + intros u Hu. apply routing_calls; [exact Hi | exact Hfb |]. exists m', x. auto.
    + destruct k as [| k]; [lia |]. destruct k as [| k]; [lia |].
      destruct (IH (S k) h dn v1) as (v2 & P2 & M2 & B2); [lia | exact M1 | intros d; apply N.le_0_l | exact Hf |].
      exists v2. split; [| split; [exact M2 |]].
      * apply P1. unfold hook_call. erewrite exec_never by exact P2. reflexivity.
      * intros y d. specialize (B1 y d). specialize (B2 y d). change (amount_of d []) with 0 in *.
        destruct (bytes_eqb y c), (bytes_eqb y h); lia.
  - intros n n' h st m' hooks fees pays marks Hc Hh Hd Ht IH Hb Hn k c dn v Hk M Hle Hf.
    assert (Hne : h <> mb). { eapply hook_elsewhere; [exact Hmb | exact Hmk | exact Hc |]; destruct st; try discriminate Hh; easy. }
    assert (Hhv : contract_at v h st).
    { eapply mid_keeps; [exact M | exact Hmb | exact Hmk | exact Hc | |]; destruct st; try discriminate Hh; easy. }
    destruct (call_same C k c h (norm_coins (concat fees)) md raw w mb s am dn v st
      (map (fun p => hook_call md raw (fst p) (snd p)) (combine hooks fees))) as (v1 & M1 & B1 & P1); auto.
    + destruct st; try discriminate Hh; easy.
    + apply norm_idem.
    + intros d. rewrite norm_amount. apply Hb.
    + intros u Hu. apply (aggregate_calls _ _ _ _ _ _ _ _ _ _ Hh). exists fees, m'. split; [exact Hd |].
      split; [| auto].
      assert (Hse : seen w (set_inst h (IC st) u)).
      { eapply seen_inst; [eapply mid_seen; eauto |]. intros a.
        assert (Hhu : contract_at u h st) by (unfold contract_at; rewrite Hu; exact Hhv).
        rewrite (same_at u h st Hhu). apply Hu. }
      apply (proj2 (takes_quotes C w mb md raw _ Hse) n hooks fees pays marks Ht). lia.
    + destruct (IH k h dn v1) as (v2 & P2 & M2 & B2); [lia | exact M1 | | exact Hf |].
      { intros d. specialize (B1 h d). rewrite bytes_eqb_refl in B1. rewrite norm_amount in B1.
        specialize (Hle d). rewrite norm_amount in Hle.
        destruct (bytes_eqb h c) eqn:E; [| lia]. apply bytes_eqb_eq in E. subst c. lia. }
      exists v2. split; [now apply P1 |]. split; [exact M2 |].
      intros y d. specialize (B1 y d). specialize (B2 y d). rewrite norm_amount in *.
      destruct (bytes_eqb y c), (bytes_eqb y h); lia.
  - intros n k c dn v Hk M Hle Hf. destruct k as [| k]; [lia |]. exists v. split; [reflexivity |]. rewrite app_nil_r.
    split; [exact M |]. intros y d. rewrite HF. change (amount_of d (concat [])) with 0. destruct (bytes_eqb y c); lia.
  - intros n h f p k1 hooks fees pays marks Ht IH1 Ha IH2 k c dn v Hk M Hle Hf. cbn [length] in Hk.
    destruct k as [| k]; [lia |]. cbn [combine map fst snd concat] in *.
    destruct (IH1 k c dn v) as (v1 & P1 & M1 & B1); [lia | exact M | | now apply fits_left in Hf |].
    { intros d. specialize (Hle d). rewrite amount_of_app in Hle. lia. }
    destruct (IH2 k c (dn ++ k1) v1) as (v2 & P2 & M2 & B2); [lia | exact M1 | | now apply fits_right in Hf |].
    { intros d. specialize (Hle d). specialize (B1 c d). rewrite bytes_eqb_refl in B1. rewrite amount_of_app in Hle. lia. }
    exists v2. split; [unfold hook_call at 1; erewrite exec_never by exact P1; exact P2 |].
    rewrite app_assoc. split; [exact M2 |].
    intros y d. specialize (B1 y d). specialize (B2 y d). rewrite amount_of_app, gets_app. destruct (bytes_eqb y c); lia.
Qed.

(** ** The mailbox *)
Lemma dispatch_call C k w u mb caller d raw mbst nonce domain sender required hook n f1 p1 k1 f2 p2 k2 e :
  contract_at w mb mbst -> reported_nonce mbst = Some nonce -> reported_domain mbst = Some domain ->
  nonce + 1 < 2 ^ 32 -> d_dest d < 2 ^ 32 -> length (d_recipient d) = 32%nat ->
  bech32_to_h256 caller = Ok sender ->
  raw = msg_encode (mkMessage 3 nonce domain sender (d_dest d) (d_recipient d) (d_body d)) ->
  reported_required_hook mbst = Some required -> chosen_hook (ch_api C) mbst d hook ->
  takes C w mb (request_metadata d) raw n required f1 p1 k1 ->
  takes C w mb (request_metadata d) raw n hook f2 p2 k2 ->
  (forall a : addr, om_get a (w_inst u) = om_get a (w_inst w)) -> (n <= k)%nat ->
  exists mbst', c_execute (ch_api C) (fun s => wq C k (set_inst mb (IC s) u)) e (mkInfo caller (norm_coins (f1 ++ f2))) (MDispatch d) mbst
      = Ok (mbst', mkResp [hook_call (request_metadata d) raw required f1; hook_call (request_metadata d) raw hook f2]
                     (Some (keccak256_hash raw))) /\
    reported_nonce mbst' = Some (nonce + 1) /\ reported_latest mbst' = Some (keccak256_hash raw).
Proof.
  intros Hc Hn Hd Hn1 Hdd Hlr Hs Hraw Hreq (dflt & Hdf & Hh) T1 T2 Hu Hk.
  apply nonce_mailbox in Hn as (x & -> & En). cbn in Hd. apply Some_inj in Hd.
  destruct (takes_normal _ _ _ _ _ _ _ _ _ _ T1) as [N1 L1]. destruct (takes_normal _ _ _ _ _ _ _ _ _ _ T2) as [N2 L2].
  destruct (pay_required_ok (norm_coins (f1 ++ f2)) f1) as (rest & Hp).
  { apply norm_no_repeats. }
  { intros y. rewrite norm_amount, amount_of_app. lia. }
  assert (Er : coins_to_vec rest = f2).
  { apply pay_required_spec in Hp as (W & _ & G). rewrite <- N2. symmetry. apply norm_unique; [exact W |].
    intros y. specialize (G y). rewrite norm_amount, amount_of_app in G. rewrite amount_to_vec in G by apply W. lia. }
  eexists. split; [| split].
  - apply mb_exec_inv. split; [exact (proj2 (N.ltb_lt _ _) Hdd) |]. eexists. split; [reflexivity |].
    cbn [mb_execute]. apply mb_dispatch_iff. exists sender, dflt, hook, required, f1, rest. cbv zeta.
    unfold the_message. rewrite En, Hd, <- Hraw, Er.
    split; [exact Hlr |]. split; [exact Hs |]. split; [rewrite <- reported_hook_of; exact Hdf |].
    split; [apply get_hook_iff; exact Hh |]. split; [rewrite <- reported_req_of; exact Hreq |].
    split; [| split; [exact Hp | split; [exact Hn1 | split; reflexivity]]].
    apply quote_inv. split; [| now apply coins_bounded].
    assert (Hse : seen w (set_inst mb (IC (SMailbox x)) u)).
    { assert (Hcu : contract_at u mb (SMailbox x)) by (unfold contract_at; rewrite Hu; exact Hc).
      eapply (seen_inst w w); [split; [| split]; eauto |]. intros a. rewrite (same_at u mb _ Hcu). apply Hu. }
    exact (proj1 (takes_quotes C w mb _ raw _ Hse) n required f1 p1 k1 T1 k Hk).
  - reflexivity.
  - reflexivity.
Qed.

Lemma dispatch_run C n k w mb caller d raw fees pays marks fs :
  dispatchable C n w mb caller d raw fees pays marks -> fits_in w [] marks ->
  Forall (fun c => c_amount c < 2 ^ 128) fs -> norm_coins fs = fees ->
  (forall x, amount_of x fees <= balance w caller x) -> (n + 3 <= k)%nat ->
  exists w', perform C k (exec C k) caller (CExec mb (MDispatch d) fs) w = Ok (w', RrNone) /\
    dispatched_one w w' mb raw /\ fees_paid w w' caller fees pays /\ recorded w w' raw marks /\ others_same w w' mb marks.
Proof.
  intros (mbst & nonce & domain & sender & required & hook & f1 & p1 & k1 & f2 & p2 & k2 & Hc & Hn & Hd & Hn1 & Hdm & Hdd & Hlr &
    Hs & Hraw & Hreq & Hh & T1 & T2 & Hlt & -> & -> & -> & _) Hf Hfs Hno Hle Hk.
  assert (Hmk : is_mailbox mbst) by (apply nonce_mailbox in Hn as (x & -> & _); reflexivity).
  set (fees := norm_coins (f1 ++ f2)) in *.
  assert (Hfe : forall x, amount_of x fs = amount_of x fees) by (intros x; rewrite <- Hno, norm_amount; reflexivity).
  set (u0 := add_log (LDo caller (CExec mb (MDispatch d) fs)) w).
  destruct (move_ok caller mb fs u0 Hfs) as (b & Hmv & B).
  { intros x. rewrite Hfe. apply Hle. }
  assert (B' : forall y x, bal b y x + (if bytes_eqb y caller then amount_of x fees else 0)
    = balance u0 y x + (if bytes_eqb y mb then amount_of x fees else 0)).
  { intros y x. rewrite <- Hfe. apply B. }
  clear B. rename B' into B.
  set (u := set_bank b u0) in *.
  destruct (dispatch_call C k w u mb caller d raw mbst nonce domain sender required hook n f1 p1 k1 f2 p2 k2 (mkEnv mb (w_height u)))
    as (mbst' & Hx & Hn' & Hl'); auto; [lia |].
  fold fees in Hx. set (md := request_metadata d) in *.
  set (r := mkResp [hook_call md raw required f1; hook_call md raw hook f2] (Some (keccak256_hash raw))) in *.
  set (ev := EvExec (mkEnv mb (w_height u)) (mkInfo caller fees) (MDispatch d) (fun s => wq C k (set_inst mb (IC s) u))) in *.
  set (v0 := add_log (LCall mb ev r) (set_inst mb (IC mbst') u)).
  set (am := answers_at mb (w_log w) ++ [(ev, r)]).
  assert (Ls : length sender = 32%nat).
  { unfold bech32_to_h256 in Hs. apply bind_Ok_inv in Hs as (z & _ & Hs). unfold pad32 in Hs.
    destruct (Nat.leb (length z) 32) eqn:E; [|discriminate]. apply Ok_inj in Hs as <-.
    apply PeanoNat.Nat.leb_le in E. rewrite app_length. unfold zeros. rewrite repeat_length. lia. }
  assert (Hdec : exists m, msg_decode raw = Ok m).
  { eexists. rewrite Hraw. apply msg_decode_encode. unfold msg_wf. cbn.
    change u32_max with (2 ^ 32). repeat split; try assumption; try reflexivity. lia. }
  destruct Hdec as (m & Hdec).
  assert (Ea : forall z : addr, z <> mb -> answers_at z (w_log v0) = answers_at z (w_log w)).
  { intros z Hz. change (w_log v0) with ((w_log w ++ [LDo caller (CExec mb (MDispatch d) fs)]) ++ [LCall mb ev r]).
    rewrite !answers_at_snoc.
    replace (answers_at z [LCall mb ev r]) with (@nil (event * response)).
    - cbn. rewrite !app_nil_r. reflexivity.
    - apply bytes_eqb_neq in Hz. unfold answers_at. cbn [flat_map]. rewrite Hz. reflexivity. }
  assert (M0 : mid w mb raw mbst' am [] v0).
  { unfold mid. split; [apply om_get_set_eq |]. split.
    { change (w_log v0) with ((w_log w ++ [LDo caller (CExec mb (MDispatch d) fs)]) ++ [LCall mb ev r]).
      rewrite !answers_at_snoc. unfold am, answers_at at 2 3. cbn [flat_map]. rewrite bytes_eqb_refl. cbn [app]. rewrite app_nil_r. reflexivity. }
    split; [intros a Ha _; cbn [v0 w_inst add_log set_inst]; rewrite om_get_set_neq by exact Ha; reflexivity |].
    split; [intros a Ha; cbn in Ha; lia |]. split; [| split; [reflexivity | split; reflexivity]].
    intros a x Ha.
    assert (Hne : a <> mb) by (eapply hook_elsewhere; [exact Hc | exact Hmk | exact Ha | discriminate]).
    exists x. split; [unfold contract_at; cbn [v0 w_inst add_log set_inst]; rewrite om_get_set_neq by exact Hne; exact Ha |].
    split; [reflexivity |]. cbn [occ filter length N.of_nat N.to_nat repeat]. split; [intros ls T; rewrite app_nil_r; exact T |].
    rewrite app_nil_r. unfold posted_at, posts_at. rewrite Ea by exact Hne. reflexivity. }
  destruct k as [| [| [| k]]]; try lia.
  assert (Hb0 : forall x, amount_of x f1 + amount_of x f2 <= balance v0 mb x).
  { intros x. specialize (B mb x). rewrite bytes_eqb_refl in B. change (balance v0 mb x) with (bal b mb x).
    specialize (Hle x). unfold fees in B, Hle. rewrite norm_amount, amount_of_app in *.
    change (balance u0 mb x) with (balance w mb x) in B.
    destruct (bytes_eqb mb caller) eqn:E; [| lia]. apply bytes_eqb_eq in E. subst caller. lia. }
  pose proof (takes_run C w mb md raw mbst mbst' am m Hc Hmk Hl' Hdec) as [R _].
  destruct (R n required f1 p1 k1 T1 (S (S k)) mb [] v0) as (v1 & P1 & M1 & B1); [lia | exact M0 | | now apply fits_left in Hf |].
  { intros x. specialize (Hb0 x). lia. }
  destruct (R n hook f2 p2 k2 T2 (S k) mb ([] ++ k1) v1) as (v2 & P2 & M2 & B2); [lia | exact M1 | | now apply fits_right in Hf |].
  { intros x. specialize (Hb0 x). specialize (B1 mb x). rewrite bytes_eqb_refl in B1. lia. }
  cbn [app] in M2.
  assert (Hrun : perform C (S (S (S k))) (exec C (S (S (S k)))) caller (CExec mb (MDispatch d) fs) w = Ok (v2, RrNone)).
  { unfold perform. fold u0. rewrite Hmv. cbn [bind]. fold u. rewrite Hno.
    erewrite invoke_ok; [reflexivity | exact Hc | exact Hx |]. cbn [r r_msgs].
    unfold hook_call. erewrite exec_never by exact P1. erewrite exec_never by exact P2. reflexivity. }
  exists v2. split; [exact Hrun |].
  pose proof M2 as (X1 & X2 & X3 & X4 & X5 & X6 & X7 & X8).
  split; [| split; [| split]].
  - unfold dispatched_one, dispatched_at, processed_at. rewrite X2. unfold am. rewrite !flat_map_app. cbn [flat_map ev r sent_message r_msgs hook_call app].
    rewrite !app_nil_r. split; [reflexivity |]. split; [reflexivity |]. exists mbst, mbst', nonce. auto.
  - intros a x. specialize (B a x). specialize (B1 a x). specialize (B2 a x). rewrite gets_app.
    change (balance v0 a x) with (bal b a x) in B1. change (balance u0 a x) with (balance w a x) in B.
    assert (Ef : amount_of x fees = amount_of x f1 + amount_of x f2) by (unfold fees; now rewrite norm_amount, amount_of_app).
    destruct (bytes_eqb a caller), (bytes_eqb a mb); lia.
  - intros a st c Ha Hi Hcnt. destruct st as [ | | | | | |x| | | | | | | | | | |]; try contradiction Hi.
    destruct (X5 a x Ha) as (x' & Y1 & Y2 & Y3 & Y4). destruct (Hf a x Ha) as (ls & T & L).
    exists (SMerkle x'). split; [exact Y1 |]. split; [exact I |]. split; [cbn; now rewrite Y2 |]. split; [| exact Y4].
    specialize (Y3 ls T). destruct T as (T & _). destruct Y3 as (Y3 & _).
    unfold reported_count, c_query in Hcnt |- *. cbn [qmsg_ok ensure bind mk_query] in Hcnt |- *. apply Some_inj in Hcnt.
    change (occ a []) with 0 in L. unfold MAX_LEAVES in L. rewrite T, N.mod_small in Hcnt by (change u32_max with (2 ^ 32); lia).
    rewrite Y3, app_length, repeat_length, N.mod_small by (change u32_max with (2 ^ 32); lia). f_equal. lia.
  - split; [exact X3 |]. auto.
Qed.

Lemma room_fits C w marks : reachable C w -> room w marks -> fits_in w [] marks.
Proof.
  intros Hr H a x Ha. destruct (merkle_tree_at C w a (SMerkle x) Hr Ha eq_refl) as (x' & E & T). injection E as <-.
  eexists. split; [exact T |]. change (occ a []) with 0.
  pose proof (chain_merkle_tree C w a (SMerkle x) Hr Ha eq_refl) as (_ & Hcnt & _).
  specialize (H a (SMerkle x) _ Ha Hcnt). unfold MAX_LEAVES. lia.
Qed.

Lemma dispatchable_fees C n w mb caller d raw fees pays marks :
  dispatchable C n w mb caller d raw fees pays marks ->
  Forall (fun c => c_amount c < 2 ^ 128) fees /\ norm_coins fees = fees.
Proof.
  intros (mbst & nonce & domain & sender & required & hook & f1 & p1 & k1 & f2 & p2 & k2 & _ & _ & _ & _ & _ & _ & _ & _ & _ &
    _ & _ & _ & _ & Hlt & -> & _).
  split; [| apply norm_idem]. apply coins_bounded. intros x. rewrite norm_amount. apply Hlt.
Qed.

Lemma dispatch_paid C n k w mb caller d raw fees pays marks :
  reachable C w -> dispatchable C n w mb caller d raw fees pays marks ->
  (forall x, amount_of x fees <= balance w caller x) -> ch_account C caller = true -> (n + 3 <= k)%nat ->
  exists w', tx_run C k (TExec caller mb (MDispatch d) fees) w = Ok w' /\
    dispatched_one w w' mb raw /\ fees_paid w w' caller fees pays /\ recorded w w' raw marks /\ others_same w w' mb marks.
Proof.
  intros Hr Hd Hle Ha Hk.
  assert (Hf : fits_in w [] marks).
  { apply (room_fits C); [exact Hr |].
    destruct Hd as (? & ? & ? & ? & ? & ? & ? & ? & ? & ? & ? & ? & _ & _ & _ & _ & _ & _ & _ & _ & _ & _ & _ & _ & _ & _ & _ & _ & _ & R). exact R. }
  destruct (dispatchable_fees C n w mb caller d raw fees pays marks Hd) as [F1 F2].
  destruct (dispatch_run C n k w mb caller d raw fees pays marks fees Hd Hf F1 F2 Hle Hk) as (w' & P & R).
  exists w'. split; [| exact R]. unfold tx_run. rewrite Ha. cbn [ensure bind]. rewrite P. reflexivity.
Qed.

(** the mailbox quotes exactly that *)
Lemma dispatch_quoted C n k w mb caller d raw fees pays marks :
  dispatchable C n w mb caller d raw fees pays marks -> api_valid (ch_api C) caller = true -> (n < k)%nat ->
  q_smart (wq C k w) mb (QMailboxQuote caller d) = Ok (RFees fees) /\
  (forall x, amount_of x fees = amount_of x (map snd pays)).
Proof.
  intros (mbst & nonce & domain & sender & required & hook & f1 & p1 & k1 & f2 & p2 & k2 & Hc & Hn & Hd & Hn1 & Hdm & Hdd & Hlr &
    Hs & Hraw & Hreq & (dflt & Hdf & Hh) & T1 & T2 & Hlt & -> & -> & -> & _) Hv Hk.
  destruct (takes_normal _ _ _ _ _ _ _ _ _ _ T1) as [N1 L1]. destruct (takes_normal _ _ _ _ _ _ _ _ _ _ T2) as [N2 L2].
  split.
  - destruct k as [| k]; [lia |]. rewrite (query_at C k w mb mbst _ Hc).
    apply nonce_mailbox in Hn as (x & -> & En). cbn in Hd. apply Some_inj in Hd.
    rewrite reported_hook_of in Hdf. rewrite reported_req_of in Hreq. apply get_hook_iff in Hh.
    assert (Hse : seen w w) by (split; [| split]; eauto).
    pose proof (takes_quotes C w mb (request_metadata d) raw w Hse) as [Tq _].
    assert (Q1 : quote_dispatch (wq C k w) required (d_meta d) raw = Ok f1).
    { apply quote_inv. split; [| now apply coins_bounded]. apply (Tq n required f1 p1 k1 T1). lia. }
    assert (Q2 : quote_dispatch (wq C k w) hook (d_meta d) raw = Ok f2).
    { apply quote_inv. split; [| now apply coins_bounded]. apply (Tq n hook f2 p2 k2 T2). lia. }
    unfold c_query. cbn [qmsg_ok]. replace (u32_ok (d_dest d)) with true by (symmetry; apply N.ltb_lt; exact Hdd).
    cbn [ensure bind mb_query]. unfold mb_quote_dispatch.
    rewrite (proj2 (addr_validate_iff _ caller caller) (conj Hv eq_refl)). cbn [bind]. unfold to_msg. rewrite Hs. cbn [bind].
    unfold get_default_hook. rewrite Hdf. cbn [expect bind]. unfold get_required_hook. rewrite Hreq. cbn [expect bind].
    rewrite Hh. cbn [bind]. unfold MAILBOX_VERSION. rewrite En, Hd, <- Hraw, Q2. cbn [bind]. rewrite Q1. cbn [bind].
    destruct (norm_wf f2) as (m2 & W2 & E2 & G2). rewrite N2 in E2. rewrite E2. rewrite try_from_to_vec by exact W2. cbn [bind].
    destruct (coins_add_all_ok f1 m2 W2) as (m3 & E3).
    { intros y. rewrite G2. specialize (Hlt y). rewrite amount_of_app in Hlt. change u128_max with (2 ^ 128). lia. }
    rewrite E3. cbn [bind]. do 2 f_equal. destruct (coins_add_all_spec f1 m2 m3 W2 E3) as [W3 G3].
    symmetry. apply norm_unique; [exact W3 |]. intros y. rewrite G3, !amount_of_app.
    rewrite <- E2, G2. lia.
  - intros x. rewrite norm_amount, map_app, !amount_of_app.
    rewrite (proj1 (takes_paid C w mb (request_metadata d) raw) n required f1 p1 k1 T1 x).
    rewrite (proj1 (takes_paid C w mb (request_metadata d) raw) n hook f2 p2 k2 T2 x). reflexivity.
Qed.
