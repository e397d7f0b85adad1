(** * Gas paymaster and oracle. *)
From Coq Require Import List NArith Lia Bool.
From Verif Require Import Base BaseFacts OMap Hex HexFacts Coins CoinsFacts Crypto Message Metadata CodecFacts Bech32
  Bech32Facts CodecSummary Chain Ownable Router Mailbox Va Isms Hooks Igp Warp Cw20 Contracts Spec SpecModules
  StepFacts AccessFacts PagingFacts MailboxConfFacts MailboxFacts IsmFacts HookFacts.
Import ListNotations.

Lemma u256_mul_iff a b c : u256_mul a b = Ok c <-> a * b < u256_max /\ c = a * b.
Proof.
  unfold u256_mul. destruct (a * b <? u256_max) eqn:E; cbn [need bind]; split.
  - intros H. apply Ok_inj in H. apply N.ltb_lt in E. auto.
  - now intros [_ ->].
  - discriminate.
  - intros [H _]. apply N.ltb_lt in H. congruence.
Qed.

Lemma query_oracle_iff q o d price rate :
  query_oracle q o d = Ok (price, rate) <->
  q_smart q o (QOracle d) = Ok (ROracle price rate) /\ price < u128_max /\ rate < u128_max.
Proof.
  unfold query_oracle. split.
  - intros H. apply bind_Ok_inv in H as (r & H1 & H). apply smart_inv in H1 as [H1 H2].
    destruct r; try discriminate. apply Ok_inj, pair_equal_spec in H as [<- <-].
    cbn [qres_ok] in H2. unfold u128_ok in H2. apply andb_true_iff in H2 as [H2 H3].
    apply N.ltb_lt in H2, H3. auto.
  - intros (H1 & H2 & H3).
    assert (E : smart q o (QOracle d) = Ok (ROracle price rate)).
    { apply smart_inv. split; [exact H1|]. cbn [qres_ok]. unfold u128_ok.
      apply N.ltb_lt in H2, H3. now rewrite H2, H3. }
    rewrite E. reflexivity.
Qed.

Lemma gp_quote_iff q x d gas n :
  d < u32_max ->
  (gp_quote q x d gas = Ok n <->
   exists price rate, gas_terms q (SIgp x) d price rate /\ fits gas price rate /\ n = gas_cost gas price rate).
Proof.
  intros Hd. unfold gas_terms. rewrite reported_route_of by exact Hd. cbn [routes_of option_map].
  unfold gp_quote. split.
  - intros H. apply bind_Ok_inv in H as (o & H1 & H). apply ok_or_Ok_inv in H1.
    apply bind_Ok_inv in H as ([price rate] & H2 & H). apply query_oracle_iff in H2.
    apply bind_Ok_inv in H as (c & H3 & H). apply bind_Ok_inv in H as (k & H4 & H).
    apply u256_mul_iff in H3 as [H3 ->]. apply u256_mul_iff in H4 as [H4 ->]. apply Ok_inj in H.
    exists price, rate. split; [exists o; rewrite H1; auto|]. split; [split; assumption|]. now subst n.
  - intros (price & rate & (o & H1 & H2) & [H3 H4] & ->). apply Some_inj in H1. rewrite H1. cbn [ok_or bind].
    apply query_oracle_iff in H2. rewrite H2. cbn [bind].
    rewrite (proj2 (u256_mul_iff _ _ _) (conj H3 eq_refl)). cbn [bind].
    rewrite (proj2 (u256_mul_iff _ _ _) (conj H4 eq_refl)). reflexivity.
Qed.

Lemma gp_pay_iff q i d gas refund x x' r :
  d < u32_max ->
  (gp_pay_for_gas q i d gas refund x = Ok (x', r) <->
   x' = x /\ gas_paid q (SIgp x) i d gas refund r).
Proof.
  intros Hd. unfold gp_pay_for_gas, gas_paid. cbn [gas_token]. split.
  - intros H. apply bind_Ok_inv in H as (paid & H1 & H). apply must_pay_iff in H1 as [H1 H1'].
    apply bind_Ok_inv in H as (n & H2 & H). apply gp_quote_iff in H2 as (price & rate & H2 & H3 & ->); [|exact Hd].
    apply bind_Ok_inv in H as (u & H4 & H). apply ensure_Ok_inv, N.leb_le in H4.
    apply bind_Ok_inv in H as (u' & H5 & H). apply ensure_Ok_inv in H5. apply (proj1 (N.ltb_lt _ _)) in H5.
    apply Ok_inj, pair_equal_spec in H as [<- <-]. split; [reflexivity|].
    exists price, rate, paid. repeat match goal with |- _ /\ _ => split end; try assumption.
    set (n := gas_cost gas price rate) in *. clearbody n. unfold resp. f_equal.
    destruct (paid =? n) eqn:E.
    + apply N.eqb_eq in E. subst n. rewrite N.sub_diag. reflexivity.
    + apply N.eqb_neq in E. assert (E' : (paid - n =? 0) = false) by (apply N.eqb_neq; lia).
      rewrite E'. reflexivity.
  - intros [-> (price & rate & paid & H2 & H3 & H1 & H1' & H4 & H5 & ->)].
    rewrite (proj2 (must_pay_iff _ _ paid) (conj H1 H1')). cbn [bind].
    rewrite (proj2 (gp_quote_iff q x d gas (gas_cost gas price rate) Hd)) by (exists price, rate; auto).
    cbn [bind]. set (n := gas_cost gas price rate) in *. clearbody n.
    rewrite (proj2 (N.leb_le _ _) H4). cbn [ensure bind].
    rewrite (proj2 (N.ltb_lt _ _) H5 : (_ <? u128_max) = true). cbn [ensure bind].
    unfold resp. destruct (paid =? n) eqn:E.
    + apply N.eqb_eq in E. subst n. rewrite N.sub_diag. reflexivity.
    + apply N.eqb_neq in E. assert (E' : (paid - n =? 0) = false) by (apply N.eqb_neq; lia).
      rewrite E'. reflexivity.
Qed.

Lemma gas_quote A q st d gas n :
  is_igp st ->
  (c_query A q (QQuoteGasPayment d gas) st = Ok (RGasNeeded n) <->
   d < 2 ^ 32 /\ gas < 2 ^ 256 /\
   exists price rate, gas_terms q st d price rate /\ fits gas price rate /\ n = gas_cost gas price rate).
Proof.
  intros Hk. destruct st as [ | | | | | | | | | | | | | |x| | |]; try contradiction Hk.
  unfold c_query. cbn [qmsg_ok gp_query]. unfold u32_ok, u256_ok. split.
  - intros H. apply bind_Ok_inv in H as (u & H1 & H). apply ensure_Ok_inv, andb_true_iff in H1 as [H1 H1'].
    apply (proj1 (N.ltb_lt _ _)) in H1. apply (proj1 (N.ltb_lt _ _)) in H1'.
    apply bind_Ok_inv in H as (n' & H & E). apply Ok_inj in E. injection E as ->.
    apply gp_quote_iff in H; [|exact H1]. auto.
  - intros (H1 & H1' & H). rewrite (proj2 (N.ltb_lt _ _) H1 : (_ <? u32_max) = true).
    rewrite (proj2 (N.ltb_lt _ _) H1' : (_ <? u256_max) = true). cbn [andb ensure bind].
    apply gp_quote_iff in H; [|exact H1]. rewrite H. reflexivity.
Qed.

Lemma gas_payment A Q e i id d gas refund st st' r :
  is_igp st ->
  (c_execute A Q e i (MPayForGas id d gas refund) st = Ok (st', r) <->
   d < 2 ^ 32 /\ gas < 2 ^ 256 /\ st' = st /\ gas_paid (Q st) st i d gas refund r).
Proof.
  intros Hk. destruct st as [ | | | | | | | | | | | | | |x| | |]; try contradiction Hk.
  unfold c_execute, lift. cbn [emsg_ok gp_execute]. unfold u32_ok, u256_ok. split.
  - intros H. apply bind_Ok_inv in H as (u & H1 & H). apply ensure_Ok_inv, andb_true_iff in H1 as [H1 H1'].
    apply (proj1 (N.ltb_lt _ _)) in H1. apply (proj1 (N.ltb_lt _ _)) in H1'.
    apply bind_Ok_inv in H as ([x' r'] & H & E). apply Ok_inj, pair_equal_spec in E as [<- <-].
    apply gp_pay_iff in H as [-> H]; [|exact H1]. auto.
  - intros (H1 & H1' & -> & H). rewrite (proj2 (N.ltb_lt _ _) H1 : (_ <? u32_max) = true).
    rewrite (proj2 (N.ltb_lt _ _) H1' : (_ <? u256_max) = true). cbn [andb ensure bind].
    rewrite (proj2 (gp_pay_iff _ i d gas refund x x r H1) (conj eq_refl H)). reflexivity.
Qed.

Lemma gas_kept q st i d gas refund r :
  gas_paid q st i d gas refund r ->
  exists price rate, gas_terms q st d price rate /\
    (forall x, amount_of x (i_funds i) =
       (if bytes_eqb x (gas_token st) then gas_cost gas price rate else 0) + amount_of x (sends r)).
Proof.
  intros (price & rate & paid & H1 & _ & H2 & _ & H3 & _ & ->). exists price, rate. split; [exact H1|].
  intros x. rewrite H2. set (n := gas_cost gas price rate) in *. clearbody n.
  rewrite amount_of_cons. cbn [c_denom c_amount amount_of fold_right].
  destruct (paid =? n) eqn:E.
  - apply N.eqb_eq in E. subst n. cbn. destruct (bytes_eqb x (gas_token st)); lia.
  - cbn. destruct (bytes_eqb x (gas_token st)); lia.
Qed.

Lemma exact_quote_accepted A Q e i id d gas refund st n :
  is_igp st ->
  c_query A (Q st) (QQuoteGasPayment d gas) st = Ok (RGasNeeded n) -> n <> 0 -> n < 2 ^ 128 ->
  i_funds i = [mkCoin (gas_token st) n] ->
  c_execute A Q e i (MPayForGas id d gas refund) st = Ok (st, mkResp [] None).
Proof.
  intros Hk Hq Hn Hlt Hf. apply gas_quote in Hq as (H1 & H2 & price & rate & H3 & H4 & ->); [|exact Hk].
  apply gas_payment; [exact Hk|]. split; [exact H1|]. split; [exact H2|]. split; [reflexivity|].
  exists price, rate, (gas_cost gas price rate).
  set (n := gas_cost gas price rate) in *.
  repeat match goal with |- _ /\ _ => split end; try assumption; try lia.
  now rewrite N.eqb_refl.
Qed.

(** ** Refund address *)
Lemma refund_iff v hrp dflt e :
  igp_refund_address v hrp dflt = Ok e <->
  if (Nat.eqb (length (ig_refund v)) 20 || Nat.eqb (length (ig_refund v)) 32)%bool
  then firstn 16 (ig_refund v) <> zeros 16 /\ bech32_encode hrp (ig_refund v) = Ok e
  else e = dflt.
Proof.
  destruct (Nat.eqb (length (ig_refund v)) 20 || Nat.eqb (length (ig_refund v)) 32)%bool eqn:E.
  - assert (Hl : length (ig_refund v) = 20%nat \/ length (ig_refund v) = 32%nat).
    { apply orb_true_iff in E as [E|E]; apply PeanoNat.Nat.eqb_eq in E; auto. }
    assert (L16 : length (firstn 16 (ig_refund v)) = 16%nat) by (rewrite firstn_length; lia).
    destruct (forallb (fun b => byte_eqb b x00) (firstn 16 (ig_refund v))) eqn:Ez.
    + split.
      * rewrite igp_refund_panic; [discriminate| |exact Hl]. apply forallb_zeros in Ez. now rewrite L16 in Ez.
      * intros [H _]. apply forallb_zeros in Ez. rewrite L16 in Ez. contradiction.
    + unfold igp_refund_address.
      assert (E2 : (negb (Nat.eqb (length (ig_refund v)) 20) && negb (Nat.eqb (length (ig_refund v)) 32))%bool = false).
      { destruct Hl as [-> | ->]; reflexivity. }
      rewrite E2, Ez. split.
      * intros H. split.
        -- intros Hz. rewrite <- L16 in Hz at 2. apply forallb_zeros in Hz. congruence.
        -- destruct (bech32_encode hrp (ig_refund v)); try discriminate. exact H.
      * intros [_ H]. rewrite H. reflexivity.
  - unfold igp_refund_address. apply orb_false_iff in E as [E1 E2]. rewrite E1, E2. cbn [negb andb].
    split; [intros H; now apply Ok_inj in H|now intros ->].
Qed.

Lemma igp_decode_short_iff md v : igp_decode md = Ok v <->
  (32 <= length md)%nat /\ v = mkIgpMeta (of_be (firstn 32 md)) (skipn 32 md).
Proof.
  unfold igp_decode. split.
  - intros H. apply bind_Ok_inv in H as (g & H1 & H). apply bind_Ok_inv in H as (t & H2 & H).
    apply Ok_inj in H. subst v.
    assert (L : (32 <= length md)%nat).
    { destruct (Compare_dec.le_lt_dec 32 (length md)); [assumption|]. rewrite slice_panic in H1 by assumption. discriminate. }
    rewrite slice_ok in H1 by lia. rewrite slice_from_ok in H2 by lia. apply Ok_inj in H1, H2. subst.
    split; [exact L|reflexivity].
  - intros [L ->]. rewrite slice_ok by lia. rewrite slice_from_ok by lia. reflexivity.
Qed.

Lemma used_gas_of x d : d < u32_max -> used_gas (SIgp x) d = Some (gp_gas_for x d).
Proof.
  intros Hd. unfold used_gas. rewrite reported_gas_of by exact Hd. unfold gp_gas_for.
  destruct (om_get d (gp_gas x)); reflexivity.
Qed.

Lemma gas_dispatch A Q e i md raw st st' r :
  is_igp st ->
  (c_execute A Q e i (MPostDispatch md raw) st = Ok (st', r) <->
   exists m gas refund, msg_decode raw = Ok m /\ requested_gas st md m gas /\ requested_refund st md m refund /\
     st' = st /\ gas_paid (Q st) st i (m_dest m) gas refund r).
Proof.
  intros Hk. destruct st as [ | | | | | | | | | | | | | |x| | |]; try contradiction Hk.
  unfold c_execute, lift. cbn [emsg_ok ensure bind gp_execute]. unfold gp_post_dispatch, requested_gas, requested_refund.
  cbn [gas_hrp]. split.
  - intros H. apply bind_Ok_inv in H as ([x' r'] & H & E). apply Ok_inj, pair_equal_spec in E as [<- <-].
    apply bind_Ok_inv in H as (m & Hd & H). pose proof (decode_dest _ _ Hd) as Hm.
    apply bind_Ok_inv in H as ([gas refund] & H1 & H). apply gp_pay_iff in H as [-> H]; [|exact Hm].
    exists m, gas, refund. split; [exact Hd|]. rewrite used_gas_of by exact Hm.
    destruct (Nat.ltb (length md) 32) eqn:El.
    + apply PeanoNat.Nat.ltb_lt in El. apply bind_Ok_inv in H1 as (a & Ha & H1).
      apply Ok_inj, pair_equal_spec in H1 as [<- <-]. split; [reflexivity|]. split; [|auto].
      exists a. split; [exact Ha|]. rewrite skipn_all2 by lia. reflexivity.
    + apply bind_Ok_inv in H1 as (v & Hv & H1). apply igp_decode_short_iff in Hv as [_ ->].
      apply bind_Ok_inv in H1 as (a & Ha & H1). apply bind_Ok_inv in H1 as (b & Hb & H1).
      apply Ok_inj, pair_equal_spec in H1 as [<- <-]. cbn [ig_gas_limit]. split; [reflexivity|]. split; [|auto].
      exists a. split; [exact Ha|]. apply refund_iff in Hb. exact Hb.
  - intros (m & gas & refund & Hd & Hg & (a & Ha & Hr) & -> & H). rewrite Hd. cbn [bind].
    pose proof (decode_dest _ _ Hd) as Hm. rewrite used_gas_of in Hg by exact Hm.
    pose proof (proj2 (gp_pay_iff (Q (SIgp x)) i (m_dest m) gas refund x x r Hm) (conj eq_refl H)) as Hp.
    destruct (Nat.ltb (length md) 32) eqn:El.
    + apply PeanoNat.Nat.ltb_lt in El. rewrite Ha. cbn [bind]. apply Some_inj in Hg. rewrite Hg.
      rewrite skipn_all2 in Hr by lia. cbn in Hr. subst refund. rewrite Hp. reflexivity.
    + apply PeanoNat.Nat.ltb_ge in El. rewrite (proj2 (igp_decode_short_iff md _) (conj El eq_refl)). cbn [bind].
      rewrite Ha. cbn [bind ig_gas_limit]. rewrite (proj2 (refund_iff (mkIgpMeta _ (skipn 32 md)) _ a refund) Hr).
      cbn [bind]. rewrite <- Hg. rewrite Hp. reflexivity.
Qed.

Lemma gas_hook_quote A q md raw st f :
  is_igp st ->
  (c_query A q (QHookQuote md raw) st = Ok (RFees f) <->
   exists m gas price rate, msg_decode raw = Ok m /\ requested_gas st md m gas /\
     gas_terms q st (m_dest m) price rate /\ fits gas price rate /\
     let n := gas_cost gas price rate in
     n < 2 ^ 128 /\ f = if n =? 0 then [] else [mkCoin (gas_token st) n]).
Proof.
  intros Hk. destruct st as [ | | | | | | | | | | | | | |x| | |]; try contradiction Hk.
  unfold c_query. cbn [qmsg_ok ensure bind gp_query gas_token]. unfold gp_quote_dispatch, requested_gas. split.
  - intros H. apply bind_Ok_inv in H as (f' & H & E). apply Ok_inj in E. injection E as ->.
    apply bind_Ok_inv in H as (m & Hd & H). pose proof (decode_dest _ _ Hd) as Hm.
    apply bind_Ok_inv in H as (gas & H1 & H). apply bind_Ok_inv in H as (n & H2 & H).
    apply gp_quote_iff in H2 as (price & rate & T1 & T2 & ->); [|exact Hm].
    exists m, gas, price, rate. split; [exact Hd|]. split.
    { rewrite used_gas_of by exact Hm. destruct (Nat.ltb (length md) 32); [apply Ok_inj in H1; now subst|].
      apply bind_Ok_inv in H1 as (v & Hv & H1). apply igp_decode_short_iff in Hv as [_ ->].
      now apply Ok_inj in H1. }
    split; [exact T1|]. split; [exact T2|]. cbn zeta. set (n := gas_cost gas price rate) in *. clearbody n.
    destruct (n =? 0) eqn:E.
    + apply N.eqb_eq in E. apply Ok_inj in H. subst. split; [lia|reflexivity].
    + apply bind_Ok_inv in H as (u & H3 & H). apply ensure_Ok_inv in H3. apply (proj1 (N.ltb_lt _ _)) in H3.
      apply Ok_inj in H. split; [exact H3|now subst].
  - intros (m & gas & price & rate & Hd & Hg & T1 & T2 & Hn & ->). rewrite Hd. cbn [bind].
    pose proof (decode_dest _ _ Hd) as Hm. rewrite used_gas_of in Hg by exact Hm.
    assert (Eg : (if Nat.ltb (length md) 32 then Ok (gp_gas_for x (m_dest m))
                  else md0 <- igp_decode md ;; Ok (ig_gas_limit md0)) = Ok gas).
    { destruct (Nat.ltb (length md) 32) eqn:El; [apply Some_inj in Hg; now rewrite Hg|].
      apply PeanoNat.Nat.ltb_ge in El. rewrite (proj2 (igp_decode_short_iff md _) (conj El eq_refl)). cbn [bind ig_gas_limit].
      now rewrite Hg. }
    rewrite Eg. cbn [bind].
    rewrite (proj2 (gp_quote_iff q x (m_dest m) gas (gas_cost gas price rate) Hm)) by (exists price, rate; auto).
    cbn [bind]. set (n := gas_cost gas price rate) in *. clearbody n.
    destruct (n =? 0); [reflexivity|].
    rewrite (proj2 (N.ltb_lt _ _) Hn : (_ <? u128_max) = true). reflexivity.
Qed.

(** the quoted fee is what the post-dispatch charges *)
Lemma terms_unique q st d p1 r1 p2 r2 :
  gas_terms q st d p1 r1 -> gas_terms q st d p2 r2 -> p1 = p2 /\ r1 = r2.
Proof.
  intros (o & H1 & H2 & _) (o' & H1' & H2' & _). rewrite H1 in H1'. apply Some_inj, Some_inj in H1'. subst o'.
  rewrite H2 in H2'. apply Ok_inj in H2'. injection H2' as <- <-. auto.
Qed.

Lemma quoted_dispatch_accepted A Q e i md raw st f m refund :
  is_igp st ->
  c_query A (Q st) (QHookQuote md raw) st = Ok (RFees f) -> f <> [] -> i_funds i = f ->
  msg_decode raw = Ok m -> requested_refund st md m refund ->
  c_execute A Q e i (MPostDispatch md raw) st = Ok (st, mkResp [] None).
Proof.
  intros Hk Hq Hf Hi Hd Hr. apply gas_hook_quote in Hq as (m' & gas & price & rate & Hd' & Hg & T1 & T2 & Hn & Ef); [|exact Hk].
  rewrite Hd in Hd'. apply Ok_inj in Hd'. subst m'.
  apply gas_dispatch; [exact Hk|]. exists m, gas, refund. split; [exact Hd|]. split; [exact Hg|]. split; [exact Hr|].
  split; [reflexivity|]. exists price, rate, (gas_cost gas price rate).
  set (n := gas_cost gas price rate) in *. clearbody n.
  destruct (n =? 0) eqn:E; [congruence|]. apply N.eqb_neq in E.
  repeat match goal with |- _ /\ _ => split end; try assumption; try lia.
  - now rewrite Hi.
  - now rewrite N.eqb_refl.
Qed.

(** ** Arithmetic of the quote *)
Lemma cost_monotone g1 g2 p1 p2 r1 r2 :
  g1 <= g2 -> p1 <= p2 -> r1 <= r2 -> gas_cost g1 p1 r1 <= gas_cost g2 p2 r2.
Proof.
  intros H1 H2 H3. unfold gas_cost. apply N.div_le_mono; [discriminate|].
  apply N.mul_le_mono; [|exact H3]. now apply N.mul_le_mono.
Qed.

Lemma div_split a b c : c <> 0 -> a / c + b / c <= (a + b) / c /\ (a + b) / c <= a / c + b / c + 1.
Proof.
  intros Hc. pose proof (N.div_mod' a c) as Ha. pose proof (N.div_mod' b c) as Hb.
  pose proof (N.mod_lt a c Hc) as La. pose proof (N.mod_lt b c Hc) as Lb.
  set (qa := a / c) in *. set (qb := b / c) in *. set (ra := a mod c) in *. set (rb := b mod c) in *.
  clearbody qa qb ra rb. split.
  - apply N.div_le_lower_bound; [exact Hc|]. nia.
  - enough ((a + b) / c < qa + qb + 2) by lia.
    apply N.div_lt_upper_bound; [exact Hc|]. nia.
Qed.

Lemma cost_split g1 g2 p r :
  gas_cost g1 p r + gas_cost g2 p r <= gas_cost (g1 + g2) p r /\
  gas_cost (g1 + g2) p r <= gas_cost g1 p r + gas_cost g2 p r + 1.
Proof.
  unfold gas_cost. replace ((g1 + g2) * p * r) with (g1 * p * r + g2 * p * r) by ring.
  apply div_split. discriminate.
Qed.

Lemma quotes_monotone A q1 q2 st1 st2 d1 d2 g1 g2 p1 p2 r1 r2 n1 n2 :
  is_igp st1 -> is_igp st2 ->
  gas_terms q1 st1 d1 p1 r1 -> gas_terms q2 st2 d2 p2 r2 ->
  c_query A q1 (QQuoteGasPayment d1 g1) st1 = Ok (RGasNeeded n1) ->
  c_query A q2 (QQuoteGasPayment d2 g2) st2 = Ok (RGasNeeded n2) ->
  g1 <= g2 -> p1 <= p2 -> r1 <= r2 -> n1 <= n2.
Proof.
  intros K1 K2 T1 T2 Q1 Q2 Hg Hp Hr.
  apply gas_quote in Q1 as (_ & _ & a & b & U1 & _ & ->); [|exact K1].
  apply gas_quote in Q2 as (_ & _ & a' & b' & U2 & _ & ->); [|exact K2].
  destruct (terms_unique _ _ _ _ _ _ _ T1 U1) as [<- <-].
  destruct (terms_unique _ _ _ _ _ _ _ T2 U2) as [<- <-]. now apply cost_monotone.
Qed.

Lemma quotes_split A q st d g1 g2 n1 n2 n :
  is_igp st ->
  c_query A q (QQuoteGasPayment d g1) st = Ok (RGasNeeded n1) ->
  c_query A q (QQuoteGasPayment d g2) st = Ok (RGasNeeded n2) ->
  c_query A q (QQuoteGasPayment d (g1 + g2)) st = Ok (RGasNeeded n) ->
  n1 + n2 <= n /\ n <= n1 + n2 + 1.
Proof.
  intros K Q1 Q2 Q3.
  apply gas_quote in Q1 as (_ & _ & a & b & U1 & _ & ->); [|exact K].
  apply gas_quote in Q2 as (_ & _ & a' & b' & U2 & _ & ->); [|exact K].
  apply gas_quote in Q3 as (_ & _ & a'' & b'' & U3 & _ & ->); [|exact K].
  destruct (terms_unique _ _ _ _ _ _ _ U1 U2) as [<- <-].
  destruct (terms_unique _ _ _ _ _ _ _ U1 U3) as [<- <-]. apply cost_split.
Qed.

(** ** Claims and settings *)
Lemma claim_iff A Q e i st st' r :
  is_igp st ->
  (c_execute A Q e i MClaim st = Ok (st', r) <->
   Some (i_sender i) = reported_beneficiary st /\ st' = st /\
   r = mkResp [mkSub (CBankSend (i_sender i)
                 [mkCoin (gas_token st) (q_balance (Q st) (e_contract e) (gas_token st))]) RpNever] None).
Proof.
  intros Hk. destruct st as [ | | | | | | | | | | | | | |x| | |]; try contradiction Hk.
  unfold c_execute, lift. cbn [emsg_ok ensure bind gp_execute gas_token]. unfold gp_claim.
  change (reported_beneficiary (SIgp x)) with (Some (gp_beneficiary x)). split.
  - intros H. apply bind_Ok_inv in H as ([x' r'] & H & E). apply Ok_inj, pair_equal_spec in E as [<- <-].
    apply bind_Ok_inv in H as (u & H1 & H). apply ensure_Ok_inv, bytes_eqb_eq in H1.
    apply Ok_inj, pair_equal_spec in H as [<- <-]. split; [now rewrite H1|]. split; [reflexivity|].
    unfold resp. now rewrite H1.
  - intros (H1 & -> & ->). apply Some_inj in H1. rewrite H1, bytes_eqb_refl. reflexivity.
Qed.

Lemma gas_settings_owner A st ev m :
  accepted A st ev = true -> ev_msg ev = Some m -> gas_setting m = true ->
  ev_sender ev = reported_owner st.
Proof.
  intros Ha Hm Hs. apply c_step_accepted in Ha as [r Ha].
  destruct ev as [e i m' Q|]; [|discriminate]. cbn [ev_msg ev_sender] in *. apply Some_inj in Hm. subst m'.
  rewrite reported_owner_own. cbn [c_apply] in Ha. unfold c_execute, lift in Ha.
  apply bind_Ok_inv in Ha as (u & _ & Ha).
  destruct m; try discriminate Hs; destruct st; apply bind_Ok_inv in Ha as ([x' r'] & H & _);
    try discriminate H; cbn [own_of option_map];
    cbn [gp_execute or_execute] in H; unfold only_owner in H;
    apply bind_Ok_inv in H as (u1 & H1 & _); apply ensure_Ok_inv, bytes_eqb_eq in H1; congruence.
Qed.

Lemma fold_set_get {X} (f : X -> N) {V} (g : X -> V) l d (m : omap N V) :
  om_get d (fold_left (fun m p => om_set (f p) (g p) m) l m)
  = fold_left (fun acc p => if f p =? d then Some (g p) else acc) l (om_get d m).
Proof.
  revert m. induction l as [|p l IH]; intros m; [reflexivity|]. cbn [fold_left]. rewrite IH. f_equal.
  rewrite om_get_set. destruct (f p =? d) eqn:E.
  - apply N.eqb_eq in E. rewrite E, keqb_refl. reflexivity.
  - apply N.eqb_neq in E. assert (K : keqb d (f p) = false) by (apply keqb_neq; congruence). now rewrite K.
Qed.

Lemma fold_del_get' {V} ds d (m : omap N V) :
  om_get d (fold_left (fun m d => om_del d m) ds m) = if existsb (N.eqb d) ds then None else om_get d m.
Proof.
  revert m. induction ds as [|k ds IH]; intros m; [reflexivity|]. cbn [fold_left existsb].
  rewrite IH, om_get_del. destruct (d =? k) eqn:E; cbn [orb].
  - apply N.eqb_eq in E. subst k. rewrite keqb_refl. now destruct (existsb _ ds).
  - apply N.eqb_neq in E. assert (K : keqb d k = false) by (apply keqb_neq; congruence). now rewrite K.
Qed.

Lemma gp_execute_facets A q e i m x x' r :
  gp_execute A q e i m x = Ok (x', r) ->
  (forall d, om_get d (gp_gas x') = gas_update d m (om_get d (gp_gas x))) /\
  Some (gp_default_gas x') = default_gas_update m (Some (gp_default_gas x)) /\
  Some (gp_beneficiary x') = beneficiary_update m (Some (gp_beneficiary x)).
Proof.
  intros H. destruct m; try discriminate H; cbn [gp_execute] in H;
    unfold gp_post_dispatch, gp_pay_for_gas, gp_claim in H; inv_all; dpairs; inv_all;
    cbn [gp_gas gp_default_gas gp_beneficiary gas_update default_gas_update beneficiary_update];
    repeat split; try reflexivity; intros.
  - apply (fold_set_get fst snd).
  - apply fold_del_get'.
  - match goal with Hv : addr_validate _ _ = Ok _ |- _ => apply addr_validate_iff in Hv as [_ ->] end. reflexivity.
Qed.

Lemma gas_last_set A st h d :
  is_igp st -> d < 2 ^ 32 ->
  reported_gas (c_run A st h) d = replay (gas_update d) A st h (reported_gas st d).
Proof.
  intros Hm Hd. apply (replay_run (gas_update d) (fun st => reported_gas st d) is_igp); [keep_kind| |exact Hm].
  clear Hm h st. intros st ev Hm Ha. apply c_step_accepted in Ha as [r0 Ha].
  destruct st; try contradiction Hm. open_exec Ha x' r' H. cbn [ev_msg].
  rewrite !reported_gas_of by exact Hd. apply gp_execute_facets in H as (H & _). apply H.
Qed.

Lemma default_gas_last_set A st h :
  is_igp st ->
  reported_default_gas (c_run A st h) = replay default_gas_update A st h (reported_default_gas st).
Proof.
  intros Hm. apply (replay_run default_gas_update reported_default_gas is_igp); [keep_kind| |exact Hm].
  clear Hm h st. intros st ev Hm Ha. apply c_step_accepted in Ha as [r0 Ha].
  destruct st; try contradiction Hm. open_exec Ha x' r' H. cbn [ev_msg].
  apply gp_execute_facets in H as (_ & H & _). exact H.
Qed.

Lemma beneficiary_last_set A st h :
  is_igp st ->
  reported_beneficiary (c_run A st h) = replay beneficiary_update A st h (reported_beneficiary st).
Proof.
  intros Hm. apply (replay_run beneficiary_update reported_beneficiary is_igp); [keep_kind| |exact Hm].
  clear Hm h st. intros st ev Hm Ha. apply c_step_accepted in Ha as [r0 Ha].
  destruct st; try contradiction Hm. open_exec Ha x' r' H. cbn [ev_msg].
  apply gp_execute_facets in H as (_ & _ & H). exact H.
Qed.

Lemma igp_initial A q e i hrp o tk b g st0 r d :
  c_instantiate A q e i (IIgp hrp o tk b g) = Ok (st0, r) -> d < 2 ^ 32 ->
  is_igp st0 /\ reported_gas st0 d = None /\ reported_default_gas st0 = Some g /\
  reported_beneficiary st0 = Some b /\ gas_token st0 = tk.
Proof.
  intros H Hd. unfold c_instantiate, lift, gp_instantiate in H. inv_all.
  match goal with Hv : addr_validate _ b = Ok _ |- _ => apply addr_validate_iff in Hv as [_ ->] end.
  split; [exact I|]. split; [rewrite reported_gas_of by exact Hd; reflexivity|].
  split; [reflexivity|]. split; reflexivity.
Qed.

(** ** Oracle *)
Lemma gas_data_of x d : d < u32_max ->
  reported_gas_data (SOracle x) d = option_map (fun g => (gd_price g, gd_rate g)) (om_get d (or_data x)).
Proof.
  intros Hd. unfold reported_gas_data, c_query. cbn [qmsg_ok].
  rewrite (u32_lt_ok d Hd). cbn [ensure bind or_query]. now destruct (om_get d (or_data x)).
Qed.

Lemma insert_get m c d :
  option_map (fun g => (gd_price g, gd_rate g)) (om_get d (or_insert m c))
  = if gc_domain c =? d then Some (gc_price c, gc_rate c)
    else option_map (fun g => (gd_price g, gd_rate g)) (om_get d m).
Proof.
  unfold or_insert. rewrite om_get_set. destruct (gc_domain c =? d) eqn:E.
  - apply N.eqb_eq in E. rewrite E, keqb_refl. reflexivity.
  - apply N.eqb_neq in E. assert (K : keqb d (gc_domain c) = false) by (apply keqb_neq; congruence). now rewrite K.
Qed.

Lemma insert_all l m m' d :
  foldM (fun m c => _ <- ensure (negb (gc_rate c =? 0)) EInvalidConfig ;; Ok (or_insert m c)) l m = Ok m' ->
  Forall (fun c => gc_rate c <> 0) l /\
  option_map (fun g => (gd_price g, gd_rate g)) (om_get d m')
  = fold_left (fun acc c => if gc_domain c =? d then Some (gc_price c, gc_rate c) else acc) l
      (option_map (fun g => (gd_price g, gd_rate g)) (om_get d m)).
Proof.
  revert m. induction l as [|c l IH]; intros m H; cbn [foldM] in H.
  - apply Ok_inj in H. subst. split; [constructor|reflexivity].
  - apply bind_Ok_inv in H as (m1 & H1 & H). apply bind_Ok_inv in H1 as (u & H1 & H2).
    apply ensure_Ok_inv in H1. apply Ok_inj in H2. subst m1. apply IH in H as [F H]. split.
    + constructor; [|exact F]. apply negb_true_iff, N.eqb_neq in H1. exact H1.
    + rewrite H, insert_get. reflexivity.
Qed.

Lemma gas_data_last_set A st h d :
  is_oracle st -> d < 2 ^ 32 ->
  reported_gas_data (c_run A st h) d = replay (gas_data_update d) A st h (reported_gas_data st d).
Proof.
  intros Hm Hd. apply (replay_run (gas_data_update d) (fun st => reported_gas_data st d) is_oracle); [keep_kind| |exact Hm].
  clear Hm h st. intros st ev Hm Ha. apply c_step_accepted in Ha as [r0 Ha].
  destruct st; try contradiction Hm. open_exec Ha x' r' H. cbn [ev_msg].
  rewrite !gas_data_of by exact Hd. destruct m; try discriminate H; cbn [or_execute] in H; inv_all;
    try reflexivity; cbn [or_data gas_data_update].
  - match goal with Hf : foldM _ _ _ = Ok _ |- _ => apply (insert_all _ _ _ d) in Hf as [_ Hf]; exact Hf end.
  - apply insert_get.
Qed.

Lemma batch_nonzero A st ev l :
  accepted A st ev = true -> ev_msg ev = Some (MSetRemoteGasDataConfigs l) ->
  Forall (fun c => gc_rate c <> 0) l.
Proof.
  intros Ha Hm. apply c_step_accepted in Ha as [r Ha].
  destruct ev as [e i m' Q|]; [|discriminate]. cbn [ev_msg] in *. apply Some_inj in Hm. subst m'.
  cbn [c_apply] in Ha. unfold c_execute, lift in Ha. apply bind_Ok_inv in Ha as (u & _ & Ha).
  destruct st; apply bind_Ok_inv in Ha as ([x' r'] & H & _); try discriminate H.
  cbn [or_execute] in H. inv_all.
  match goal with Hf : foldM _ _ _ = Ok _ |- _ => apply (insert_all _ _ _ 0) in Hf as [Hf _]; exact Hf end.
Qed.

Lemma zero_rate_origin A q e i o st0 r h d price :
  c_instantiate A q e i (IOracle o) = Ok (st0, r) -> d < 2 ^ 32 ->
  reported_gas_data (c_run A st0 h) d = Some (price, 0) ->
  exists st ev c, In (st, ev) (accepted_calls A st0 h) /\ ev_msg ev = Some (MSetRemoteGasData c) /\
    gc_domain c = d /\ gc_rate c = 0 /\ gc_price c = price.
Proof.
  intros H Hd.
  assert (Hk : is_oracle st0 /\ reported_gas_data st0 d = None).
  { unfold c_instantiate, lift, or_instantiate in H. inv_all. split; [exact I|]. now rewrite gas_data_of. }
  clear H. destruct Hk as [Hk H0]. rewrite gas_data_last_set by assumption. rewrite H0. unfold replay.
  assert (G : forall l (acc : option (N * N)),
    (forall st ev, In (st, ev) l -> In (st, ev) (accepted_calls A st0 h)) ->
    fold_left (fun acc (p : cstate * event) => match ev_msg (snd p) with Some m => gas_data_update d m acc | None => acc end)
      l acc = Some (price, 0) ->
    acc = Some (price, 0) \/
    exists st ev c, In (st, ev) (accepted_calls A st0 h) /\ ev_msg ev = Some (MSetRemoteGasData c) /\
      gc_domain c = d /\ gc_rate c = 0 /\ gc_price c = price).
  { induction l as [|[st ev] l IH]; intros acc Hin Hf; [now left|]. cbn [fold_left snd] in Hf.
    apply IH in Hf; [|intros; apply Hin; now right]. destruct Hf as [Hf|Hf]; [|now right].
    destruct (ev_msg ev) as [m|] eqn:Em; [|now left].
    destruct m; cbn [gas_data_update] in Hf; try (now left).
    all: match type of Em with
    | _ = Some (MSetRemoteGasDataConfigs ?lc) =>
      assert (Hnz : Forall (fun c => gc_rate c <> 0) lc);
      [ apply (batch_nonzero A st ev lc); [|exact Em];
        assert (Hi : In (st, ev) (accepted_calls A st0 h)) by (apply Hin; now left);
        apply accepted_calls_In in Hi; destruct Hi as (h1 & h2 & _ & -> & Hacc); exact Hacc
      | clear -Hf Hnz; left; revert acc Hf; induction Hnz as [|c0 lc0 Hc Hnz IH2]; intros acc Hf; [exact Hf|];
        cbn [fold_left] in Hf; apply IH2 in Hf; destruct (gc_domain c0 =? d); [|exact Hf];
        apply Some_inj, pair_equal_spec in Hf as [_ Hf]; contradiction ]
    | _ = Some (MSetRemoteGasData ?cc) =>
      destruct (gc_domain cc =? d) eqn:E; [|now left]; apply N.eqb_eq in E; right;
      apply Some_inj, pair_equal_spec in Hf as [Hp Hr];
      exists st, ev, cc; split; [apply Hin; now left|]; auto
    end. }
  intros Hf. apply G in Hf; [|auto]. destruct Hf as [Hf|Hf]; [discriminate|exact Hf].
Qed.

Lemma gas_charged A q md raw st m g n :
  is_igp st -> (length md < 32)%nat -> msg_decode raw = Ok m -> used_gas st (m_dest m) = Some g ->
  n <> 0 -> c_query A q (QHookQuote md raw) st = Ok (RFees [mkCoin (gas_token st) n]) ->
  exists price rate, gas_terms q st (m_dest m) price rate /\ n = gas_cost g price rate.
Proof.
  intros Hk Hl Hd Hg Hn Hq. apply gas_hook_quote in Hq as (m' & gas & price & rate & Hd' & Hg' & T1 & T2 & Hlt & Ef); [|exact Hk].
  rewrite Hd in Hd'. apply Ok_inj in Hd'. subst m'. unfold requested_gas in Hg'.
  apply PeanoNat.Nat.ltb_lt in Hl. rewrite Hl, Hg in Hg'. apply Some_inj in Hg'. subst gas.
  exists price, rate. split; [exact T1|]. cbn zeta in Ef.
  destruct (gas_cost g price rate =? 0); [discriminate|]. now injection Ef.
Qed.
