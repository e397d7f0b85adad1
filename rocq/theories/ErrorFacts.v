(** * Lemmas for C102: what the errors say. *)
From Coq Require Import List NArith Bool Lia.
From Verif Require Import Base BaseFacts OMap Crypto Bech32 Hex Metadata Merkle MerkleFacts Coins CoinsFacts Message
  CodecFacts Chain Ownable Router Contracts Spec SpecModules SpecWorld SpecWire SpecErrors StepFacts HookFacts IgpFacts VaFacts MailboxFacts
  AcceptFacts StoreFrame AbortFacts Mailbox Va Isms Hooks Igp Warp Cw20.
Import ListNotations.

(** errors without a cause of their own *)
Definition dull (er : err) : Prop := er = EStd \/ er = EParse.
Definition plain {X} (x : res X) : Prop := forall er, x = Err er -> dull er.

Lemma bind_Err_inv {X Y} (x : res X) (f : X -> res Y) er :
  bind x f = Err er -> x = Err er \/ exists a, x = Ok a /\ f a = Err er.
Proof. destruct x; cbn [bind]; intros H; [right; eauto | injection H as ->; auto | discriminate]. Qed.
Lemma ensure_Err_inv b e er : ensure b e = Err er -> b = false /\ er = e.
Proof. destruct b; cbn [ensure]; intros H; [discriminate | injection H as ->; auto]. Qed.
Lemma ok_or_Err_inv {X} (o : option X) e er : ok_or o e = Err er -> o = None /\ er = e.
Proof. destruct o; cbn [ok_or]; intros H; [discriminate | injection H as ->; auto]. Qed.

Lemma plain_bind {X Y} (x : res X) (f : X -> res Y) : plain x -> (forall a, plain (f a)) -> plain (bind x f).
Proof. intros H1 H2 er H. apply bind_Err_inv in H as [H | (a & _ & H)]; [exact (H1 _ H) | exact (H2 a _ H)]. Qed.
Lemma plain_Ok {X} (a : X) : plain (Ok a). Proof. intros er H. discriminate. Qed.
Lemma plain_Panic {X} : plain (Panic : res X). Proof. intros er H. discriminate. Qed.
Lemma plain_Std {X} : plain (Err EStd : res X). Proof. intros er H. injection H as <-. now left. Qed.
Lemma plain_Parse {X} : plain (Err EParse : res X). Proof. intros er H. injection H as <-. now right. Qed.
Lemma plain_need b : plain (need b). Proof. destruct b; [apply plain_Ok | apply plain_Panic]. Qed.
Lemma plain_expect {X} (o : option X) : plain (expect o). Proof. destruct o; [apply plain_Ok | apply plain_Panic]. Qed.
Lemma plain_unwrap {X} (r : res X) : plain (unwrap r). Proof. destruct r; [apply plain_Ok | apply plain_Panic | apply plain_Panic]. Qed.
Lemma plain_ensure b : plain (ensure b EStd). Proof. destruct b; [apply plain_Ok | apply plain_Std]. Qed.
Lemma plain_ensure_parse b : plain (ensure b EParse). Proof. destruct b; [apply plain_Ok | apply plain_Parse]. Qed.
Lemma plain_ok_or {X} (o : option X) : plain (ok_or o EStd). Proof. destruct o; [apply plain_Ok | apply plain_Std]. Qed.
Lemma plain_map_err {X} (r : res X) : plain (map_err r EStd).
Proof. destruct r; [apply plain_Ok | apply plain_Std | apply plain_Panic]. Qed.
Lemma plain_validate A a : plain (addr_validate A a).
Proof. unfold addr_validate. destruct (api_valid A a); [apply plain_Ok | apply plain_Std]. Qed.
Lemma plain_smart q a m : plain (smart q a m).
Proof. unfold smart. destruct (q_smart q a m) as [r | |]; try apply plain_Std. destruct (qres_ok r); [apply plain_Ok | apply plain_Std]. Qed.
Lemma plain_slice i j l : plain (slice i j l).
Proof. unfold slice. destruct (_ && _)%bool; [apply plain_Ok | apply plain_Panic]. Qed.
Lemma plain_slice_from i l : plain (slice_from i l).
Proof. unfold slice_from. destruct (Nat.leb _ _); [apply plain_Ok | apply plain_Panic]. Qed.
Lemma plain_pad l : plain (pad32 l).
Proof. unfold pad32. destruct (Nat.leb _ _); [apply plain_Ok | apply plain_Panic]. Qed.
Lemma plain_mapM {X Y} (f : X -> res Y) l : (forall a, plain (f a)) -> plain (mapM f l).
Proof.
  intros Hf. induction l as [| a l IH]; cbn [mapM]; [apply plain_Ok |].
  apply plain_bind; [apply Hf |]. intros b. apply plain_bind; [exact IH |]. intros bs. apply plain_Ok.
Qed.
Lemma plain_foldM {X Y} (f : Y -> X -> res Y) l : (forall b a, plain (f b a)) -> forall b, plain (foldM f l b).
Proof.
  intros Hf. induction l as [| a l IH]; intros b; cbn [foldM]; [apply plain_Ok |].
  apply plain_bind; [apply Hf |]. exact IH.
Qed.
Create HintDb plain.
#[export] Hint Resolve plain_Ok plain_Panic plain_Std plain_Parse plain_need plain_expect plain_unwrap plain_ensure plain_ensure_parse
  plain_ok_or plain_map_err plain_validate plain_smart plain_slice plain_slice_from plain_pad plain_mapM plain_foldM : plain.

Ltac plainly :=
  repeat first
    [ solve [auto with plain]
    | apply plain_bind; [| intros ?]
    | match goal with |- plain (match ?x with _ => _ end) => destruct x end ].

Lemma plain_quote q h md raw : plain (quote_dispatch q h md raw). Proof. unfold quote_dispatch. plainly. Qed.
Lemma plain_recipient q a : plain (recipient_ism q a). Proof. unfold recipient_ism. plainly. Qed.
Lemma plain_verify q a md raw : plain (ism_verify q a md raw). Proof. unfold ism_verify. plainly. Qed.
Lemma plain_decode raw : plain (msg_decode raw). Proof. unfold msg_decode. plainly. Qed.
Lemma plain_warp raw : plain (warp_decode raw). Proof. unfold warp_decode. plainly. Qed.
Lemma plain_igp raw : plain (igp_decode raw). Proof. unfold igp_decode. plainly. Qed.
Lemma plain_refund v h d : plain (igp_refund_address v h d). Proof. unfold igp_refund_address. plainly. Qed.
Lemma plain_hex l : plain (hex_decode l).
Proof.
  remember (length l) as n eqn:E. assert (Hn : (length l <= n)%nat) by lia. clear E. revert l Hn.
  induction n as [| n IH]; intros [| a [| b l]] Hn; cbn [hex_decode length] in *; try solve [auto with plain]; try lia.
  plainly. apply IH. lia.
Qed.
Lemma plain_check_hrp h : plain (check_hrp h). Proof. unfold check_hrp. plainly. Qed.
#[export] Hint Resolve plain_quote plain_recipient plain_verify plain_decode plain_warp plain_igp plain_refund plain_hex plain_check_hrp : plain.
Lemma plain_b32_encode h d : plain (b32_encode h d). Proof. unfold b32_encode. plainly. Qed.
#[export] Hint Resolve plain_b32_encode : plain.
Lemma plain_encode h d : plain (bech32_encode h d). Proof. unfold bech32_encode. plainly. Qed.
Lemma plain_chars l : forall c, plain (decode_chars c l).
Proof. induction l as [| b l IH]; intros c; cbn [decode_chars]; plainly. Qed.
#[export] Hint Resolve plain_encode plain_chars : plain.
Lemma plain_b32_decode l : plain (b32_decode l). Proof. unfold b32_decode. plainly. Qed.
Lemma plain_group f : forall l, plain (group_strict f l).
Proof. induction f as [| f IH]; intros l; cbn [group_strict]; plainly. Qed.
#[export] Hint Resolve plain_b32_decode plain_group : plain.
Lemma plain_b32 l : plain (bech32_decode l). Proof. unfold bech32_decode, from_base32. plainly. Qed.
#[export] Hint Resolve plain_b32 : plain.
Lemma plain_h256 a : plain (bech32_to_h256 a). Proof. unfold bech32_to_h256. plainly. Qed.
Lemma plain_try_from l : plain (coins_try_from l). Proof. unfold coins_try_from. apply plain_foldM. intros b a. plainly. Qed.
Lemma plain_amount n : plain (to_uint128 n). Proof. unfold to_uint128. plainly. Qed.
Lemma plain_check_hook A h : plain (check_hook A h). Proof. unfold check_hook. plainly. Qed.
Lemma plain_mul a b : plain (u256_mul a b). Proof. unfold u256_mul. plainly. Qed.
Lemma plain_oracle q a d : plain (query_oracle q a d). Proof. unfold query_oracle. plainly. Qed.
Lemma plain_eth k : plain (eth_addr k). Proof. unfold eth_addr. plainly. Qed.
Lemma plain_domain_hash d m : plain (va_domain_hash d m). Proof. unfold va_domain_hash. plainly. Qed.
Lemma plain_insert l : forall n k, plain (insert_loop l n k).
Proof. induction l as [| b l IH]; intros n k; cbn [insert_loop]; plainly. Qed.
#[export] Hint Resolve plain_h256 plain_try_from plain_amount plain_check_hook plain_mul plain_oracle plain_eth plain_domain_hash plain_insert : plain.

(** an error that is not dull is not given by something plain *)
Ltac no_err D H :=
  exfalso; match type of H with ?x = Err ?er => let P := fresh in assert (P : plain x) by plainly; exact (D (P _ H)) end.
Ltac next_err D H := apply bind_Err_inv in H as [H | (? & ? & H)]; [try (solve [no_err D H]) |].

Lemma dull_dec er : dull er \/ ~ dull er.
Proof. destruct er; try (left; left; reflexivity); try (left; right; reflexivity); right; intros [H | H]; discriminate H. Qed.
Lemma dull_cause A Q i m st er : dull er -> cause A Q i m st er.
Proof. intros [-> | ->]; exact I. Qed.

(** ** The guards *)
Lemma only_err o i er : only_owner o i = Err er -> er = EUnauthorized /\ o_owner o <> i_sender i.
Proof.
  unfold only_owner. intros H. apply ensure_Err_inv in H as [H ->]. split; [reflexivity |]. now apply bytes_eqb_neq in H.
Qed.
Lemma own_err A i m o er : ~ dull er -> own_handle A i m o = Err er ->
  (er = EUnauthorized /\ match m with
     | ClaimOwnership => exists p, o_pending o = Some p /\ p <> i_sender i
     | _ => o_owner o <> i_sender i end) \/
  (er = EOwnershipTransferring /\ (exists n, m = InitOwnershipTransfer n) /\ o_owner o = i_sender i /\ o_pending o <> None) \/
  (er = EOwnershipNotTransferring /\ o_pending o = None).
Proof.
  intros D H. destruct m; cbn [own_handle] in H.
  - next_err D H. apply bind_Err_inv in H as [H | (u & Hu & H)].
    + apply ensure_Err_inv in H as [H ->]. apply bytes_eqb_neq in H. left. split; [reflexivity |]. congruence.
    + apply ensure_Ok_inv, bytes_eqb_eq in Hu. apply bind_Err_inv in H as [H | (u' & _ & H)]; [| discriminate H].
      apply ensure_Err_inv in H as [H ->]. right. left. split; [reflexivity |]. split; [eauto |]. split; [congruence |].
      destruct (o_pending o); [discriminate | discriminate H].
  - apply bind_Err_inv in H as [H | (u & Hu & H)].
    + apply ensure_Err_inv in H as [H ->]. apply bytes_eqb_neq in H. left. split; [reflexivity |]. congruence.
    + apply bind_Err_inv in H as [H | (u' & _ & H)]; [| discriminate H].
      apply ensure_Err_inv in H as [H ->]. right. right. split; [reflexivity |]. destruct (o_pending o); [discriminate H | reflexivity].
  - unfold claim_ownership in H. apply bind_Err_inv in H as [H | (u & Hu & H)].
    + apply ensure_Err_inv in H as [H ->]. right. right. split; [reflexivity |]. destruct (o_pending o); [discriminate H | reflexivity].
    + apply bind_Err_inv in H as [H | (p & Hp & H)]; [no_err D H |]. apply ok_or_Ok_inv in Hp.
      apply bind_Err_inv in H as [H | (u' & _ & H)]; [| discriminate H].
      apply ensure_Err_inv in H as [H ->]. apply bytes_eqb_neq in H. left. split; [reflexivity |]. exists p. split; [exact Hp | congruence].
Qed.
Lemma conn_err A o i m c er : ~ dull er -> conn_handle A o i m c = Err er -> er = EUnauthorized /\ o_owner o <> i_sender i.
Proof. intros D H. unfold conn_handle in H. apply bind_Err_inv in H as [H | (u & _ & H)]; [now apply only_err | no_err D H]. Qed.
Lemma router_err o i m r er : router_handle o i m r = Err er -> er = EUnauthorized /\ o_owner o <> i_sender i.
Proof. intros H. unfold router_handle in H. apply bind_Err_inv in H as [H | (u & _ & H)]; [now apply only_err | destruct m; discriminate H]. Qed.
Lemma pause_err o i m b er : pause_handle o i m b = Err er ->
  (er = EUnauthorized /\ o_owner o <> i_sender i) \/
  (er = EAlreadyPaused /\ m = Pause /\ b = true) \/ (er = ENotPaused /\ m = Release /\ b = false).
Proof.
  intros H. unfold pause_handle in H. apply bind_Err_inv in H as [H | (u & _ & H)]; [left; now apply only_err | right].
  destruct m, b; try discriminate H; cbn in H; injection H as <-; auto.
Qed.
Lemma pay_err l d er : must_pay l d = Err er ->
  (er = EPaymentNoFunds /\ forall x, amount_of x l = 0) \/ (er = EPaymentMultiple /\ (1 < length l)%nat) \/
  (er = EPaymentMissingDenom /\ amount_of d l = 0).
Proof.
  unfold must_pay. destruct l as [| c [| c' l]]; intros H.
  - injection H as <-. left. now split.
  - destruct (c_amount c =? 0) eqn:E0.
    + injection H as <-. left. split; [reflexivity |]. intros x. cbn. apply N.eqb_eq in E0. rewrite E0. now destruct (bytes_eqb x (c_denom c)).
    + destruct (bytes_eqb (c_denom c) d) eqn:E; [discriminate H |]. injection H as <-. right. right. split; [reflexivity |]. cbn.
      apply bytes_eqb_neq in E. rewrite (proj2 (bytes_eqb_neq d (c_denom c))); [reflexivity | congruence].
  - injection H as <-. right. left. split; [reflexivity |]. cbn [length]. lia.
Qed.
Lemma paid_amount l d n : must_pay l d = Ok n -> amount_of d l = n.
Proof.
  unfold must_pay. destruct l as [| c [| c' l]]; intros H; try discriminate H.
  destruct (c_amount c =? 0); [discriminate H |]. destruct (bytes_eqb (c_denom c) d) eqn:E; [| discriminate H].
  apply Ok_inj in H. subst n. apply bytes_eqb_eq in E. subst d. cbn. rewrite bytes_eqb_refl. lia.
Qed.
Lemma fees_err l f er : ~ dull er -> pay_required l f = Err er -> er = EHookPayment /\ exists x, amount_of x l < amount_of x f.
Proof.
  intros D H. unfold pay_required in H. apply bind_Err_inv in H as [H | (m & Hm & H)]; [no_err D H |].
  destruct (foldM coins_sub f m) as [m' | e' |] eqn:E; try discriminate H. injection H as <-. split; [reflexivity |].
  apply try_from_spec in Hm as (Hw & Hg & _).
  assert (HN : ~ forall d, amount_of d f <= cget d m).
  { intros HA. destruct (coins_sub_all_ok f m Hw HA) as [m' Em]. congruence. }
  clear E. enough (HE : existsb (fun c => amount_of (c_denom c) l <? amount_of (c_denom c) f) f = true).
  { apply existsb_exists in HE as (c & _ & Hc). exists (c_denom c). now apply N.ltb_lt. }
  destruct (existsb _ f) eqn:E; [reflexivity |]. exfalso. apply HN. intros d. rewrite Hg.
  destruct (in_dec (list_eq_dec byte_eq_dec) d (map c_denom f)) as [I | I].
  - apply in_map_iff in I as (c & <- & Hc). apply N.ltb_ge. destruct (amount_of (c_denom c) l <? amount_of (c_denom c) f) eqn:E'; [| reflexivity].
    rewrite <- E. symmetry. apply existsb_exists. eauto.
  - enough (amount_of d f = 0) by lia. clear -I. induction f as [| c f IH]; [reflexivity |]. rewrite amount_of_cons.
    cbn [map In] in I. rewrite IH by tauto. rewrite (proj2 (bytes_eqb_neq d (c_denom c))); [reflexivity |]. intros ->. tauto.
Qed.
Lemma take_err token n l er : take_token token n l = Err er -> er = EInsufficientFunds /\ exists k, In (mkCoin token k) l /\ k < n.
Proof.
  induction l as [| c l IH]; cbn [take_token]; intros H; [discriminate H |].
  destruct (bytes_eqb (c_denom c) token) eqn:E.
  - destruct (n <=? c_amount c) eqn:L; [discriminate H |]. injection H as <-. split; [reflexivity |].
    apply bytes_eqb_eq in E. apply N.leb_gt in L. exists (c_amount c). split; [left; destruct c; cbn in *; congruence | exact L].
  - apply bind_Err_inv in H as [H | (r & _ & H)]; [| discriminate H]. apply IH in H as (-> & k & H1 & H2). split; [reflexivity |]. exists k. cbn. auto.
Qed.
Lemma gas_err q x d gas er : d < u32_max -> ~ dull er -> gp_quote q x d gas = Err er ->
  er = EGasOracleNotFound /\ reported_route (SIgp x) d = Some None.
Proof.
  intros Hd D H. unfold gp_quote in H. apply bind_Err_inv in H as [H | (o & _ & H)].
  - apply ok_or_Err_inv in H as [H ->]. split; [reflexivity |]. rewrite reported_route_of by exact Hd. cbn [routes_of option_map]. now rewrite H.
  - no_err D H.
Qed.
(** the ways a gas payment is refused *)
Definition gas_refused (q : querier) (i : info) (x : gp) (d gas : N) (er : err) : Prop :=
  (er = EPaymentNoFunds /\ forall x, amount_of x (i_funds i) = 0) \/ (er = EPaymentMultiple /\ (1 < length (i_funds i))%nat) \/
  (er = EPaymentMissingDenom /\ amount_of (gp_token x) (i_funds i) = 0) \/
  (er = EGasOracleNotFound /\ reported_route (SIgp x) d = Some None) \/
  (er = EInsufficientFunds /\ underpaid q i (SIgp x) d gas).
Lemma pay_for_err q i d gas refund x er : d < u32_max -> ~ dull er -> gp_pay_for_gas q i d gas refund x = Err er ->
  gas_refused q i x d gas er.
Proof.
  intros Hd D H. unfold gp_pay_for_gas in H. unfold gas_refused.
  apply bind_Err_inv in H as [H | (n & Hn & H)]; [apply pay_err in H; tauto |]. apply paid_amount in Hn.
  apply bind_Err_inv in H as [H | (k & Hk & H)]; [apply gas_err in H; [tauto | exact Hd | exact D] |].
  apply bind_Err_inv in H as [H | (u & Hu & H)]; [| no_err D H].
  apply ensure_Err_inv in H as [H ->]. apply N.leb_gt in H. apply (gp_quote_iff q x d gas k Hd) in Hk as (price & rate & T & F & ->).
  right. right. right. right. split; [reflexivity |]. exists price, rate. split; [exact T |]. cbn [gas_token]. now rewrite Hn.
Qed.

(** ** The theorem *)
Lemma refused_setting A Q e i m st er P :
  c_execute A Q e i m st = Err er -> setting A st m = Some P -> reported_owner st = Some (i_sender i) -> ~ P.
Proof.
  intros H Hs Ho HP. pose proof (proj2 (setting_accepted A e i m Q st P Hs) (conj (eq_sym Ho) HP)) as HA.
  unfold accepted in HA. cbn [c_apply] in HA. rewrite H in HA. discriminate HA.
Qed.

(** the caller is not the owner *)
Ltac alien := cbn [cause forbidden]; split; [discriminate | rewrite reported_owner_own; cbn [own_of option_map]; congruence].
(** the owner asked for something invalid *)
Ltac invalid H0 H := cbn [cause]; eexists; split; [reflexivity |];
  eapply refused_setting; [exact H0 | reflexivity | rewrite reported_owner_own; cbn [own_of option_map]; apply ensure_Ok_inv, bytes_eqb_eq in H; congruence].
(** ownership *)
Ltac owning D H := apply bind_Err_inv in H as [H | (? & ? & H)]; [| discriminate H];
  apply own_err in H; [| exact D];
  let p := fresh "p" in let E := fresh "E" in
  destruct H as [(-> & H) | [(-> & (p & ->) & H & E) | (-> & H)]]; cbn [cause forbidden];
  [ match goal with m : ownable_msg |- _ => destruct m end; cbn [forbidden]; try alien;
    rewrite reported_pending_own; cbn [own_of option_map]; exact H
  | rewrite reported_pending_own, reported_owner_own; cbn [own_of option_map]; split; [congruence | exact E]
  | rewrite reported_pending_own; cbn [own_of option_map]; exact H ].
Ltac guarded H := apply bind_Err_inv in H as [H | (? & ? & H)]; [apply only_err in H as [-> H]; alien |].
Ltac routing H := apply bind_Err_inv in H as [H | (? & ? & H)]; [apply router_err in H as [-> H]; alien | discriminate H].

Lemma smart_Ok q a m r : smart q a m = Ok r -> q_smart q a m = Ok r.
Proof.
  unfold smart. destruct (q_smart q a m) as [r' | |]; intros H; try discriminate H.
  destruct (qres_ok r'); [exact H | discriminate H].
Qed.
Lemma verify_Ok q a md raw b : ism_verify q a md raw = Ok b -> q_smart q a (QVerify md raw) = Ok (RVerified b).
Proof.
  unfold ism_verify. intros H. apply bind_Ok_inv in H as (r & Hr & H). apply smart_Ok in Hr. destruct r; try discriminate H.
  apply Ok_inj in H. now subst.
Qed.
Lemma specifier_Ok q a o : recipient_ism q a = Ok o -> q_smart q a QIsmSpecifier = Ok (RIsm o).
Proof.
  unfold recipient_ism. intros H. apply bind_Ok_inv in H as (r & Hr & H). apply smart_Ok in Hr. destruct r; try discriminate H.
  apply Ok_inj in H. now subst.
Qed.
Lemma quote_Ok q a md raw f : quote_dispatch q a md raw = Ok f -> q_smart q a (QHookQuote md raw) = Ok (RFees f).
Proof.
  unfold quote_dispatch. intros H. apply bind_Ok_inv in H as (r & Hr & H). apply smart_Ok in Hr. destruct r; try discriminate H.
  apply Ok_inj in H. now subst.
Qed.

