(** * Lemmas for C78: what can abort. *)
From Coq Require Import List NArith Bool Lia.
From Verif Require Import Base BaseFacts OMap Crypto Bech32 Hex Metadata Merkle MerkleFacts Coins Message
  CodecFacts Chain Ownable Router Contracts Spec SpecModules SpecWire SpecAbort StepFacts HookFacts IgpFacts PagingFacts Bech32Facts IsmFacts VaFacts
  Mailbox Va Isms Hooks Igp Warp Cw20.
Import ListNotations.

Lemma bind_Panic_inv {A B} (x : res A) (f : A -> res B) :
  bind x f = Panic -> x = Panic \/ exists a, x = Ok a /\ f a = Panic.
Proof. destruct x; cbn [bind]; intros H; [right; eauto|discriminate|auto]. Qed.
Lemma calm_bind {A B} (x : res A) (f : A -> res B) :
  x <> Panic -> (forall a, x = Ok a -> f a <> Panic) -> bind x f <> Panic.
Proof. intros H1 H2 H. apply bind_Panic_inv in H as [H|(a & Ha & H)]; [auto|exact (H2 a Ha H)]. Qed.
Lemma calm_ensure b e : ensure b e <> Panic. Proof. now destruct b. Qed.
Lemma calm_ok_or {A} (o : option A) e : ok_or o e <> Panic. Proof. now destruct o. Qed.
Lemma calm_Ok {A} (a : A) : Ok a <> Panic. Proof. discriminate. Qed.
Lemma calm_Err {A} e : (Err e : res A) <> Panic. Proof. discriminate. Qed.
Lemma calm_validate A a : addr_validate A a <> Panic.
Proof. unfold addr_validate. now destruct (api_valid A a). Qed.
Lemma calm_smart q a m : smart q a m <> Panic.
Proof. unfold smart. destruct (q_smart q a m) as [r| |]; try discriminate. now destruct (qres_ok r). Qed.
Lemma calm_map_err {A} (r : res A) e : r <> Panic -> map_err r e <> Panic.
Proof. now destruct r. Qed.
Lemma calm_mapM {A B} (f : A -> res B) l : (forall a, f a <> Panic) -> mapM f l <> Panic.
Proof.
  intros Hf. induction l as [|a l IH]; cbn [mapM]; [discriminate|].
  apply calm_bind; [apply Hf|]. intros b _. apply calm_bind; [exact IH|]. intros bs _. discriminate.
Qed.
Lemma calm_foldM {A B} (f : B -> A -> res B) l : (forall b a, f b a <> Panic) -> forall b, foldM f l b <> Panic.
Proof.
  intros Hf. induction l as [|a l IH]; intros b; cbn [foldM]; [discriminate|].
  apply calm_bind; [apply Hf|]. intros b' _. apply IH.
Qed.
Create HintDb calm.
#[local] Hint Resolve calm_ensure calm_ok_or calm_Ok calm_Err calm_validate calm_smart calm_map_err calm_mapM calm_foldM : calm.

Ltac calmly :=
  repeat first
    [ solve [auto with calm] | discriminate
    | apply calm_bind; [|intros ? _]
    | match goal with |- (match ?x with _ => _ end) <> Panic => destruct x end ].

Ltac no_abort H :=
  exfalso; match type of H with ?x = Panic => let N := fresh in assert (N : x <> Panic) by calmly; exact (N H) end.

Lemma calm_quote q h md raw : quote_dispatch q h md raw <> Panic.
Proof. unfold quote_dispatch. calmly. Qed.
Lemma calm_recipient q a : recipient_ism q a <> Panic.
Proof. unfold recipient_ism. calmly. Qed.
Lemma calm_verify q a md raw : ism_verify q a md raw <> Panic.
Proof. unfold ism_verify. calmly. Qed.
Lemma calm_own A i m o : own_handle A i m o <> Panic.
Proof. unfold own_handle, init_ownership_transfer, revoke_ownership_transfer, claim_ownership. calmly. Qed.
Lemma calm_only o i : only_owner o i <> Panic.
Proof. unfold only_owner. calmly. Qed.
#[local] Hint Resolve calm_quote calm_recipient calm_verify calm_own calm_only : calm.
Lemma calm_pause o i m b : pause_handle o i m b <> Panic.
Proof. unfold pause_handle, do_pause, do_release. calmly. Qed.
Lemma calm_conn A o i m c : conn_handle A o i m c <> Panic.
Proof. unfold conn_handle. calmly. Qed.
Lemma calm_router o i m r : router_handle o i m r <> Panic.
Proof. unfold router_handle. calmly. Qed.
Lemma calm_try_from l : coins_try_from l <> Panic.
Proof. unfold coins_try_from. apply calm_foldM. intros b a. calmly. Qed.
Lemma calm_sub m c : coins_sub m c <> Panic.
Proof. unfold coins_sub. calmly. Qed.
Lemma calm_add m c : coins_add m c <> Panic.
Proof. unfold coins_add. calmly. Qed.
Lemma calm_must_pay l d : must_pay l d <> Panic.
Proof. unfold must_pay. calmly. Qed.
#[local] Hint Resolve calm_pause calm_conn calm_router calm_try_from calm_sub calm_add calm_must_pay : calm.
Lemma calm_pay l f : pay_required l f <> Panic.
Proof. unfold pay_required. calmly. Qed.
Lemma calm_page {K V} {OK : OrdKey K} (m : omap K V) st l o : range_page m st l o <> Panic.
Proof. unfold range_page, get_and_check_limit. calmly. Qed.
Lemma calm_hex l : hex_decode l <> Panic.
Proof.
  remember (length l) as n eqn:E. assert (Hn : (length l <= n)%nat) by lia. clear E. revert l Hn.
  induction n as [|n IH]; intros [|a [|b l]] Hn; cbn [hex_decode length] in *; try discriminate; try lia.
  calmly. apply IH. lia.
Qed.
Lemma calm_check_hrp h : check_hrp h <> Panic.
Proof. unfold check_hrp. calmly. Qed.
#[local] Hint Resolve calm_pay calm_page calm_hex calm_check_hrp : calm.
Lemma calm_b32_encode h d : b32_encode h d <> Panic.
Proof. unfold b32_encode. calmly. Qed.
#[local] Hint Resolve calm_b32_encode : calm.
Lemma calm_encode h d : bech32_encode h d <> Panic.
Proof. unfold bech32_encode. calmly. Qed.
Lemma calm_chars l : forall c, decode_chars c l <> Panic.
Proof. induction l as [|b l IH]; intros c; cbn [decode_chars]; calmly. Qed.
#[local] Hint Resolve calm_encode calm_chars : calm.
Lemma calm_b32_decode l : b32_decode l <> Panic.
Proof. unfold b32_decode. calmly. Qed.
Lemma calm_group f : forall l, group_strict f l <> Panic.
Proof. induction f as [|f IH]; intros l; cbn [group_strict]; calmly. Qed.
#[local] Hint Resolve calm_b32_decode calm_group : calm.
Lemma calm_decode l : bech32_decode l <> Panic.
Proof. unfold bech32_decode, from_base32. calmly. Qed.
#[local] Hint Resolve calm_decode : calm.

(** ** The functions that can abort *)
Lemma slice_aborts i j l : (i <= j)%nat -> slice i j l = Panic -> (length l < j)%nat.
Proof.
  intros Hij H. destruct (Compare_dec.le_lt_dec j (length l)) as [L|L]; [|exact L].
  rewrite slice_ok in H by assumption. discriminate.
Qed.
Lemma decode_aborts raw : msg_decode raw = Panic -> short_message raw.
Proof.
  intros H. unfold short_message. destruct (Compare_dec.le_lt_dec 77 (length raw)) as [L|L]; [|exact L].
  destruct (msg_decode_total raw L) as (m & E & _). congruence.
Qed.
Lemma warp_aborts v : warp_decode v = Panic -> (length v < 64)%nat.
Proof.
  unfold warp_decode. intros H. destruct (Compare_dec.le_lt_dec 64 (length v)) as [L|L]; [|exact L].
  rewrite !slice_ok in H by lia. rewrite slice_from_ok in H by lia. discriminate.
Qed.
Lemma expect_aborts {A} (o : option A) : expect o = Panic -> o = None.
Proof. destruct o; [discriminate|reflexivity]. Qed.
Lemma need_aborts b : need b = Panic -> b = false.
Proof. destruct b; [discriminate|reflexivity]. Qed.
Lemma pad_aborts a : bech32_to_h256 a = Panic -> long_address a.
Proof.
  unfold bech32_to_h256. intros H. apply bind_Panic_inv in H as [H|(b & Hb & H)]; [now apply calm_decode in H|].
  exists b. split; [exact Hb|]. unfold pad32 in H. destruct (Nat.leb (length b) 32) eqn:E; [discriminate|].
  now apply PeanoNat.Nat.leb_gt in E.
Qed.
Lemma key_aborts A h rs v pk : api_recover A h rs v = Some pk -> eth_addr pk = Panic -> empty_key A.
Proof.
  intros Hr H. unfold eth_addr in H. apply bind_Panic_inv in H as [H|(k & _ & H)]; [|discriminate].
  unfold slice_from in H. destruct pk; [|discriminate]. now exists h, rs, v.
Qed.
Lemma recover_aborts sg (rs v : bytes) :
  slice 0 64 sg = Ok rs -> slice 64 65 sg = Ok v -> need (27 <=? of_be v) = Panic -> bad_signature sg.
Proof.
  intros _ H2 H. apply need_aborts in H.
  assert (L : (65 <= length sg)%nat).
  { destruct (Compare_dec.le_lt_dec 65 (length sg)) as [L|L]; [exact L|]. rewrite slice_panic in H2 by exact L. discriminate. }
  right. destruct (nth_error sg 64) as [w|] eqn:En.
  2:{ apply nth_error_None in En. lia. }
  exists w. split; [reflexivity|]. rewrite slice_ok in H2 by lia. apply Ok_inj in H2. subst v.
  apply nth_error_split in En as (l1 & l2 & -> & L1).
  rewrite skipn_app_exact in H by exact L1. cbn [Nat.sub firstn] in H.
  rewrite of_be_cons in H. cbn [length of_be fold_left] in H. apply N.leb_gt in H. change (256 ^ N.of_nat 0) with 1 in H. lia.
Qed.
Lemma signer_aborts A h sg : ms_signer A h sg = Panic -> bad_signature sg \/ empty_key A.
Proof.
  unfold ms_signer. intros H.
  apply bind_Panic_inv in H as [H|(rs & H1 & H)]; [apply slice_aborts in H; [left; left|]; lia|].
  apply bind_Panic_inv in H as [H|(v & H2 & H)]; [apply slice_aborts in H; [left; left|]; lia|].
  apply bind_Panic_inv in H as [H|(u & H3 & H)]; [left; eapply recover_aborts; eassumption|].
  apply bind_Panic_inv in H as [H|(pk & H4 & H)]; [now apply calm_ok_or in H|].
  apply ok_or_Ok_inv in H4. right. eapply key_aborts; eassumption.
Qed.
Lemma announce_aborts A h sg : va_recover A h sg = Panic -> bad_signature sg.
Proof.
  unfold va_recover. intros H.
  apply bind_Panic_inv in H as [H|(rs & H1 & H)]; [apply slice_aborts in H; [left|]; lia|].
  apply bind_Panic_inv in H as [H|(v & H2 & H)]; [apply slice_aborts in H; [left|]; lia|].
  apply bind_Panic_inv in H as [H|(u & H3 & H)]; [eapply recover_aborts; eassumption|].
  now apply calm_ok_or in H.
Qed.
Lemma loop_aborts A h vs sigs : forall matched t, 0 < t -> ms_loop A h vs sigs matched t = Panic ->
  empty_key A \/ exists sg, In sg sigs /\ bad_signature sg.
Proof.
  induction sigs as [|sg sigs IH]; intros matched t Ht H; cbn [ms_loop] in H; [discriminate|].
  apply bind_Panic_inv in H as [H|(a & _ & H)].
  - apply signer_aborts in H as [H|H]; [right; exists sg; cbn; auto|auto].
  - destruct (mem_bytes a vs && negb (mem_bytes a matched))%bool.
    + apply bind_Panic_inv in H as [H|(u & _ & H)].
      * apply need_aborts, N.leb_gt in H. lia.
      * destruct (t - 1 =? 0) eqn:E; [discriminate|]. apply N.eqb_neq in E.
        apply IH in H as [H|(x & H1 & H2)]; [auto|right; exists x; cbn; auto|lia].
    + apply IH in H as [H|(x & H1 & H2)]; [auto|right; exists x; cbn; auto|exact Ht].
Qed.
Lemma metadata_aborts md : mid_decode md = Panic -> (length md < 68)%nat.
Proof.
  unfold mid_decode. intros H. destruct (Compare_dec.le_lt_dec 68 (length md)) as [L|L]; [|exact L].
  rewrite slice_from_ok in H by lia. rewrite !slice_ok in H by lia. discriminate.
Qed.
Lemma table_aborts v addrs : forall i, agg_entries v i addrs = Panic ->
  exists k a, nth_error addrs k = Some a /\ forall part, ~ module_slice v (i + k) part.
Proof.
  induction addrs as [|a addrs IH]; intros i H; cbn [agg_entries] in H; [discriminate|].
  apply bind_Panic_inv in H as [H|(md & _ & H)].
  - exists 0%nat, a. split; [reflexivity|]. intros part Hp. rewrite PeanoNat.Nat.add_0_r in Hp.
    apply agg_entry_iff in Hp. congruence.
  - apply bind_Panic_inv in H as [H|(l & _ & H)]; [|discriminate].
    apply IH in H as (k & b & Hk & Hp). exists (S k), b. split; [exact Hk|].
    now replace (i + S k)%nat with (S i + k)%nat by lia.
Qed.
Lemma votes_abort q raw l : forall t, ag_loop q raw l t = Panic -> t = 0.
Proof.
  induction l as [|[a md] l IH]; intros t H; cbn [ag_loop] in H; [discriminate|].
  apply bind_Panic_inv in H as [H|(v & _ & H)]; [now apply calm_verify in H|].
  apply bind_Panic_inv in H as [H|(t' & Ht & H)].
  - destruct v; [|discriminate]. apply bind_Panic_inv in H as [H|(u & _ & H)]; [|discriminate].
    apply need_aborts, N.leb_gt in H. lia.
  - destruct (t' =? 0) eqn:E; [discriminate|]. apply N.eqb_neq in E. apply IH in H. contradiction.
Qed.
Lemma take_aborts token n l : take_token token n l = Panic -> Forall (fun c => c_denom c <> token) l.
Proof.
  induction l as [|c l IH]; cbn [take_token]; [constructor|]. intros H.
  destruct (bytes_eqb (c_denom c) token) eqn:E.
  - now destruct (n <=? c_amount c).
  - apply bind_Panic_inv in H as [H|(r & _ & H)]; [|discriminate].
    constructor; [now apply bytes_eqb_neq|auto].
Qed.

(** ** Gas payment *)
Lemma mul_aborts a b : u256_mul a b = Panic -> ~ a * b < 2 ^ 256.
Proof.
  unfold u256_mul. intros H. apply bind_Panic_inv in H as [H|(u & _ & H)]; [|discriminate].
  apply need_aborts, N.ltb_ge in H. unfold u256_max in H. lia.
Qed.
Lemma quote_aborts q x d gas : d < u32_max -> gp_quote q x d gas = Panic -> price_overflow q (SIgp x) d gas.
Proof.
  intros Hd H. unfold price_overflow, gas_terms. rewrite reported_route_of by exact Hd. cbn [routes_of option_map].
  unfold gp_quote in H. apply bind_Panic_inv in H as [H|(o & H1 & H)]; [now apply calm_ok_or in H|].
  apply ok_or_Ok_inv in H1.
  apply bind_Panic_inv in H as [H|([price rate] & H2 & H)].
  { unfold query_oracle in H. no_abort H. }
  apply query_oracle_iff in H2. exists price, rate. split; [exists o; rewrite H1; auto|]. intros [F1 F2].
  apply bind_Panic_inv in H as [H|(c & H3 & H)]; [now apply mul_aborts in H|].
  apply u256_mul_iff in H3 as [H3 ->].
  apply bind_Panic_inv in H as [H|(n & H4 & H)]; [now apply mul_aborts in H|discriminate].
Qed.
Lemma pay_aborts q i d gas refund x : d < u32_max -> gp_pay_for_gas q i d gas refund x = Panic ->
  price_overflow q (SIgp x) d gas.
Proof.
  intros Hd H. unfold gp_pay_for_gas in H.
  apply bind_Panic_inv in H as [H|(n & _ & H)]; [now apply calm_must_pay in H|].
  apply bind_Panic_inv in H as [H|(k & _ & H)]; [now apply quote_aborts|].
  no_abort H.
Qed.
Lemma encode_any h a b x : bech32_encode h a = Ok x -> (length b = 20%nat \/ length b = 32%nat) ->
  exists y, bech32_encode h b = Ok y.
Proof.
  intros H Hl.
  assert (Hc : exists c, check_hrp h = Ok c).
  { unfold bech32_encode in H.
    destruct (negb (Nat.eqb (length a) 32) && negb (Nat.eqb (length a) 20))%bool; [discriminate|].
    destruct (Nat.eqb (length a) 32 && (of_be (firstn 12 a) =? 0))%bool;
      unfold b32_encode in H; apply bind_Ok_inv in H as (c & H1 & _); eauto. }
  destruct Hc as [c Hc]. unfold bech32_encode.
  replace (negb (Nat.eqb (length b) 32) && negb (Nat.eqb (length b) 20))%bool with false
    by (destruct Hl as [-> | ->]; reflexivity).
  destruct (Nat.eqb (length b) 32 && (of_be (firstn 12 b) =? 0))%bool; unfold b32_encode; rewrite Hc; cbn [bind]; eauto.
Qed.
Lemma refund_aborts v hrp a dflt : bech32_encode hrp a = Ok dflt -> igp_refund_address v hrp dflt = Panic ->
  (length (ig_refund v) = 20%nat \/ length (ig_refund v) = 32%nat) /\ firstn 16 (ig_refund v) = zeros 16.
Proof.
  intros Ha H. pose proof (refund_iff v hrp dflt) as R.
  destruct (Nat.eqb (length (ig_refund v)) 20 || Nat.eqb (length (ig_refund v)) 32)%bool eqn:E.
  - assert (Hl : length (ig_refund v) = 20%nat \/ length (ig_refund v) = 32%nat).
    { apply orb_true_iff in E as [E|E]; apply PeanoNat.Nat.eqb_eq in E; auto. }
    split; [exact Hl|]. destruct (bytes_eq_dec (firstn 16 (ig_refund v)) (zeros 16)) as [Z|Z]; [exact Z|].
    destruct (encode_any _ _ (ig_refund v) _ Ha Hl) as [y Hy].
    rewrite (proj2 (R y) (conj Z Hy)) in H. discriminate.
  - rewrite (proj2 (R dflt) eq_refl) in H. discriminate.
Qed.
Lemma post_aborts q i md raw x : gp_post_dispatch q i md raw x = Panic ->
  short_message raw \/ blank_refund md \/ message_overflow q (SIgp x) md raw.
Proof.
  unfold gp_post_dispatch. intros H. apply bind_Panic_inv in H as [H|(m & Hm & H)]; [left; now apply decode_aborts|].
  right. pose proof (decode_dest _ _ Hm) as Hd.
  apply bind_Panic_inv in H as [H|([gas refund] & Hg & H)].
  - left. destruct (Nat.ltb (length md) 32) eqn:El; [no_abort H|].
    apply PeanoNat.Nat.ltb_ge in El.
    apply bind_Panic_inv in H as [H|(v & Hv & H)].
    { unfold igp_decode in H. rewrite slice_ok, slice_from_ok in H by lia. discriminate. }
    apply igp_decode_short_iff in Hv as [_ ->].
    apply bind_Panic_inv in H as [H|(a & Ha & H)]; [now apply calm_encode in H|].
    apply bind_Panic_inv in H as [H|(b & Hb & H)]; [|discriminate].
    eapply refund_aborts in H as [H1 H2]; [|exact Ha]. cbn [ig_refund] in *. split; [|exact H2].
    rewrite skipn_length in H1. lia.
  - right. apply pay_aborts in H; [|exact Hd]. exists m, gas. split; [exact Hm|]. split; [|exact H].
    unfold requested_gas. rewrite used_gas_of by exact Hd. destruct (Nat.ltb (length md) 32).
    + apply bind_Ok_inv in Hg as (a & _ & Hg). apply Ok_inj, pair_equal_spec in Hg as [Hg _]. now rewrite Hg.
    + apply bind_Ok_inv in Hg as (v & Hv & Hg). apply igp_decode_short_iff in Hv as [_ ->].
      apply bind_Ok_inv in Hg as (a & _ & Hg). apply bind_Ok_inv in Hg as (b & _ & Hg).
      apply Ok_inj, pair_equal_spec in Hg as [Hg _]. now rewrite <- Hg.
Qed.
Lemma hook_quote_aborts q md raw x : gp_quote_dispatch q md raw x = Panic ->
  short_message raw \/ message_overflow q (SIgp x) md raw.
Proof.
  unfold gp_quote_dispatch. intros H. apply bind_Panic_inv in H as [H|(m & Hm & H)]; [left; now apply decode_aborts|].
  right. pose proof (decode_dest _ _ Hm) as Hd. exists m.
  destruct (Nat.ltb (length md) 32) eqn:El; cbn [bind] in H.
  - exists (gp_gas_for x (m_dest m)). split; [exact Hm|]. unfold requested_gas. rewrite El, used_gas_of by exact Hd.
    split; [reflexivity|]. apply bind_Panic_inv in H as [H|(n & _ & H)]; [now apply quote_aborts|].
    no_abort H.
  - apply PeanoNat.Nat.ltb_ge in El.
    apply bind_Panic_inv in H as [H|(g & Hg & H)].
    { exfalso. revert H. unfold igp_decode. rewrite slice_ok, slice_from_ok by lia. discriminate. }
    apply bind_Ok_inv in Hg as (v & Hv & Hg). apply igp_decode_short_iff in Hv as [_ ->]. apply Ok_inj in Hg. cbn [ig_gas_limit] in Hg.
    exists g. split; [exact Hm|]. unfold requested_gas. rewrite (proj2 (PeanoNat.Nat.ltb_ge _ _) El). split; [now symmetry|].
    apply bind_Panic_inv in H as [H|(n & _ & H)]; [now apply quote_aborts|].
    no_abort H.
Qed.

(** ** What a contract that was created and called keeps *)
Definition sane (st : cstate) : Prop :=
  match st with
  | SMultisig x => forall d t, om_get d (ms_threshold x) = Some t -> 0 < t
  | SMerkle x => exists ls, tree_rep ls (mk_tree x)
  | _ => True
  end.
Lemma sane_born A q e i m st r : c_instantiate A q e i m = Ok (st, r) -> sane st.
Proof.
  unfold c_instantiate, lift. intros H. apply bind_Ok_inv in H as (u & _ & H).
  destruct m; try (apply bind_Ok_inv in H as ([x' r'] & H & E); apply Ok_inj, pair_equal_spec in E as [<- _]; try exact I).
  - unfold ms_instantiate in H. apply bind_Ok_inv in H as (o & _ & H). apply Ok_inj, pair_equal_spec in H as [<- _].
    intros d t G. discriminate G.
  - unfold mk_instantiate in H. apply bind_Ok_inv in H as (o & _ & H). apply Ok_inj, pair_equal_spec in H as [<- _].
    exists []. apply tree_rep_default.
Qed.
Lemma sane_step A st ev : sane st -> sane (c_step A st ev).
Proof.
  intros Hs. unfold c_step. destruct (c_apply A ev st) as [[st' r]| |] eqn:E; try exact Hs.
  destruct ev as [e i m Q|id rr]; cbn [c_apply] in E.
  - unfold c_execute, lift in E. apply bind_Ok_inv in E as (u & _ & E).
    destruct st; apply bind_Ok_inv in E as ([x' r'] & E & E'); apply Ok_inj, pair_equal_spec in E' as [<- _]; try exact I.
    + apply ms_execute_cases in E as [(d & t & vs & _ & _ & _ & Ht & _ & ->)|[(d & _ & _ & ->)|(om & _ & _ & Hth)]]; cbn [sane ms_threshold] in *.
      * intros d' t' G. destruct (N.eq_dec d' d) as [->|N].
        -- rewrite om_get_set_eq in G. apply Some_inj in G. now subst.
        -- rewrite om_get_set_neq in G by congruence. eauto.
      * intros d' t' G. rewrite om_get_del in G. destruct (keqb d' d); [discriminate|eauto].
      * rewrite Hth. exact Hs.
    + destruct m; try discriminate E. cbn [mk_execute] in E. unfold mk_post_dispatch in E.
      apply bind_Ok_inv in E as (a & _ & E). destruct a; try discriminate E.
      apply bind_Ok_inv in E as (m & _ & E). apply bind_Ok_inv in E as (v & _ & E).
      apply bind_Ok_inv in E as (t & Ht & E). apply Ok_inj, pair_equal_spec in E as [<- _].
      destruct Hs as (ls & T). cbn [sane mk_tree].
      destruct (N.lt_ge_cases (mt_count (mk_tree x)) MAX_LEAVES) as [L|L].
      * destruct (tree_rep_insert _ _ (msg_id m) T L) as (t' & Ht' & T'). rewrite Ht in Ht'. apply Ok_inj in Ht'. subst t'. eauto.
      * rewrite (tree_rep_full _ _ (msg_id m) T L) in Ht. discriminate.
  - destruct st; cbn [c_reply] in E; try discriminate E; unfold lift in E;
      apply bind_Ok_inv in E as ([x' r'] & _ & E'); apply Ok_inj, pair_equal_spec in E' as [<- _]; exact I.
Qed.
Lemma sane_run A h : forall st, sane st -> sane (c_run A st h).
Proof.
  induction h as [|ev h IH]; intros st H; [exact H|]. rewrite c_run_cons. now apply IH, sane_step.
Qed.
Lemma sane_deployed A st : deployed A st -> sane st.
Proof. intros (q & e & i & m & r & st0 & h & H & ->). apply sane_run. eapply sane_born; exact H. Qed.

(** ** The theorem *)
Ltac next H := apply bind_Panic_inv in H as [H|(? & ? & H)]; [try (solve [no_abort H])|].
Ltac done H := repeat (next H; []); try solve [no_abort H].

Lemma handle_aborts i o sn b x :
  wp_check_handle i o sn b x = Panic ->
  wp_mailbox x = i_sender i /\ (rs_route (get_route (wp_routes x) o) = None \/ (length b < 64)%nat).
Proof.
  unfold wp_check_handle. intros H.
  apply bind_Panic_inv in H as [H|(u & Hu & H)]; [no_abort H|]. apply ensure_Ok_inv, bytes_eqb_eq in Hu.
  split; [now symmetry|].
  apply bind_Panic_inv in H as [H|(r & _ & H)]; [left; now apply expect_aborts|].
  apply bind_Panic_inv in H as [H|(u' & _ & H)]; [no_abort H|]. right. now apply warp_aborts.
Qed.
Lemma calm_amount n : to_uint128 n <> Panic.
Proof. unfold to_uint128. calmly. Qed.
Lemma calm_check_hook A h : check_hook A h <> Panic.
Proof. unfold check_hook. calmly. Qed.
#[local] Hint Resolve calm_amount calm_check_hook : calm.

Lemma execute_abort A Q e i m st : deployed A st -> c_execute A Q e i m st = Panic -> execute_aborts A (Q st) i m st.
Proof.
  intros Hdep H. apply sane_deployed in Hdep as Hs. clear Hdep. unfold c_execute, lift in H.
  apply bind_Panic_inv in H as [H|(u & Hm & H)]; [no_abort H|]. apply ensure_Ok_inv in Hm.
  destruct st; try exact I;
    (apply bind_Panic_inv in H as [H|([x' r'] & _ & H)]; [|discriminate H]).
  - (* mailbox *) unfold mb_execute in H. destruct m; cbn [execute_aborts]; try (solve [no_abort H]);
      try (solve [unfold mb_set_default_ism, mb_set_default_hook, mb_set_required_hook in H; no_abort H]).
    + unfold mb_dispatch in H.
      apply bind_Panic_inv in H as [H|(u1 & _ & H)]; [no_abort H|].
      apply bind_Panic_inv in H as [H|(mm & _ & H)].
      { unfold to_msg in H. apply bind_Panic_inv in H as [H|(a & _ & H)]; [|discriminate].
        right. right. right. now apply pad_aborts. }
      apply bind_Panic_inv in H as [H|(dh & _ & H)].
      { left. apply expect_aborts in H. unfold reported_default_hook, c_query. cbn [qmsg_ok ensure bind mb_query].
        unfold get_default_hook. now rewrite H. }
      apply bind_Panic_inv in H as [H|(hk & _ & H)]; [unfold get_hook_addr in H; no_abort H|].
      apply bind_Panic_inv in H as [H|(rq & _ & H)].
      { right. left. apply expect_aborts in H. unfold reported_required_hook, c_query. cbn [qmsg_ok ensure bind mb_query].
        unfold get_required_hook. now rewrite H. }
      apply bind_Panic_inv in H as [H|(fees & _ & H)]; [no_abort H|].
      apply bind_Panic_inv in H as [H|(rest & _ & H)]; [no_abort H|].
      apply bind_Panic_inv in H as [H|(u2 & _ & H)]; [|discriminate].
      right. right. left. exists (mb_nonce x). split; [reflexivity|]. apply need_aborts, N.ltb_ge in H. exact H.
    + unfold mb_process in H.
      apply bind_Panic_inv in H as [H|(mm & _ & H)]; [left; now apply decode_aborts|].
      apply bind_Panic_inv in H as [H|(a & _ & H)]; [no_abort H|].
      apply bind_Panic_inv in H as [H|(u1 & _ & H)]; [no_abort H|].
      apply bind_Panic_inv in H as [H|(u2 & _ & H)]; [no_abort H|].
      apply bind_Panic_inv in H as [H|(o & _ & H)]; [no_abort H|].
      apply bind_Panic_inv in H as [H|(dm & _ & H)].
      { right. apply expect_aborts in H. unfold reported_default_ism, c_query. cbn [qmsg_ok ensure bind mb_query].
        unfold get_default_ism. now rewrite H. }
      no_abort H.
  - (* announce *) unfold va_execute in H. destruct m; try discriminate H. cbn [execute_aborts]. unfold va_announce in H.
    apply bind_Panic_inv in H as [H|(u1 & _ & H)]; [no_abort H|].
    apply bind_Panic_inv in H as [H|(u2 & _ & H)]; [no_abort H|].
    apply bind_Panic_inv in H as [H|(dh & _ & H)].
    { right. right. exists (va_mailbox x). split; [apply va_mailbox_of|]. unfold va_domain_hash in H.
      apply bind_Panic_inv in H as [H|(a & _ & H)]; [|discriminate]. unfold pad32 in H.
      destruct (Nat.leb (length (va_mailbox x)) 32) eqn:E; [discriminate|]. now apply PeanoNat.Nat.leb_gt in E. }
    apply bind_Panic_inv in H as [H|(pk & Hpk & H)]; [left; eapply announce_aborts; exact H|].
    apply bind_Panic_inv in H as [H|(a & _ & H)]; [|no_abort H].
    right. left. unfold va_recover in Hpk.
    apply bind_Ok_inv in Hpk as (rs & _ & Hpk). apply bind_Ok_inv in Hpk as (v & _ & Hpk).
    apply bind_Ok_inv in Hpk as (u3 & _ & Hpk). apply ok_or_Ok_inv in Hpk. eapply key_aborts; eassumption.
  - (* multisig *) unfold ms_execute, ms_set_validators, ms_unset_domain in H. destruct m; no_abort H.
  - unfold ag_execute, ag_set_isms in H. destruct m; no_abort H.
  - unfold ri_execute in H. destruct m; no_abort H.
  - unfold pi_execute in H. destruct m; no_abort H.
  - (* merkle *) unfold mk_execute in H. destruct m; try discriminate H. cbn [execute_aborts]. unfold mk_post_dispatch in H.
    apply bind_Panic_inv in H as [H|(a & _ & H)]; [no_abort H|]. destruct a; try discriminate H.
    apply bind_Panic_inv in H as [H|(mm & _ & H)]; [now apply decode_aborts|].
    apply bind_Panic_inv in H as [H|(u1 & _ & H)]; [no_abort H|].
    apply bind_Panic_inv in H as [H|(t & _ & H)]; [|discriminate]. exfalso.
    destruct Hs as (ls & T). destruct (N.lt_ge_cases (mt_count (mk_tree x)) MAX_LEAVES) as [L|L].
    + destruct (tree_rep_insert _ _ (msg_id mm) T L) as (t' & Ht' & _). congruence.
    + rewrite (tree_rep_full _ _ (msg_id mm) T L) in H. discriminate.
  - (* aggregate *) unfold ah_execute in H. destruct m; try (solve [no_abort H]). cbn [execute_aborts]. unfold ah_post_dispatch in H.
    apply bind_Panic_inv in H as [H|(l & _ & H)].
    { exfalso. revert H. change (mapM (fun h => f <- quote_dispatch (Q (SAggHook x)) h metadata message ;; Ok (post_dispatch h metadata message f)) (ah_hooks x) <> Panic).
      apply calm_mapM. intros h. calmly. }
    apply bind_Panic_inv in H as [H|(mm & _ & H)]; [now apply decode_aborts|discriminate].
  - unfold ph_execute in H. destruct m; no_abort H.
  - unfold rh_execute in H. destruct m; try (solve [no_abort H]). cbn [execute_aborts].
    apply bind_Panic_inv in H as [H|(h & _ & H)]; [|discriminate]. unfold rh_route in H.
    apply bind_Panic_inv in H as [H|(mm & _ & H)]; [now apply decode_aborts|no_abort H].
  - unfold cu_execute in H. destruct m; try (solve [no_abort H]); cbn [execute_aborts];
      try (solve [exfalso; unfold cu_register, cu_clear in H; revert H; apply calm_bind; [auto with calm|]; intros ? _;
        apply calm_bind; [apply calm_foldM; intros; unfold cu_register1; calmly|]; intros ? _; discriminate]).
    apply bind_Panic_inv in H as [H|(h & _ & H)]; [|discriminate]. unfold cu_route in H.
    apply bind_Panic_inv in H as [H|(mm & _ & H)]; [now apply decode_aborts|no_abort H].
  - unfold fb_execute in H. destruct m; try (solve [no_abort H]). cbn [execute_aborts].
    apply bind_Panic_inv in H as [H|(h & _ & H)]; [|discriminate]. unfold fb_route in H.
    apply bind_Panic_inv in H as [H|(mm & _ & H)]; [now apply decode_aborts|no_abort H].
  - unfold fe_execute in H. destruct m; no_abort H.
  - unfold or_execute in H. destruct m; try (solve [no_abort H]). exfalso. revert H. apply calm_bind; [auto with calm|]. intros ? _.
    apply calm_bind; [|discriminate]. apply calm_foldM. intros. calmly.
  - unfold gp_execute in H. destruct m; try (solve [no_abort H]); cbn [execute_aborts].
    + apply post_aborts in H. exact H.
    + apply pay_aborts in H; [exact H|]. cbn [emsg_ok] in Hm. apply andb_true_iff in Hm as [Hm _]. now apply N.ltb_lt in Hm.
  - unfold wn_execute, wp_common in H. destruct m; try (solve [no_abort H]); cbn [execute_aborts].
    + unfold wn_handle in H. apply bind_Panic_inv in H as [H|(w & _ & H)]; [|no_abort H].
      apply handle_aborts in H as [H1 H2]. split; [cbn [warp_mailbox]; congruence|]. destruct H2 as [H2|H2]; [left|right; exact H2].
      unfold no_route. rewrite reported_route_of by (cbn [emsg_ok] in Hm; now apply N.ltb_lt in Hm). cbn [routes_of option_map]. now rewrite H2.
    + unfold wn_transfer_remote in H. apply bind_Panic_inv in H as [H|(t & Ht & H)]; [no_abort H|]. apply ok_or_Ok_inv in Ht.
      apply bind_Panic_inv in H as [H|(f & _ & H)].
      { right. exists t. split; [|eapply take_aborts; exact H]. unfold reported_token, c_query. cbn [qmsg_ok ensure bind wn_query wp_query].
        unfold wn_query. cbn [wp_query]. now rewrite Ht. }
      apply bind_Panic_inv in H as [H|(r & _ & H)]; [|no_abort H]. left. apply expect_aborts in H.
      unfold no_route. rewrite reported_route_of by (cbn [emsg_ok] in Hm; apply andb_true_iff in Hm as [Hm _]; now apply N.ltb_lt in Hm).
      cbn [routes_of option_map]. now rewrite H.
  - unfold wc_execute, wp_common in H. destruct m; try (solve [no_abort H]); cbn [execute_aborts].
    + unfold wc_handle in H. apply bind_Panic_inv in H as [H|(w & _ & H)]; [|no_abort H].
      apply handle_aborts in H as [H1 H2]. split; [cbn [warp_mailbox]; congruence|]. destruct H2 as [H2|H2]; [left|right; exact H2].
      unfold no_route. rewrite reported_route_of by (cbn [emsg_ok] in Hm; now apply N.ltb_lt in Hm). cbn [routes_of option_map]. now rewrite H2.
    + unfold wc_transfer_remote in H. apply bind_Panic_inv in H as [H|(t & Ht & H)]; [no_abort H|].
      apply bind_Panic_inv in H as [H|(r & _ & H)]; [|no_abort H]. apply expect_aborts in H.
      unfold no_route. rewrite reported_route_of by (cbn [emsg_ok] in Hm; apply andb_true_iff in Hm as [Hm _]; now apply N.ltb_lt in Hm).
      cbn [routes_of option_map]. now rewrite H.
Qed.

Lemma calm_own_query m o : own_query m o <> Panic.
Proof. unfold own_query. calmly. Qed.
Lemma calm_router_query m r : router_query m r <> Panic.
Proof. unfold router_query, get_routes. calmly. Qed.
Lemma calm_conn_query m c : conn_query m c <> Panic.
Proof. unfold conn_query. calmly. Qed.
Lemma calm_pause_query m b : pause_query m b <> Panic.
Proof. unfold pause_query. calmly. Qed.
#[local] Hint Resolve calm_own_query calm_router_query calm_conn_query calm_pause_query : calm.

Lemma ag_query_abort q md raw x : ag_verify q md raw x = Panic -> ag_threshold x = 0 \/ bad_table md (ag_isms x).
Proof.
  unfold ag_verify. intros H.
  apply bind_Panic_inv in H as [H|(l & _ & H)].
  - right. unfold agg_from_hex in H. apply bind_Panic_inv in H as [H|(l & _ & H)]; [|discriminate].
    apply table_aborts in H as (k & a & Hk & Hp). exists k, a. auto.
  - apply bind_Panic_inv in H as [H|(n & _ & H)]; [|discriminate]. left. now apply votes_abort in H.
Qed.

Lemma query_abort A q m st : deployed A st -> c_query A q m st = Panic -> query_aborts A q m st.
Proof.
  intros Hdep H. apply sane_deployed in Hdep as Hs. clear Hdep. unfold c_query in H.
  apply bind_Panic_inv in H as [H|(u & Hm & H)]; [no_abort H|]. apply ensure_Ok_inv in Hm.
  destruct st.
  - (* mailbox *)
    assert (D1 : get_default_ism x = Panic -> reported_default_ism (SMailbox x) = None).
    { intros E. unfold reported_default_ism, c_query. cbn [qmsg_ok ensure bind mb_query]. now rewrite E. }
    assert (D2 : get_default_hook x = Panic -> reported_default_hook (SMailbox x) = None).
    { intros E. unfold reported_default_hook, c_query. cbn [qmsg_ok ensure bind mb_query]. now rewrite E. }
    assert (D3 : get_required_hook x = Panic -> reported_required_hook (SMailbox x) = None).
    { intros E. unfold reported_required_hook, c_query. cbn [qmsg_ok ensure bind mb_query]. now rewrite E. }
    unfold mb_query in H. destruct m; try (solve [no_abort H]); cbn [query_aborts];
      try (apply bind_Panic_inv in H as [H|(a & _ & H)]; [solve [auto]|discriminate]).
    + unfold mb_recipient_ism in H. apply bind_Panic_inv in H as [H|(a & _ & H)]; [auto|no_abort H].
    + apply bind_Panic_inv in H as [H|(f & _ & H)]; [|discriminate]. unfold mb_quote_dispatch in H.
      apply bind_Panic_inv in H as [H|(sn & Hsn & H)]; [no_abort H|].
      apply bind_Panic_inv in H as [H|(mm & _ & H)].
      { unfold to_msg in H. apply bind_Panic_inv in H as [H|(a & _ & H)]; [|discriminate]. apply pad_aborts in H.
        unfold addr_validate in Hsn. destruct (api_valid A sender); [|discriminate]. apply Ok_inj in Hsn. subst sn. auto. }
      apply bind_Panic_inv in H as [H|(dh & _ & H)]; [auto|].
      apply bind_Panic_inv in H as [H|(rq & _ & H)]; [auto|].
      apply bind_Panic_inv in H as [H|(hk & _ & H)]; [unfold get_hook_addr in H; no_abort H|].
      no_abort H.
  - unfold va_query in H. destruct m; no_abort H.
  - (* multisig *) unfold ms_query in H. destruct m; try (solve [no_abort H]); cbn [query_aborts].
    + apply bind_Panic_inv in H as [H|(b & _ & H)]; [|discriminate]. unfold ms_verify in H.
      apply bind_Panic_inv in H as [H|(md & Hmd & H)]; [left; now apply metadata_aborts|]. right.
      apply bind_Panic_inv in H as [H|(mm & _ & H)]; [left; now apply decode_aborts|]. right.
      apply metadata_of_decode in Hmd as [Hmd L4].
      apply bind_Panic_inv in H as [H|(hash & _ & H)].
      { unfold ms_digest, mid_merkle_index in H. rewrite L4 in H. discriminate. }
      apply bind_Panic_inv in H as [H|(vs & _ & H)]; [no_abort H|].
      apply bind_Panic_inv in H as [H|(t & Ht & H)]; [no_abort H|]. apply ok_or_Ok_inv, Hs in Ht.
      apply bind_Panic_inv in H as [H|(n & _ & H)]; [|discriminate].
      apply loop_aborts in H as [H|(sg & H1 & H2)]; [auto| |exact Ht]. right. do 5 eexists. eauto.
    + unfold ms_verify_info in H. apply bind_Panic_inv in H as [H|(mm & _ & H)]; [now apply decode_aborts|no_abort H].
  - unfold ag_query in H. destruct m; try (solve [no_abort H]); cbn [query_aborts].
    apply bind_Panic_inv in H as [H|(b & _ & H)]; [|discriminate]. apply ag_query_abort in H.
    exists (ag_isms x), (ag_threshold x). split; [reflexivity|exact H].
  - unfold ri_query, ri_module in H. destruct m; try (solve [no_abort H]); cbn [query_aborts];
      (apply bind_Panic_inv in H as [H|(a & _ & H)]; [|no_abort H]);
      (apply bind_Panic_inv in H as [H|(mm & _ & H)]; [now apply decode_aborts|no_abort H]).
  - unfold pi_query in H. destruct m; try (solve [no_abort H]). exact I.
  - unfold mk_query in H. destruct m; try (solve [no_abort H]). exfalso.
    destruct Hs as (ls & T1 & T2 & _). destruct (mt_count (mk_tree x) =? 0) eqn:E; [discriminate|]. apply N.eqb_neq in E.
    rewrite N.mod_small in H by (unfold MAX_LEAVES, u32_max in *; lia).
    apply bind_Panic_inv in H as [H|(n & _ & H)]; [|discriminate].
    apply bind_Panic_inv in H as [H|(v & _ & H)]; [|discriminate]. apply need_aborts, N.leb_gt in H. lia.
  - unfold ah_query in H. destruct m; try (solve [no_abort H]). exfalso. revert H.
    apply calm_bind; [|discriminate]. unfold ah_quote. apply calm_bind; [|discriminate].
    apply calm_foldM. intros. calmly.
  - unfold ph_query in H. destruct m; no_abort H.
  - unfold rh_query in H. destruct m; try (solve [no_abort H]). cbn [query_aborts].
    apply bind_Panic_inv in H as [H|(h & _ & H)]; [|no_abort H]. unfold rh_route in H.
    apply bind_Panic_inv in H as [H|(mm & _ & H)]; [now apply decode_aborts|no_abort H].
  - unfold cu_query, cu_list in H. destruct m; try (solve [no_abort H]). cbn [query_aborts].
    apply bind_Panic_inv in H as [H|(h & _ & H)]; [|no_abort H]. unfold cu_route in H.
    apply bind_Panic_inv in H as [H|(mm & _ & H)]; [now apply decode_aborts|no_abort H].
  - unfold fb_query in H. destruct m; try (solve [no_abort H]). cbn [query_aborts].
    apply bind_Panic_inv in H as [H|(h & _ & H)]; [|no_abort H]. unfold fb_route in H.
    apply bind_Panic_inv in H as [H|(mm & _ & H)]; [now apply decode_aborts|no_abort H].
  - unfold fe_query in H. destruct m; no_abort H.
  - unfold or_query in H. destruct m; no_abort H.
  - unfold gp_query in H. destruct m; try (solve [unfold query_oracle in H; no_abort H]); cbn [query_aborts];
      apply bind_Panic_inv in H as [H|(f & _ & H)]; try discriminate H;
      solve [ now apply hook_quote_aborts in H
            | apply quote_aborts in H; [exact H|]; cbn [qmsg_ok] in Hm; apply andb_true_iff in Hm as [Hm _]; now apply N.ltb_lt in Hm
            | exfalso; revert H; apply calm_mapM; intros; calmly ].
  - unfold wn_query, wp_query in H. destruct m; no_abort H.
  - unfold wc_query, wp_query in H. destruct m; no_abort H.
  - unfold cw_query in H. destruct m; no_abort H.
Qed.

Lemma instantiate_abort A q e i m : (forall mt l, m <> ICw20 mt l) -> c_instantiate A q e i m <> Panic.
Proof.
  intros Hm H. unfold c_instantiate, lift in H. apply bind_Panic_inv in H as [H|(u & _ & H)]; [no_abort H|].
  destruct m; try (apply bind_Panic_inv in H as [H|([x' r'] & _ & H)]; [|discriminate H]).
  - unfold mb_instantiate in H. no_abort H.
  - unfold va_instantiate in H. no_abort H.
  - unfold ms_instantiate in H. no_abort H.
  - unfold ag_instantiate in H. no_abort H.
  - unfold ri_instantiate, ri_save_all in H. revert H. apply calm_bind; [auto with calm|]. intros ? _.
    apply calm_bind; [|discriminate]. apply calm_foldM. intros. calmly.
  - unfold pi_instantiate in H. no_abort H.
  - unfold mk_instantiate in H. no_abort H.
  - unfold ah_instantiate in H. no_abort H.
  - unfold ph_instantiate in H. no_abort H.
  - unfold rh_instantiate in H. no_abort H.
  - unfold cu_instantiate in H. no_abort H.
  - unfold fb_instantiate in H. no_abort H.
  - unfold fe_instantiate in H. no_abort H.
  - unfold or_instantiate in H. no_abort H.
  - unfold gp_instantiate in H. no_abort H.
  - unfold wn_instantiate in H. no_abort H.
  - unfold wc_instantiate in H. no_abort H.
  - eapply Hm; reflexivity.
Qed.
Lemma reply_abort A id r st : c_reply A id r st <> Panic.
Proof.
  intros H. unfold c_reply, lift in H.
  destruct st; try discriminate H; (apply bind_Panic_inv in H as [H|([x' r'] & _ & H)]; [|discriminate H]).
  - unfold wn_reply in H. no_abort H.
  - unfold wc_reply in H. no_abort H.
Qed.

(** ** The reasons are never overcome *)
Lemma short_refused raw m : short_message raw -> msg_decode raw <> Ok m.
Proof. intros L H. apply msg_decode_Ok_inv in H as (H & _). unfold short_message in L. lia. Qed.
Lemma pad_refused a b : long_address a -> bech32_to_h256 a <> Ok b.
Proof.
  intros (v & Hv & L) H. unfold bech32_to_h256 in H. rewrite Hv in H. cbn [bind] in H. unfold pad32 in H.
  apply PeanoNat.Nat.leb_gt in L. rewrite L in H. discriminate.
Qed.
Lemma sig_refused A h sg pk : bad_signature sg -> va_recover A h sg <> Ok pk.
Proof.
  intros Hb H. unfold va_recover in H. apply bind_Ok_inv in H as (rs & _ & H). apply bind_Ok_inv in H as (v & Hv & H).
  apply bind_Ok_inv in H as (u & Hu & _). destruct Hb as [L|(w & Hn & Hw)].
  - rewrite slice_panic in Hv by exact L. discriminate.
  - destruct (Compare_dec.le_lt_dec 65 (length sg)) as [L|L]; [|rewrite slice_panic in Hv by exact L; discriminate].
    rewrite slice_ok in Hv by lia. apply Ok_inj in Hv. subst v.
    apply nth_error_split in Hn as (l1 & l2 & -> & L1).
    rewrite skipn_app_exact in Hu by exact L1. cbn [Nat.sub firstn] in Hu.
    rewrite of_be_cons in Hu. cbn [length of_be fold_left] in Hu. change (256 ^ N.of_nat 0) with 1 in Hu.
    destruct (27 <=? bN w * 1 + 0) eqn:E; [apply N.leb_le in E; lia|discriminate].
Qed.
Lemma take_refused token n l f : Forall (fun c => c_denom c <> token) l -> take_token token n l <> Ok f.
Proof.
  intros Hf. revert f. induction Hf as [|c l Hc _ IH]; intros f H; cbn [take_token] in H; [discriminate|].
  apply bytes_eqb_neq in Hc. unfold addr in *. rewrite Hc in H. apply bind_Ok_inv in H as (r & H & _). now apply IH in H.
Qed.
Lemma gas_terms_one q st d p r p' r' : gas_terms q st d p r -> gas_terms q st d p' r' -> p' = p /\ r' = r.
Proof.
  intros (o & H1 & H2 & _) (o' & H1' & H2' & _). rewrite H1 in H1'. apply Some_inj, Some_inj in H1'. subst o'.
  rewrite H2 in H2'. apply Ok_inj in H2'. now injection H2' as -> ->.
Qed.
Lemma overflow_refused q st i d gas refund r : price_overflow q st d gas -> ~ gas_paid q st i d gas refund r.
Proof.
  intros (p & t & H1 & H2) (p' & t' & paid & H1' & H2' & _).
  destruct (gas_terms_one _ _ _ _ _ _ _ H1 H1') as [-> ->]. auto.
Qed.

Lemma execute_refused A Q e i m st v :
  ~ empty_key A -> (forall t, st <> SCw20 t) -> execute_aborts A (Q st) i m st -> c_execute A Q e i m st <> Ok v.
Proof.
  intros Hk Hcw Ha H. unfold c_execute in H.
  pose proof H as H0. apply bind_Ok_inv in H as (u & Hm & H). apply ensure_Ok_inv in Hm.
  destruct st; try (exfalso; eapply Hcw; reflexivity); unfold lift in H; cbn [execute_aborts] in Ha;
    destruct m; try contradiction Ha;
    apply bind_Ok_inv in H as ([x' r'] & H & E); apply Ok_inj in E; subst v.
  - unfold mb_execute, mb_dispatch in H.
    apply bind_Ok_inv in H as (u1 & _ & H). apply bind_Ok_inv in H as (mm & H1 & H).
    apply bind_Ok_inv in H as (dh & H2 & H). apply bind_Ok_inv in H as (hk & _ & H).
    apply bind_Ok_inv in H as (rq & H3 & H). apply bind_Ok_inv in H as (f & _ & H).
    apply bind_Ok_inv in H as (rest & _ & H). apply bind_Ok_inv in H as (u2 & H4 & _).
    destruct Ha as [Ha|[Ha|[(n & Ha & Hn)|Ha]]].
    + unfold reported_default_hook, c_query in Ha. cbn [qmsg_ok ensure bind mb_query] in Ha. rewrite H2 in Ha. discriminate.
    + unfold reported_required_hook, c_query in Ha. cbn [qmsg_ok ensure bind mb_query] in Ha. rewrite H3 in Ha. discriminate.
    + apply Some_inj in Ha. subst n. destruct (mb_nonce x + 1 <? u32_max) eqn:E; [|discriminate].
      apply N.ltb_lt in E. unfold u32_max in E. lia.
    + unfold to_msg in H1. apply bind_Ok_inv in H1 as (a & H1 & _). now apply pad_refused in H1.
  - unfold mb_execute, mb_process in H.
    apply bind_Ok_inv in H as (mm & H1 & H). apply bind_Ok_inv in H as (a & _ & H).
    apply bind_Ok_inv in H as (u1 & _ & H). apply bind_Ok_inv in H as (u2 & _ & H).
    apply bind_Ok_inv in H as (o & _ & H). apply bind_Ok_inv in H as (dm & H2 & _).
    destruct Ha as [Ha|Ha]; [now apply short_refused in H1|].
    unfold reported_default_ism, c_query in Ha. cbn [qmsg_ok ensure bind mb_query] in Ha. rewrite H2 in Ha. discriminate.
  - unfold va_execute, va_announce in H.
    apply bind_Ok_inv in H as (u1 & _ & H). apply bind_Ok_inv in H as (u2 & _ & H).
    apply bind_Ok_inv in H as (dh & H1 & H). apply bind_Ok_inv in H as (pk & H2 & _).
    destruct Ha as [Ha|[Ha|(b & Hb & L)]]; [now apply sig_refused in H2|contradiction|].
    rewrite va_mailbox_of in Hb. apply Some_inj in Hb. subst b. unfold va_domain_hash in H1.
    apply bind_Ok_inv in H1 as (p & H1 & _). unfold pad32 in H1. apply PeanoNat.Nat.leb_gt in L. rewrite L in H1. discriminate.
  - unfold mk_execute, mk_post_dispatch in H. apply bind_Ok_inv in H as (a & _ & H). destruct a; try discriminate H.
    apply bind_Ok_inv in H as (mm & H1 & _). now apply short_refused in H1.
  - unfold ah_execute, ah_post_dispatch in H. apply bind_Ok_inv in H as (a & _ & H).
    apply bind_Ok_inv in H as (mm & H1 & _). now apply short_refused in H1.
  - unfold rh_execute, rh_route in H. apply bind_Ok_inv in H as (a & H & _).
    apply bind_Ok_inv in H as (mm & H1 & _). now apply short_refused in H1.
  - unfold cu_execute, cu_route in H. apply bind_Ok_inv in H as (a & H & _).
    apply bind_Ok_inv in H as (mm & H1 & _). now apply short_refused in H1.
  - unfold fb_execute, fb_route in H. apply bind_Ok_inv in H as (a & H & _).
    apply bind_Ok_inv in H as (mm & H1 & _). now apply short_refused in H1.
  - pose proof (proj1 (gas_dispatch A Q e i metadata message (SIgp x) (SIgp x') r' I)) as G.
    destruct G as (mm & gas & refund & D & G & R & _ & P); [exact H0|].
    destruct Ha as [Ha|[[Hl Hz]|(m2 & gas2 & D2 & G2 & P2)]].
    + now apply short_refused in D.
    + destruct R as (sn & _ & R). cbv zeta in R. rewrite skipn_length in R.
      assert (E : (Nat.eqb (length metadata - 32) 20 || Nat.eqb (length metadata - 32) 32)%bool = true)
        by (destruct Hl as [-> | ->]; reflexivity).
      rewrite E in R. destruct R as [R _]. contradiction.
    + rewrite D in D2. apply Ok_inj in D2. subst m2.
      assert (gas2 = gas) as ->.
      { unfold requested_gas in G, G2. destruct (Nat.ltb (length metadata) 32); [rewrite G in G2; now apply Some_inj in G2|congruence]. }
      eapply overflow_refused in P2. exact (P2 P).
  - cbn [gp_execute] in H. apply gp_pay_iff in H as [_ P].
    + eapply overflow_refused in Ha. exact (Ha P).
    + cbn [emsg_ok] in Hm. apply andb_true_iff in Hm as [Hm _]. now apply N.ltb_lt in Hm.
  - destruct Ha as [_ Ha]. unfold wn_execute, wn_handle in H. apply bind_Ok_inv in H as (w & H & _).
    unfold wp_check_handle in H. apply bind_Ok_inv in H as (u1 & _ & H). apply bind_Ok_inv in H as (rt & H1 & H).
    apply bind_Ok_inv in H as (u2 & _ & H). destruct Ha as [Ha|Ha]; [|rewrite warp_decode_short in H by exact Ha; discriminate].
    unfold no_route in Ha. rewrite reported_route_of in Ha by (cbn [emsg_ok] in Hm; now apply N.ltb_lt in Hm).
    cbn [routes_of option_map] in Ha. apply Some_inj in Ha. unfold addr in *. rewrite Ha in H1. discriminate.
  - unfold wn_execute, wn_transfer_remote in H. apply bind_Ok_inv in H as (tk & H1 & H). apply bind_Ok_inv in H as (f & H3 & H).
    apply bind_Ok_inv in H as (rt & H2 & _).
    destruct Ha as [Ha|(tk' & Ha & Hf)].
    2:{ apply ok_or_Ok_inv in H1. unfold reported_token, c_query in Ha. cbn [qmsg_ok ensure bind wn_query wp_query] in Ha.
        unfold wn_query in Ha. cbn [wp_query] in Ha. rewrite H1 in Ha. apply Some_inj in Ha. subst tk'.
        now apply take_refused in H3. }
    unfold no_route in Ha. rewrite reported_route_of in Ha by (cbn [emsg_ok] in Hm; apply andb_true_iff in Hm as [Hm _]; now apply N.ltb_lt in Hm).
    cbn [routes_of option_map] in Ha. apply Some_inj in Ha. unfold addr in *. rewrite Ha in H2. discriminate.
  - destruct Ha as [_ Ha]. unfold wc_execute, wc_handle in H. apply bind_Ok_inv in H as (w & H & _).
    unfold wp_check_handle in H. apply bind_Ok_inv in H as (u1 & _ & H). apply bind_Ok_inv in H as (rt & H1 & H).
    apply bind_Ok_inv in H as (u2 & _ & H). destruct Ha as [Ha|Ha]; [|rewrite warp_decode_short in H by exact Ha; discriminate].
    unfold no_route in Ha. rewrite reported_route_of in Ha by (cbn [emsg_ok] in Hm; now apply N.ltb_lt in Hm).
    cbn [routes_of option_map] in Ha. apply Some_inj in Ha. unfold addr in *. rewrite Ha in H1. discriminate.
  - unfold wc_execute, wc_transfer_remote in H. apply bind_Ok_inv in H as (tk & _ & H). apply bind_Ok_inv in H as (rt & H2 & _).
    unfold no_route in Ha. rewrite reported_route_of in Ha by (cbn [emsg_ok] in Hm; apply andb_true_iff in Hm as [Hm _]; now apply N.ltb_lt in Hm).
    cbn [routes_of option_map] in Ha. apply Some_inj in Ha. unfold addr in *. rewrite Ha in H2. discriminate.
Qed.
