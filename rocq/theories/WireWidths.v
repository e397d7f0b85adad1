(** * The numbers a contract stores fit the fields it answers them in.

    [narrow] holds of every storage an instantiation leaves and is kept by every
    call, so whatever a contract answers can be written in the answer's declared type
    and read back ([answer_fits]). *)
From Coq Require Import List NArith Bool Lia Arith.
From Verif Require Import Base BaseFacts OMap Crypto Coins Hex Merkle Json JsonFacts Message CodecFacts Chain Ownable Router Utils Mailbox Va
  Isms Hooks Igp Warp Cw20 Contracts Wire WireQuery SpecQuery SpecWire WireFacts WireQueryFacts StepFacts QueryFacts InitFacts WireAnswers.
Import ListNotations.

Definition key32 {V} (p : N * V) : Prop := u32_ok (fst p) = true.
Definition routes_narrow (r : routes) : Prop := Forall key32 r.

Definition narrow (st : cstate) : Prop :=
  match st with
  | SMailbox x => u32_ok (mb_domain x) = true /\ u32_ok (mb_nonce x) = true
  | SVa x => u32_ok (va_domain x) = true
  | SMultisig x => Forall (fun p => u8_ok (snd p) = true) (ms_threshold x)
  | SAggIsm x => u8_ok (ag_threshold x) = true
  | SMerkle x => length (mt_branch (mk_tree x)) = 32%nat
  | SRoutingHook x => routes_narrow (rh_routes x)
  | SCustomHook x => routes_narrow (cu_routes x)
  | SFallbackHook x => routes_narrow (fb_routes x)
  | SFeeHook x => u128_ok (c_amount (fe_fee x)) = true
  | SOracle x => Forall (fun p => u128_ok (gd_rate (snd p)) = true /\ u128_ok (gd_price (snd p)) = true) (or_data x)
  | SIgp x => routes_narrow (gp_routes x) /\ u128_ok (gp_default_gas x) = true /\
      Forall (fun p => u32_ok (fst p) = true /\ u128_ok (snd p) = true) (gp_gas x)
  | SWarpNative x | SWarpCw20 x => routes_narrow (wp_routes x)
  | _ => True
  end.

Lemma om_get_Forall {K V} {OK : OrdKey K} (P : K * V -> Prop) k v (m : omap K V) : Forall P m -> om_get k m = Some v -> P (k, v).
Proof. intros F H. apply om_get_In in H. exact (proj1 (Forall_forall _ _) F _ H). Qed.

Lemma set_routes_narrow l r : forallb (fun x => u32_ok (rs_domain x)) l = true -> routes_narrow r -> routes_narrow (set_routes r l).
Proof.
  unfold set_routes. revert r. induction l as [|x l IH]; intros r H F; [exact F|]. cbn [forallb] in H. apply andb_true_iff in H as [H1 H2].
  cbn [fold_left]. apply IH; [exact H2|]. unfold set_route, routes_narrow. apply om_set_Forall; [exact H1|exact F].
Qed.

Lemma router_narrow o i m r r' : emsg_ok (MRouter m) = true -> routes_narrow r -> router_handle o i m r = Ok r' -> routes_narrow r'.
Proof.
  intros O F H. unfold router_handle in H. apply bind_Ok_inv in H as (u & _ & H). destruct m as [x|l]; apply Ok_inj in H as <-.
  - unfold set_route, routes_narrow. apply om_set_Forall; [exact O|exact F].
  - apply set_routes_narrow; [exact O|exact F].
Qed.

Lemma insert_loop_length b : forall n k b', insert_loop b n k = Ok b' -> length b' = length b.
Proof.
  induction b as [|x b IH]; intros n k b' H; [discriminate H|]. cbn [insert_loop] in H. destruct (N.odd k).
  - apply Ok_inj in H as <-. reflexivity.
  - apply bind_Ok_inv in H as (r & H1 & H). apply Ok_inj in H as <-. cbn [length]. rewrite (IH _ _ _ H1). reflexivity.
Qed.

Lemma oracle_configs_narrow (P : N * gas_data -> Prop) l : forall m d,
  (forall c, In c l -> P (gc_domain c, mkGasData (gc_rate c) (gc_price c))) -> Forall P m ->
  foldM (fun m c => _ <- ensure (negb (gc_rate c =? 0)) EInvalidConfig ;; Ok (or_insert m c)) l m = Ok d -> Forall P d.
Proof.
  induction l as [|c l IH]; intros m d Hl F H; cbn [foldM] in H; [apply Ok_inj in H as <-; exact F|].
  apply bind_Ok_inv in H as (m1 & H1 & H). apply bind_Ok_inv in H1 as (u & _ & H1). apply Ok_inj in H1 as <-.
  apply (IH _ _ (fun c' Hc => Hl c' (or_intror Hc)) (om_set_Forall P _ _ _ (Hl c (or_introl eq_refl)) F) H).
Qed.

Lemma set_gas_narrow (P : N * N -> Prop) l : forall m, Forall P l -> Forall P m ->
  Forall P (fold_left (fun m p => om_set (fst p) (snd p) m) l m).
Proof.
  induction l as [|[d g] l IH]; intros m Hl F; [exact F|]. inversion Hl; subst. cbn [fold_left fst snd]. apply IH; [assumption|].
  apply om_set_Forall; assumption.
Qed.

Lemma unset_gas_narrow (P : N * N -> Prop) l : forall m, Forall P m -> Forall P (fold_left (fun m d => om_del d m) l m).
Proof. induction l as [|d l IH]; intros m F; [exact F|]. cbn [fold_left]. apply IH, om_del_Forall, F. Qed.

Lemma narrow_born A q e i m st r : c_instantiate A q e i m = Ok (st, r) -> narrow st.
Proof.
  intros H. unfold c_instantiate, lift in H. apply bind_Ok_inv in H as (u & O & H). apply ensure_Ok_inv in O.
  destruct m; cbn [imsg_ok] in O; inv_all;
    cbn [mb_instantiate va_instantiate ms_instantiate ag_instantiate ri_instantiate pi_instantiate mk_instantiate ah_instantiate ph_instantiate
         rh_instantiate cu_instantiate fb_instantiate fe_instantiate or_instantiate gp_instantiate wn_instantiate wc_instantiate] in *.
  all: try unfold mb_instantiate in *; try unfold va_instantiate in *; try unfold ms_instantiate in *; try unfold ag_instantiate in *;
    try unfold ri_instantiate in *; try unfold pi_instantiate in *; try unfold mk_instantiate in *; try unfold ah_instantiate in *;
    try unfold ph_instantiate in *; try unfold rh_instantiate in *; try unfold cu_instantiate in *; try unfold fb_instantiate in *;
    try unfold fe_instantiate in *; try unfold or_instantiate in *; try unfold gp_instantiate in *; try unfold wn_instantiate in *;
    try unfold wc_instantiate in *; inv_all; split_matches; cbn [narrow]; unfold routes_narrow;
    cbn [mb_domain mb_nonce va_domain ms_threshold ag_threshold mk_tree rh_routes cu_routes fb_routes fe_fee or_data gp_routes gp_default_gas
         gp_gas wp_routes]; auto using Forall_nil.
  all: match goal with H : smart _ _ _ = Ok _ |- _ => apply smart_ok in H as [_ H]; exact H | _ => idtac end.
Qed.

Lemma narrow_step A ev st st' r : narrow st -> c_apply A ev st = Ok (st', r) -> narrow st'.
Proof.
  intros W H. destruct ev as [e i m Q|id rr]; cbn [c_apply] in H.
  - unfold c_execute, lift in H. apply bind_Ok_inv in H as (u & O & H). apply ensure_Ok_inv in O.
    destruct st; inv_all; unfold_execs; destruct m; try discriminate; inv_all.
    all: unfold_helpers; inv_all; split_matches; cbn [narrow] in *;
      cbn [mb_domain mb_nonce va_domain ms_threshold ag_threshold mk_tree rh_routes cu_routes fb_routes fe_fee or_data gp_routes gp_default_gas
         gp_gas wp_routes] in *; auto.
    all: try (match goal with H : router_handle _ _ _ _ = Ok ?v |- _ => apply (router_narrow _ _ _ _ _ O) in H; tauto end; fail).
    + split; [tauto|exact Hr7].
    + cbn [emsg_ok] in O. apply andb_true_iff in O as [_ O]. apply om_set_Forall; [exact O|exact W].
    + apply om_del_Forall, W.
    + unfold mt_insert in *. inv_all. cbn [mt_branch]. match goal with H : insert_loop _ _ _ = Ok _ |- _ => rewrite (insert_loop_length _ _ _ _ H) end. exact W.
    + eapply oracle_configs_narrow; [|exact W|eassumption]. intros c Hc. cbn [emsg_ok] in O. rewrite forallb_forall in O. specialize (O c Hc).
      apply andb_true_iff in O as [O O3]. apply andb_true_iff in O as [O1 O2]. cbn [snd gd_rate gd_price]. auto.
    + unfold or_insert. apply om_set_Forall; [|exact W]. cbn [emsg_ok] in O. apply andb_true_iff in O as [O O3]. apply andb_true_iff in O as [O1 O2].
      cbn [snd gd_rate gd_price]. auto.
    + destruct W as (W1 & _ & W3). auto.
    + destruct W as (W1 & W2 & W3). repeat split; auto. apply set_gas_narrow; [|exact W3]. cbn [emsg_ok] in O. rewrite forallb_forall in O.
      apply Forall_forall. intros p Hp. specialize (O p Hp). apply andb_true_iff in O. exact O.
    + destruct W as (W1 & W2 & W3). repeat split; auto. apply unset_gas_narrow, W3.
  - unfold c_reply, lift in H. destruct st; try discriminate H; inv_all; unfold_helpers; inv_all; split_matches; exact W.
Qed.

Lemma narrow_run A st h : narrow st -> narrow (c_run A st h).
Proof.
  unfold c_run. revert st. induction h as [|ev h IH]; intros st W; [exact W|]. cbn [fold_left]. apply IH. unfold c_step.
  destruct (c_apply A ev st) as [[st' r]|e|] eqn:E; [exact (narrow_step A ev st st' r W E)|exact W|exact W].
Qed.

(** ** Amounts of coins *)
Definition coins_narrow (m : coins) : Prop := Forall (fun p => u128_ok (snd p) = true) m.
Definition all128 (l : list coin) : Prop := Forall (fun c => u128_ok (c_amount c) = true) l.

Lemma all128_iff l : forallb (fun c => u128_ok (c_amount c)) l = true <-> all128 l.
Proof. unfold all128. rewrite forallb_forall, Forall_forall. reflexivity. Qed.

Lemma coins_add_narrow m c m' : coins_narrow m -> u128_ok (c_amount c) = true -> coins_add m c = Ok m' -> coins_narrow m'.
Proof.
  intros W C H. unfold coins_add in H. destruct (c_amount c =? 0); [apply Ok_inj in H as <-; exact W|].
  destruct (om_get (c_denom c) m) as [a|].
  - destruct (a + c_amount c <? u128_max) eqn:E; [|discriminate H]. apply Ok_inj in H as <-. apply om_set_Forall; [exact E|exact W].
  - apply Ok_inj in H as <-. apply om_set_Forall; [exact C|exact W].
Qed.

Lemma coins_sum_narrow l : forall m m', coins_narrow m -> all128 l -> foldM coins_add l m = Ok m' -> coins_narrow m'.
Proof.
  induction l as [|c l IH]; intros m m' W L H; cbn [foldM] in H; [apply Ok_inj in H as <-; exact W|]. inversion L; subst.
  apply bind_Ok_inv in H as (m1 & H1 & H). eapply IH; [|eassumption|exact H]. eapply coins_add_narrow; eassumption.
Qed.

Lemma try_from_narrow l : forall m m', coins_narrow m -> all128 l ->
  foldM (fun (m : coins) c => if c_amount c =? 0 then Ok m else match om_get (c_denom c) m with Some _ => Err EStd
         | None => Ok (om_set (c_denom c) (c_amount c) m) end) l m = Ok m' -> coins_narrow m'.
Proof.
  induction l as [|c l IH]; intros m m' W L H; cbn [foldM] in H; [apply Ok_inj in H as <-; exact W|]. inversion L; subst.
  apply bind_Ok_inv in H as (m1 & H1 & H). eapply IH; [|eassumption|exact H]. destruct (c_amount c =? 0); [apply Ok_inj in H1 as <-; exact W|].
  destruct (om_get _ _); [discriminate H1|]. apply Ok_inj in H1 as <-. apply om_set_Forall; assumption.
Qed.

Lemma to_vec_narrow m : coins_narrow m -> all128 (coins_to_vec m).
Proof. unfold coins_narrow, all128, coins_to_vec. intros H. apply Forall_map. exact H. Qed.

Lemma quoted_narrow q h md msg l : quote_dispatch q h md msg = Ok l -> all128 l.
Proof.
  unfold quote_dispatch. intros H. apply bind_Ok_inv in H as (r & H1 & H). apply smart_ok in H1 as [_ H1]. destruct r; try discriminate H.
  apply Ok_inj in H as ->. apply all128_iff. exact H1.
Qed.

Lemma agg_quote_narrow q md msg l : forall m m', coins_narrow m ->
  foldM (fun acc h => f <- quote_dispatch q h md msg ;; foldM coins_add f acc) l m = Ok m' -> coins_narrow m'.
Proof.
  induction l as [|h l IH]; intros m m' W H; cbn [foldM] in H; [apply Ok_inj in H as <-; exact W|].
  apply bind_Ok_inv in H as (m1 & H1 & H). apply bind_Ok_inv in H1 as (f & H0 & H1). apply quoted_narrow in H0.
  eapply IH; [|exact H]. eapply coins_sum_narrow; eassumption.
Qed.

Lemma mailbox_quote_narrow A q sn d x l : mb_quote_dispatch A q sn d x = Ok l -> all128 l.
Proof.
  unfold mb_quote_dispatch. intros H. inv_all. unfold coins_try_from in *. apply to_vec_narrow.
  repeat match goal with H : quote_dispatch _ _ _ _ = Ok _ |- _ => apply quoted_narrow in H end.
  match goal with HS : foldM coins_add ?l ?m = Ok ?m' |- _ => refine (coins_sum_narrow l m m' _ _ HS) end; [|assumption].
  match goal with HT : foldM _ ?l [] = Ok _ |- _ => refine (try_from_narrow l [] _ (Forall_nil _) _ HT) end. assumption.
Qed.

(** ** Pages of a table *)
Lemma page_Forall {K V} {OK : OrdKey K} (P : K * V -> Prop) (m : omap K V) s lim o l :
  Forall P m -> range_page m s lim o = Ok l -> Forall P l.
Proof.
  intros F H. unfold range_page in H. apply bind_Ok_inv in H as (k & _ & H). apply Ok_inj in H as <-.
  assert (FF : forall f, Forall P (filter f m)).
  { intros f. apply Forall_forall. intros p Hp. apply filter_In in Hp as [Hp _]. exact (proj1 (Forall_forall _ _) F p Hp). }
  assert (FN : forall n l, Forall P l -> Forall P (firstn n l)).
  { intros n l Hl. rewrite <- (firstn_skipn n l) in Hl. apply Forall_app in Hl. tauto. }
  apply FN. destruct o as [[|]|]; try apply FF. apply Forall_rev, FF.
Qed.

Lemma routes_answer r m x : qmsg_ok m = true -> routes_narrow r -> router_query m r = Ok x -> wide x = true.
Proof.
  intros O W H. unfold router_query in H. destruct m; try discriminate H; inv_all; cbn [wide].
  - unfold get_domains, om_keys. rewrite forallb_forall. intros d Hd. apply in_map_iff in Hd as (p & <- & Hp).
    exact (proj1 (Forall_forall _ _) W p Hp).
  - exact O.
  - unfold get_routes in *. inv_all. match goal with HP : range_page _ _ _ _ = Ok _ |- _ => apply (page_Forall _ _ _ _ _ _ W) in HP; rename HP into HF end.
    rewrite forallb_forall. intros y Hy. apply in_map_iff in Hy as (p & <- & Hp). cbn [rs_domain]. exact (proj1 (Forall_forall _ _) HF p Hp).
Qed.

Lemma quote_256 q x d g n : gp_quote q x d g = Ok n -> u256_ok n = true.
Proof.
  unfold gp_quote. intros H. inv_all. unfold u256_mul in *. inv_all. unfold u256_ok.
  repeat match goal with H : (_ <? u256_max) = true |- _ => apply N.ltb_lt in H end. apply N.ltb_lt.
  match goal with H : ?a * ?b * ?c < u256_max |- _ => apply N.le_lt_trans with (a * b * c); [|exact H] end.
  apply N.div_le_upper_bound; [discriminate|]. unfold TOKEN_EXCHANGE_RATE_SCALE. lia.
Qed.

Lemma answer_wide A q m st r : narrow st -> c_query A q m st = Ok r -> wide r = true.
Proof.
  intros W H. destruct (answered A q m st r H) as [U O]. unfold c_query in H. rewrite O in H. cbn [ensure bind] in H.
  destruct st; destruct m; try discriminate U; clear U; cbn [narrow] in W.
  all: cbn [mb_query va_query ms_query ag_query ri_query pi_query mk_query ah_query ph_query rh_query cu_query fb_query fe_query or_query
         gp_query wn_query wc_query wp_query cw_query own_query conn_query pause_query] in H.
  all: try (apply (routes_answer _ _ _ O) in H; [exact H|tauto]; fail).
  all: try unfold mb_recipient_ism in H; try unfold ms_verify_info in H; inv_all; cbn [wide]; auto.
  all: try tauto.
  all: try (apply all128_iff; match goal with
        | HQ : quote_dispatch _ _ _ _ = Ok _ |- _ => exact (quoted_narrow _ _ _ _ _ HQ)
        | HQ : mb_quote_dispatch _ _ _ _ _ = Ok _ |- _ => exact (mailbox_quote_narrow _ _ _ _ _ _ HQ) end).
  all: repeat match goal with HO : ok_or _ _ = Ok _ |- _ => apply ok_or_Ok_inv in HO end.
  - exact (om_get_Forall _ _ _ _ W Hr0).
  - exact (om_get_Forall _ _ _ _ W Hr0).
  - destruct v0; try discriminate H. apply Ok_inj in H as <-. reflexivity.
  - apply N.ltb_lt, N.mod_lt. discriminate.
  - apply Nat.eqb_eq, W.
  - apply andb_true_iff. split; [apply Nat.eqb_eq, W|apply N.ltb_lt, N.mod_lt; discriminate].
  - assert (M : mt_count (mk_tree x) mod u32_max < u32_max) by (apply N.mod_lt; discriminate).
    destruct (mt_count (mk_tree x) =? 0); inv_all; apply N.ltb_lt; [reflexivity|lia].
  - unfold ah_quote in *. inv_all. apply all128_iff, to_vec_narrow. eapply agg_quote_narrow; [apply Forall_nil|eassumption].
  - cbn [qmsg_ok] in O. apply andb_true_iff in O as [O _]. unfold cu_list in *. inv_all. rewrite forallb_forall. intros h Hh.
    apply in_map_iff in Hh as (p & <- & _). exact O.
  - cbn [forallb]. rewrite W. reflexivity.
  - match goal with HG : om_get _ _ = Some _ |- _ => apply (om_get_Forall _ _ _ _ W) in HG as [HG1 HG2] end. cbn [snd] in *. rewrite HG1, HG2. reflexivity.
  - unfold gp_quote_dispatch in *. inv_all. destruct (_ =? 0); inv_all; [reflexivity|]. cbn [forallb c_amount]. apply andb_true_iff. split; [assumption|reflexivity].
  - destruct W as (_ & _ & W). match goal with HM : mapM _ _ = Ok _ |- _ => apply mapM_Ok_Forall2 in HM; rename HM into HF end.
    cbn [qmsg_ok] in O. clear - HF W O. induction HF as [|d p ds l Hp HF IH]; [reflexivity|]. cbn [forallb] in O |- *. apply andb_true_iff in O as [O1 O2].
    rewrite (IH O2), andb_true_r. apply bind_Ok_inv in Hp as (g & Hg & Hp). apply Ok_inj in Hp as <-. apply ok_or_Ok_inv in Hg.
    apply (om_get_Forall _ _ _ _ W) in Hg as [Hg1 Hg2]. cbn [fst snd] in *. rewrite Hg1, Hg2. reflexivity.
  - destruct W as (_ & _ & W). match goal with HP : range_page _ _ _ _ = Ok _ |- _ => apply (page_Forall _ _ _ _ _ _ W) in HP; rename HP into HF end.
    rewrite forallb_forall. intros p Hp. apply andb_true_iff. exact (proj1 (Forall_forall _ _) HF p Hp).
  - eapply quote_256. eassumption.
  - unfold query_oracle in *. inv_all. match goal with HS : smart _ _ _ = Ok _ |- _ => apply smart_ok in HS as [_ HS] end.
    match goal with v : qres |- _ => destruct v; try discriminate end. inv_all. assumption.
Qed.

(** ** Every answer of a deployed contract is read back by who asked *)
Lemma answer_fits A q e i im q' m h st0 r0 r :
  c_instantiate A q e i im = Ok (st0, r0) -> is_token st0 = false ->
  c_query A q' m (c_run A st0 h) = Ok r -> fits (answer_c (program_of (c_run A st0 h)) m) r = true.
Proof.
  intros B T H. apply (answer_shape A q').
  - pose proof (run_kind A st0 h) as K. destruct (c_run A st0 h); try reflexivity. destruct st0; discriminate || exact T.
  - exact H.
  - apply (answer_wide A q' m (c_run A st0 h)); [|exact H]. apply narrow_run, (narrow_born A q e i im st0 r0 B).
Qed.
