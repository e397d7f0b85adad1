(** * Lemmas for C102: the errors of queries and of creation. *)
From Coq Require Import List NArith Bool Lia.
From Verif Require Import Base BaseFacts OMap Crypto Bech32 Hex Metadata Merkle MerkleFacts Coins CoinsFacts Message
  CodecFacts Chain Ownable Router Contracts Spec SpecModules SpecInit SpecBridge SpecErrors StepFacts HookFacts IgpFacts IsmFacts InitFacts
  StoreFrame Mailbox Va Isms Hooks Igp Warp Cw20 ErrorFacts.
Import ListNotations.

Lemma signer_err A h sg er : ~ dull er -> ms_signer A h sg = Err er -> er = ERecover.
Proof.
  intros D H. unfold ms_signer in H. do 3 next_err D H.
  apply bind_Err_inv in H as [H | (? & ? & H)]; [now apply ok_or_Err_inv in H | no_err D H].
Qed.
Lemma loop_err A h vs sigs er : ~ dull er -> forall matched t, ms_loop A h vs sigs matched t = Err er ->
  er = ERecover /\ exists sg, In sg sigs /\ ms_signer A h sg = Err er.
Proof.
  intros D. induction sigs as [| sg sigs IH]; intros matched t H; cbn [ms_loop] in H; [discriminate H |].
  apply bind_Err_inv in H as [H | (a & _ & H)].
  - split; [exact (signer_err _ _ _ _ D H) |]. exists sg. split; [now left | exact H].
  - destruct (mem_bytes a vs && negb (mem_bytes a matched))%bool.
    + next_err D H. destruct (t - 1 =? 0); [discriminate H |]. apply IH in H as (E & g & H1 & H2). split; [exact E |]. exists g. split; [now right | exact H2].
    + apply IH in H as (E & g & H1 & H2). split; [exact E |]. exists g. split; [now right | exact H2].
Qed.
Lemma plain_mid md : plain (mid_decode md). Proof. unfold mid_decode. plainly. Qed.
#[export] Hint Resolve plain_mid : plain.

Lemma multisig_err A md raw x er : ~ dull er -> ms_verify A md raw x = Err er -> query_cause A (QVerify md raw) (SMultisig x) er.
Proof.
  intros D H. unfold ms_verify in H.
  apply bind_Err_inv in H as [H | (v & H1 & H)]; [no_err D H |].
  apply bind_Err_inv in H as [H | (m & H2 & H)]; [no_err D H |].
  destruct (metadata_of_decode _ _ H1) as [Hmd Hix]. rewrite (digest_spec m v _ Hix eq_refl) in H. cbn [bind] in H.
  destruct (msg_decode_Ok_inv _ _ H2) as (_ & _ & Hraw). rewrite Hraw in H.
  do 2 next_err D H. apply bind_Err_inv in H as [H | (l & _ & H)]; [| discriminate H].
  apply loop_err in H as (-> & sg & Hin & Hs); [| exact D]. cbn [query_cause]. split; [exact I |].
  exists m, (mid_tree v), (mid_root v), (of_be (mid_index v)), (mid_signatures v), sg.
  split; [exact H2 |]. split; [exact Hmd |]. split; [exact Hin |]. intros a Ha.
  apply ms_signer_iff in Ha; [rewrite Ha in Hs; discriminate Hs |].
  destruct Hmd as (tail & _ & _ & _ & _ & HF & _). rewrite Forall_forall in HF. now apply HF.
Qed.

Lemma module_err raw x er : ~ dull er -> ri_module raw x = Err er ->
  er = ERouteNotFound /\ (exists msg, msg_decode raw = Ok msg) /\ reported_module_for (SRoutingIsm x) raw = None.
Proof.
  intros D H. unfold reported_module_for, c_query. cbn [qmsg_ok ensure bind ri_query]. rewrite H. cbn [bind].
  unfold ri_module in H. apply bind_Err_inv in H as [H | (m & Hm & H)]; [no_err D H |].
  apply ok_or_Err_inv in H as [_ ->]. split; [reflexivity |]. split; [now exists m | reflexivity].
Qed.
Lemma plain_entry v i : plain (agg_entry v i). Proof. unfold agg_entry, sliceN. plainly. Qed.
#[export] Hint Resolve plain_entry : plain.
Lemma plain_entries v l : forall i, plain (agg_entries v i l).
Proof. induction l as [| a l IH]; intros i; cbn [agg_entries]; plainly. Qed.
Lemma plain_votes q msg l : forall t, plain (ag_loop q msg l t).
Proof. induction l as [| [a b] l IH]; intros t; cbn [ag_loop]; plainly. Qed.
#[export] Hint Resolve plain_entries plain_votes : plain.

Lemma plain_page {K V} {OK : OrdKey K} (m : omap K V) start lim o : plain (range_page m start lim o).
Proof. unfold range_page, get_and_check_limit. plainly. Qed.
Lemma plain_add b c : plain (coins_add b c).
Proof. unfold coins_add. plainly. Qed.
#[export] Hint Resolve plain_page plain_add : plain.
Lemma plain_own m o : plain (own_query m o). Proof. unfold own_query. plainly. Qed.
Lemma plain_pause m b : plain (pause_query m b). Proof. unfold pause_query. plainly. Qed.
Lemma plain_router m r : plain (router_query m r). Proof. unfold router_query, get_routes. plainly. Qed.
Lemma plain_conn m c : plain (conn_query m c). Proof. unfold conn_query. plainly. Qed.
#[export] Hint Resolve plain_own plain_pause plain_router plain_conn : plain.

Lemma query_err A q m st er : ~ is_cw20 st -> c_query A q m st = Err er -> query_cause A m st er.
Proof.
  intros Hk H. destruct (dull_dec er) as [D | D]; [destruct D as [-> | ->]; exact I |].
  unfold c_query in H. apply bind_Err_inv in H as [H | (u & Hm & H)]; [no_err D H |]. apply ensure_Ok_inv in Hm. clear u.
  destruct st; try (exfalso; exact (Hk I)); clear Hk.
  - unfold mb_query, mb_recipient_ism, mb_quote_dispatch, get_default_ism, get_default_hook, get_required_hook, to_msg, get_hook_addr in H.
    destruct m; try (solve [no_err D H]).
  - unfold va_query in H. destruct m; no_err D H.
  - unfold ms_query, ms_verify_info in H. destruct m; try (solve [no_err D H]).
    apply bind_Err_inv in H as [H | (b & _ & H)]; [now apply multisig_err | discriminate H].
  - unfold ag_query, ag_verify, agg_from_hex in H. destruct m; no_err D H.
  - unfold ri_query in H. destruct m; try (solve [no_err D H]);
      (apply bind_Err_inv in H as [H | (b & _ & H)]; [| no_err D H]); apply module_err in H as (-> & H); try exact D; cbn [query_cause]; (split; [exact I | exact H]).
  - unfold pi_query in H. destruct m; try (solve [no_err D H]). apply bind_Err_inv in H as [H | (b & _ & H)]; [| discriminate H].
    apply ensure_Err_inv in H as [H ->]. apply negb_false_iff in H. cbn [query_cause]. split; [exact I |]. unfold reported_paused. cbn. now rewrite H.
  - unfold mk_query in H. destruct m; no_err D H.
  - unfold ah_query, ah_quote in H. destruct m; try (solve [no_err D H]). exfalso. apply D. revert H.
    apply plain_bind; [| intros; apply plain_Ok]. apply plain_bind; [apply plain_foldM; intros; plainly | intros; apply plain_Ok].
  - unfold ph_query in H. destruct m; no_err D H.
  - unfold rh_query in H. destruct m; try (solve [no_err D H]).
    apply bind_Err_inv in H as [H | (b & _ & H)]; [| no_err D H]. unfold rh_route in H.
    apply bind_Err_inv in H as [H | (mm & Hmm & H)]; [no_err D H |]. apply ok_or_Err_inv in H as [H ->].
    cbn [query_cause]. split; [exact I |]. exists mm. split; [exact Hmm |]. unfold selected_hook. rewrite reported_custom_none by (intros []).
    rewrite reported_route_of by (eapply decode_dest; exact Hmm). cbn [routes_of option_map]. now rewrite H.
  - unfold cu_query, cu_list in H. destruct m; try (solve [no_err D H]).
    apply bind_Err_inv in H as [H | (b & _ & H)]; [| no_err D H]. unfold cu_route in H.
    apply bind_Err_inv in H as [H | (mm & Hmm & H)]; [no_err D H |]. pose proof (decode_dest _ _ Hmm) as Hd.
    destruct (om_get (m_dest mm, m_recipient mm) (cu_hooks x)) eqn:Eg; [discriminate H |]. apply ok_or_Err_inv in H as [H ->].
    cbn [query_cause]. split; [exact I |]. exists mm. split; [exact Hmm |]. unfold selected_hook. rewrite reported_custom_of, Eg by exact Hd.
    rewrite reported_route_of by exact Hd. cbn [routes_of option_map]. now rewrite H.
  - unfold fb_query, fb_route in H. destruct m; no_err D H.
  - unfold fe_query in H. destruct m; no_err D H.
  - unfold or_query in H. destruct m; no_err D H.
  - unfold gp_query in H. destruct m; try (solve [no_err D H]).
    all: try (apply bind_Err_inv in H as [H | (f & _ & H)]; [| no_err D H]).
    all: try (solve [apply ok_or_Err_inv in H as [H ->]; cbn [query_cause]; split; [exact I |]; rewrite reported_route_of; [cbn [routes_of option_map]; now rewrite H |];
      cbn [qmsg_ok] in Hm; now apply N.ltb_lt in Hm]).
    all: try (solve [apply gas_err in H; [destruct H as [-> H]; cbn [query_cause]; split; [exact I | exact H] | | exact D];
      cbn [qmsg_ok] in Hm; apply andb_true_iff in Hm as [Hm _]; now apply N.ltb_lt in Hm]).
    all: try (solve [exfalso; apply D; revert H; apply plain_mapM; intros; plainly]).
    unfold gp_quote_dispatch in H. apply bind_Err_inv in H as [H | (mm & Hmm & H)]; [no_err D H |]. pose proof (decode_dest _ _ Hmm) as Hd.
    apply bind_Err_inv in H as [H | (g & _ & H)]; [no_err D H |].
    apply bind_Err_inv in H as [H | (f & _ & H)]; [| no_err D H].
    apply gas_err in H; [| exact Hd | exact D]. destruct H as [-> H]. cbn [query_cause]. split; [exact I |]. exists mm. split; [exact Hmm | exact H].
  - unfold wn_query, wp_query in H. destruct m; no_err D H.
  - unfold wc_query, wp_query in H. destruct m; no_err D H.
Qed.

Lemma create_err A q e i m er : (forall mt l, m <> ICw20 mt l) -> c_instantiate A q e i m = Err er -> create_cause m er.
Proof.
  intros Hk H. destruct (dull_dec er) as [D | D]; [destruct D as [-> | ->]; exact I |].
  unfold c_instantiate, lift in H. apply bind_Err_inv in H as [H | (u & Hm & H)]; [no_err D H |].
  destruct m; try (solve [exfalso; eapply Hk; reflexivity]); (apply bind_Err_inv in H as [H | ([x' r'] & _ & H)]; [| discriminate H]).
  all: try (solve [unfold va_instantiate, ms_instantiate, ag_instantiate, ri_instantiate, ri_save_all, pi_instantiate, mk_instantiate, ah_instantiate,
    ph_instantiate, rh_instantiate, cu_instantiate, fb_instantiate, fe_instantiate, or_instantiate, wn_instantiate, wc_instantiate in H; no_err D H]).
  - unfold mb_instantiate in H. apply bind_Err_inv in H as [H | (? & ? & H)]; [| no_err D H].
    apply ensure_Err_inv in H as [H ->]. cbn [create_cause]. rewrite <- lower_iff. congruence.
  - unfold ri_instantiate, ri_save_all in H. exfalso. apply D. revert H. apply plain_bind; [apply plain_validate | intros].
    apply plain_bind; [apply plain_foldM; intros; plainly | intros; apply plain_Ok].
  - unfold gp_instantiate in H. apply bind_Err_inv in H as [H | (? & ? & H)]; [| no_err D H].
    apply ensure_Err_inv in H as [H ->]. cbn [create_cause]. rewrite <- lower_iff. congruence.
Qed.
