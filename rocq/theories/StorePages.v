(** * What queries about maps answer, read from the database. *)
From Coq Require Import List NArith Bool Lia Arith.
From Verif Require Import Base BaseFacts OMap Crypto Coins Hex Merkle Json Chain Ownable Router Utils Mailbox Va
  Isms Hooks Igp Warp Cw20 Contracts Wire WireQuery SpecWire WireFacts StepFacts Store StoreFacts SpecStore StoreState StoreFrame.
Import ListNotations.

Lemma section_prefix ns : section ns = prefix [ns].
Proof. unfold section. rewrite <- path_entry. apply app_nil_r. Qed.
Lemma custom_prefix d : custom_section d = prefix [s "custom_hooks"; u32_key d].
Proof.
  unfold custom_section, custom, entry, prefix, flat_map, named, u32_key, domain. rewrite !app_nil_r, be_length, <- app_assoc. reflexivity.
Qed.

(** the routes of a contract *)
Lemma routed_cell st : routed st = true -> stored st ->
  exists r, routes_of st = Some r /\ In (routes_cell (hex_router st) r) (cells st) /\ routes_held (hex_router st) r.
Proof.
  intros R W. destruct st as [x|x|x|x|x|x|x|x|x|x|x|x|x|x|x|x|x|x]; try discriminate R; cbn [routes_of hex_router stored] in *; eexists;
    (split; [reflexivity|split; [here|first [exact W|apply W]]]).
Qed.
Lemma router_asked A q m st r : routed st = true -> routes_of st = Some r -> qmsg_ok m = true ->
  match m with QDomains | QGetRoute _ | QListRoutes _ _ _ => True | _ => False end -> c_query A q m st = router_query m r.
Proof.
  intros R E O M. unfold c_query. rewrite O. cbn [ensure bind].
  destruct st as [x|x|x|x|x|x|x|x|x|x|x|x|x|x|x|x|x|x]; try discriminate R; injection E as <-; destruct m; try contradiction; reflexivity.
Qed.

Section Routes.
  Context (A : api) (q : querier) (v : cw2) (st : cstate).
  Hypothesis (W : stored st) (R : routed st = true).
  Let h := hex_router st.
  Let d := storage v st.
  Lemma page_routes off lim o : qmsg_ok (QListRoutes off lim o) = true ->
    c_query A q (QListRoutes off lim o) st
    = (l <- load_page u32_key u32_back (option_c (route_c h)) (section (s "routes")) off lim o d ;;
       Ok (RRoutes (map (fun p => mkRouteSet (fst p) (snd p)) l))).
  Proof.
    intros O. destruct (routed_cell st R W) as (r & E & I & H). rewrite (router_asked A q (QListRoutes off lim o) st r R E O Logic.I). rewrite section_prefix.
    unfold d, storage. rewrite (load_page_table u32_ok u32_key u32_back kind_u32 (option_c (route_c h)) _ (s "routes") r off lim o).
    - unfold router_query, get_routes. now destruct (range_page r off lim o).
    - now apply cells_neat.
    - right. exact I.
    - auto with store.
    - exact H.
    - now apply tame_name.
    - cbn [qmsg_ok] in O. apply andb_true_iff in O as [O _]. destruct off as [k|]; [exact O|exact Logic.I].
  Qed.
  Lemma read_route n : u32_ok n = true ->
    c_query A q (QGetRoute n) st = Ok (RRoute (mkRouteSet n (load_route h n d))).
  Proof.
    intros O. destruct (routed_cell st R W) as (r & E & I & H). rewrite (router_asked A q (QGetRoute n) st r R E O Logic.I).
    cbn [router_query]. f_equal. f_equal. unfold get_route. f_equal.
    unfold load_route, load, may_load, Router.load_route. unfold d, storage, path.
    rewrite (table_get u32_key (option_c (route_c h)) _ (s "routes") r) by (first [now apply cells_neat|right; exact I]).
    rewrite (rows_get _ _ _ kind_u32 (option_c (route_c h)) r n H O). destruct (om_get n r) as [[b|]|] eqn:G; cbn [option_map].
    - assert (K : value_read (route_c h) (value_text (option_c (route_c h)) (Some b)) = Some b)
        by (apply (kept_good (route_c h) (good_route h) b); unfold h; destruct (hex_router st); reflexivity).
      now rewrite K.
    - assert (K : value_read (route_c h) (value_text (option_c (route_c h)) None) = None) by (unfold h; destruct (hex_router st); reflexivity).
      now rewrite K.
    - reflexivity.
  Qed.
  Lemma read_domains : c_query A q QDomains st = (l <- load_routes h d ;; Ok (RDomains (map fst l))).
  Proof.
    destruct (routed_cell st R W) as (r & E & I & H). rewrite (router_asked A q QDomains st r R E eq_refl Logic.I).
    unfold d. rewrite (read_routes v st W h r I H). reflexivity.
  Qed.
End Routes.

Lemma page_gas A q v x off lim o : stored (SIgp x) -> qmsg_ok (QListGas off lim o) = true ->
  c_query A q (QListGas off lim o) (SIgp x)
  = (l <- load_page u32_key u32_back u128_c (section (s "gas_for_domain")) off lim o (storage v (SIgp x)) ;; Ok (RGasList l)).
Proof.
  intros W O. unfold c_query. rewrite O. cbn [ensure bind gp_query]. rewrite section_prefix. unfold storage.
  rewrite (load_page_table u32_ok u32_key u32_back kind_u32 u128_c _ (s "gas_for_domain") (gp_gas x) off lim o); [reflexivity|..].
  - now apply cells_neat.
  - right. here.
  - auto with store.
  - apply W.
  - now apply tame_name.
  - cbn [qmsg_ok] in O. apply andb_true_iff in O as [O _]. destruct off as [k|]; [exact O|exact I].
Qed.
Lemma page_custom A q v x n off lim o : stored (SCustomHook x) -> qmsg_ok (QCustomHooks n off lim o) = true ->
  c_query A q (QCustomHooks n off lim o) (SCustomHook x)
  = (start <- match off with Some t => r <- hex_decode t ;; Ok (Some r) | None => Ok None end ;;
     l <- load_page (fun k => k) octets_back string_c (custom_section n) start lim o (storage v (SCustomHook x)) ;;
     Ok (RCustomHooks (map (fun p => mkCustomHook n (hex_encode (fst p)) (snd p)) l))).
Proof.
  intros W O. unfold c_query. rewrite O. cbn [ensure bind cu_query qmsg_ok] in *. apply andb_true_iff in O as [O _]. unfold cu_list.
  destruct (match off with Some t => r <- hex_decode t ;; Ok (Some r) | None => Ok None end) as [start|e|]; cbn [bind]; try reflexivity.
  rewrite custom_prefix. unfold storage.
  rewrite (load_page_sub _ (s "custom_hooks") (cu_hooks x) n start lim o); [|now apply cells_neat|right; here|apply W|exact O].
  now destruct (range_page (cu_prefix n (cu_hooks x)) start lim o).
Qed.
Lemma read_validators A q v x : stored (SVa x) ->
  c_query A q QValidators (SVa x)
  = (l <- load_all octets_back nothing_c (s "validators") (storage v (SVa x)) ;; Ok (RValidators (map (fun p => hex_encode (fst p)) l))).
Proof.
  intros W. rewrite (read_bytes v _ W (s "validators") nothing_c (va_validators x)) by (first [reflexivity|apply W|solve [auto with store]|here]).
  unfold c_query. cbn [qmsg_ok ensure bind va_query]. unfold om_keys. rewrite map_map. reflexivity.
Qed.

(** ** The version, and all of it *)
Lemma read_version v st : stored st -> load version_c (s "contract_info") (storage v st) = Ok v.
Proof. intros W. apply load_item; [now apply cells_neat|now left|auto with store|reflexivity]. Qed.
Lemma same_database v v' st st' : stored st -> stored st' -> (forall x, st <> SCw20 x) -> (forall x, st' <> SCw20 x) ->
  program_of st = program_of st' -> storage v st = storage v' st' -> st = st' /\ v = v'.
Proof.
  intros W W' N N' P E. pose proof (read_back v st W N) as R. rewrite P, E, (read_back v' st' W' N') in R.
  pose proof (read_version v st W) as V. rewrite E, (read_version v' st' W') in V.
  apply Ok_inj in R, V. now subst.
Qed.
