(** * Paged listings. *)
From Coq Require Import List NArith Lia Bool Arith Sorted.
From Verif Require Import Base BaseFacts OMap Coins Message Hex HexFacts Chain Ownable Router
  Mailbox Va Isms Hooks Igp Warp Cw20 Contracts Spec StepFacts.
Import ListNotations.

Section Paging.
  Context {K V : Type} {OK : OrdKey K}.
  Implicit Type m : omap K V.

  Lemma filter_all {X} (f : X -> bool) l : Forall (fun x => f x = true) l -> filter f l = l.
  Proof. induction 1 as [|x l H _ IH]; cbn; [reflexivity|]. now rewrite H, IH. Qed.
  Lemma filter_none {X} (f : X -> bool) l : Forall (fun x => f x = false) l -> filter f l = [].
  Proof. induction 1 as [|x l H _ IH]; cbn; [reflexivity|]. now rewrite H. Qed.

  (** keys above the last key of a prefix *)
  Lemma filter_above m1 p m2 :
    om_sorted (m1 ++ p :: m2) ->
    filter (fun x => klt (fst p) (fst x)) (m1 ++ p :: m2) = m2.
  Proof.
    intros Hs. apply om_sorted_app in Hs as (H1 & H2 & H3).
    destruct p as [k v]. cbn [om_sorted] in H2. destruct H2 as [H2 H2'].
    rewrite filter_app. cbn [filter fst]. rewrite klt_irrefl.
    rewrite filter_none, filter_all; [reflexivity|exact H2|].
    eapply Forall_impl; [|exact H3]. intros x Hx. inversion Hx; subst. now apply klt_asym.
  Qed.

  (** keys below the first key of a suffix *)
  Lemma filter_below m1 p m2 :
    om_sorted (m1 ++ p :: m2) ->
    filter (fun x => klt (fst x) (fst p)) (m1 ++ p :: m2) = m1.
  Proof.
    intros Hs. apply om_sorted_app in Hs as (H1 & H2 & H3).
    destruct p as [k v]. cbn [om_sorted] in H2. destruct H2 as [H2 H2'].
    rewrite filter_app. cbn [filter fst]. rewrite klt_irrefl.
    rewrite (filter_all _ m1), (filter_none _ m2); [apply app_nil_r| |].
    - eapply Forall_impl; [|exact H2]. intros x Hx. now apply klt_asym.
    - eapply Forall_impl; [|exact H3]. intros x Hx. now inversion Hx.
  Qed.

  (** what is left to list after [start] *)
  Definition remaining m (start : option K) (o : option order) : omap K V :=
    match o with
    | Some Desc => rev (filter (fun p => match start with
                                         | Some k => klt (fst p) k | None => true end) m)
    | _ => filter (fun p => match start with Some k => klt k (fst p) | None => true end) m
    end.

  Lemma range_page_remaining m start lim o l :
    get_and_check_limit lim MAX_LIMIT DEFAULT_LIMIT = Ok l ->
    range_page m start lim o = Ok (firstn (N.to_nat l) (remaining m start o)).
  Proof. intros H. unfold range_page. rewrite H. cbn [bind]. destruct o as [[]|]; reflexivity. Qed.

  Definition listing m (o : option order) : omap K V :=
    match o with Some Desc => rev m | _ => m end.

  Lemma remaining_None m o : remaining m None o = listing m o.
  Proof.
    assert (H : filter (fun _ : K * V => true) m = m).
    { apply filter_all. now apply Forall_forall. }
    unfold remaining, listing. destruct o as [[]|]; now rewrite H.
  Qed.

  Lemma remaining_after m o l1 p l2 :
    om_sorted m -> listing m o = l1 ++ p :: l2 -> remaining m (Some (fst p)) o = l2.
  Proof.
    intros Hs Hl. unfold remaining, listing in *. destruct o as [[]|].
    - subst m. now apply filter_above.
    - assert (Hm : m = rev l2 ++ p :: rev l1).
      { rewrite <- (rev_involutive m), Hl, rev_app_distr. cbn. now rewrite <- app_assoc. }
      rewrite Hm in Hs |- *. rewrite filter_below by exact Hs. apply rev_involutive.
    - subst m. now apply filter_above.
  Qed.

  Lemma last_snoc {X} (l : list X) x d : last (l ++ [x]) d = x.
  Proof. induction l as [|y l IH]; [reflexivity|]. cbn. destruct l; [reflexivity|exact IH]. Qed.

  Context {E K' : Type}.
  Variables (g : K * V -> E) (key : E -> K') (kk : K -> K') (ask : option K' -> option (list E)).

  Lemma fetch_listing m lim o l :
    om_sorted m ->
    get_and_check_limit lim MAX_LIMIT DEFAULT_LIMIT = Ok l -> 0 < l ->
    (forall p, In p m -> key (g p) = kk (fst p)) ->
    (forall start, (forall k, start = Some k -> In k (om_keys m)) ->
       ask (option_map kk start)
       = match range_page m start lim o with Ok r => Some (map g r) | _ => None end) ->
    forall fuel, (length m < fuel)%nat ->
    fetch ask key fuel None = Some (map g (listing m o)).
  Proof.
    intros Hs Hlim Hl Hkey Hask.
    assert (Hlen : forall o, length (listing m o) = length m).
    { intros [[]|]; cbn; auto using rev_length. }
    assert (Hin : forall p, In p (listing m o) -> In p m).
    { intros p. unfold listing. destruct o as [[]|]; auto. intros Hp. now apply in_rev. }
    assert (Hgen : forall fuel rem done start,
      listing m o = done ++ rem -> remaining m start o = rem ->
      (forall k, start = Some k -> In k (om_keys m)) ->
      (length rem < fuel)%nat ->
      fetch ask key fuel (option_map kk start) = Some (map g rem)).
    { induction fuel as [|fuel IH]; intros rem done start Hd Hr Hst Hf; [lia|].
      cbn [fetch]. rewrite Hask by exact Hst.
      rewrite (range_page_remaining m start lim o l Hlim), Hr.
      destruct rem as [|p rem]; [now rewrite firstn_nil|].
      destruct (N.to_nat l) as [|n] eqn:En; [lia|].
      cbn [firstn map].
      set (pg := firstn n rem).
      assert (Hlast : exists l1 p', p :: pg = l1 ++ [p'] /\ last (map g pg) (g p) = g p').
      { destruct pg as [|x pg'] using rev_ind.
        - exists [], p. auto.
        - exists (p :: pg'), x. split; [reflexivity|].
          rewrite map_app. cbn [map]. apply last_snoc. }
      destruct Hlast as (l1 & p' & Hl1 & Hlast).
      assert (Hsplit : listing m o = (done ++ l1) ++ p' :: skipn n rem).
      { rewrite Hd. rewrite <- (firstn_skipn n rem) at 1. fold pg.
        rewrite app_comm_cons, Hl1, <- !app_assoc. reflexivity. }
      assert (Hp' : In p' m).
      { apply Hin. rewrite Hsplit. apply in_or_app. right. now left. }
      rewrite Hlast, Hkey by exact Hp'.
      change (Some (kk (fst p'))) with (option_map kk (Some (fst p'))).
      rewrite (IH (skipn n rem) ((done ++ l1) ++ [p']) (Some (fst p'))).
      - cbn [app]. rewrite <- map_app. unfold pg. now rewrite firstn_skipn.
      - rewrite Hsplit, <- !app_assoc. reflexivity.
      - eapply remaining_after; eauto.
      - intros k Hk. apply Some_inj in Hk as <-. apply in_map. exact Hp'.
      - rewrite skipn_length. cbn [length] in Hf. lia. }
    intros fuel Hf. apply (Hgen fuel (listing m o) [] None); auto.
    - apply remaining_None.
    - discriminate.
    - now rewrite Hlen.
  Qed.
End Paging.

(** ** Sorted storage along histories *)
Definition maps_sorted (st : cstate) : Prop :=
  match st with
  | SRoutingHook x => om_sorted (rh_routes x)
  | SCustomHook x => om_sorted (cu_routes x) /\ om_sorted (cu_hooks x)
  | SFallbackHook x => om_sorted (fb_routes x)
  | SIgp x => om_sorted (gp_routes x) /\ om_sorted (gp_gas x)
  | SWarpNative x | SWarpCw20 x => om_sorted (wp_routes x)
  | _ => True
  end.

Lemma fold_om_set_sorted {K V} {OK : OrdKey K} {X} (f : X -> K) (g : X -> V) l (m : omap K V) :
  om_sorted m -> om_sorted (fold_left (fun m x => om_set (f x) (g x) m) l m).
Proof. revert m. induction l as [|x l IH]; intros m Hm; cbn; auto using om_sorted_set. Qed.

Lemma fold_om_del_sorted {K V} {OK : OrdKey K} l (m : omap K V) :
  om_sorted m -> om_sorted (fold_left (fun m d => om_del d m) l m).
Proof. revert m. induction l as [|x l IH]; intros m Hm; cbn; auto using om_sorted_del. Qed.

Lemma router_handle_sorted o i m r r' :
  om_sorted r -> router_handle o i m r = Ok r' -> om_sorted r'.
Proof.
  unfold router_handle. intros Hs H. inv_all. destruct m; inv_all; unfold set_routes, set_route.
  - now apply om_sorted_set.
  - now apply fold_om_set_sorted.
Qed.

Lemma foldM_ind {X Y} (P : Y -> Prop) (f : Y -> X -> res Y) l y y' :
  (forall y x y', P y -> f y x = Ok y' -> P y') ->
  P y -> foldM f l y = Ok y' -> P y'.
Proof.
  intros Hf. revert y. induction l as [|x l IH]; cbn; intros y Hy H; inv_all; eauto.
Qed.

Lemma apply_sorted A ev st st' r :
  maps_sorted st -> c_apply A ev st = Ok (st', r) -> maps_sorted st'.
Proof.
  intros Hs H. destruct ev as [e i m Q|id rr].
  - cbn [c_apply] in H. unfold c_execute, lift in H.
    destruct st; inv_all; unfold_execs; try exact I;
      destruct m; try discriminate; inv_all;
      unfold_helpers; inv_all; split_matches; cbn [maps_sorted] in *; dpairs; cbn;
      try (destruct Hs as [Hs1 Hs2]; split);
      eauto using router_handle_sorted, fold_om_set_sorted, fold_om_del_sorted.
    + eapply foldM_ind; [|exact Hs2|eassumption].
      intros y x1 y' Hy Hx. cbn in Hx. unfold cu_register1 in Hx. inv_all. now apply om_sorted_set.
    + eapply foldM_ind; [|exact Hs2|eassumption].
      intros y x1 y' Hy Hx. cbn in Hx. unfold cu_register1 in Hx. inv_all. now apply om_sorted_set.
    + eapply foldM_ind; [|exact Hs2|eassumption].
      intros y x1 y' Hy Hx. cbn in Hx. inv_all. now apply om_sorted_del.
    + eapply foldM_ind; [|exact Hs2|eassumption].
      intros y x1 y' Hy Hx. cbn in Hx. inv_all. now apply om_sorted_del.
    + now apply (fold_om_set_sorted fst snd).
    + now apply fold_om_del_sorted.
  - destruct st; cbn [c_apply c_reply] in H; unfold lift in H; try discriminate;
      unfold_helpers; inv_all; split_matches; cbn; auto.
Qed.

Lemma run_sorted A st h : maps_sorted st -> maps_sorted (c_run A st h).
Proof.
  revert st. induction h as [|ev h IH]; intros st Hs; [exact Hs|].
  rewrite c_run_cons. apply IH. unfold c_step.
  destruct (c_apply A ev st) as [[x r]| |] eqn:E; auto. eapply apply_sorted; eauto.
Qed.

Lemma instantiate_sorted A q e i m st r :
  c_instantiate A q e i m = Ok (st, r) -> maps_sorted st.
Proof.
  unfold c_instantiate, lift. intros H. destruct m; inv_all; try exact I;
    unfold rh_instantiate, cu_instantiate, fb_instantiate, gp_instantiate,
      wn_instantiate, wc_instantiate in *; inv_all; split_matches; cbn; auto.
Qed.

(** ** The three listings *)
Lemma page_limit_ok lim :
  page_limit lim -> exists l, get_and_check_limit lim MAX_LIMIT DEFAULT_LIMIT = Ok l /\ 0 < l /\
    ou32_ok lim = true.
Proof.
  unfold page_limit, get_and_check_limit, MAX_LIMIT, DEFAULT_LIMIT, ou32_ok, u32_ok, u32_max.
  destruct lim as [l|]; intros H.
  - exists l. destruct (l <=? 30) eqn:E; [|apply N.leb_gt in E; lia].
    split; [reflexivity|]. split; [lia|]. apply N.ltb_lt. lia.
  - exists 10. split; [reflexivity|]. split; [lia|reflexivity].
Qed.

Lemma routes_of_sorted st r : maps_sorted st -> routes_of st = Some r -> om_sorted r.
Proof. destruct st; cbn; intros Hs H; try discriminate; apply Some_inj in H as <-; tauto. Qed.

(** u32 keys *)
Definition keys32 {V} (m : omap N V) : Prop := Forall (fun p => fst p < u32_max) m.

Definition maps_u32 (st : cstate) : Prop :=
  match st with
  | SIgp x => keys32 (gp_routes x) /\ keys32 (gp_gas x)
  | _ => match routes_of st with Some r => keys32 r | None => True end
  end.

Lemma maps_u32_routes st r : maps_u32 st -> routes_of st = Some r -> keys32 r.
Proof. destruct st; cbn; intros Hs H; try discriminate; apply Some_inj in H as <-; tauto. Qed.

Lemma u32_ok_lt n : u32_ok n = true -> n < u32_max.
Proof. intros H. exact (proj1 (N.ltb_lt _ _) H). Qed.
Lemma u32_lt_ok n : n < u32_max -> u32_ok n = true.
Proof. intros H. exact (proj2 (N.ltb_lt _ _) H). Qed.

Lemma keys32_fold {V X} (f : X -> N) (g : X -> V) l (m : omap N V) :
  forallb (fun x => u32_ok (f x)) l = true -> keys32 m ->
  keys32 (fold_left (fun m x => om_set (f x) (g x) m) l m).
Proof.
  revert m. induction l as [|x l IH]; intros m Hl Hm; cbn in *; auto.
  apply andb_true_iff in Hl as [H1 H2]. apply IH; auto.
  apply om_set_Forall; [|exact Hm]. exact (u32_ok_lt _ H1).
Qed.

Lemma keys32_del {V} l (m : omap N V) :
  keys32 m -> keys32 (fold_left (fun m d => om_del d m) l m).
Proof. revert m. induction l as [|x l IH]; intros m Hm; cbn; auto. apply IH. now apply om_del_Forall. Qed.

Lemma router_handle_u32 o i rm r r' :
  emsg_ok (MRouter rm) = true -> keys32 r -> router_handle o i rm r = Ok r' -> keys32 r'.
Proof.
  unfold router_handle. intros Hm Hs H. inv_all. destruct rm; inv_all; unfold set_routes, set_route.
  - apply om_set_Forall; [|exact Hs]. exact (u32_ok_lt _ Hm).
  - now apply keys32_fold.
Qed.

Lemma forallb_impl {X} (f g : X -> bool) l :
  (forall x, f x = true -> g x = true) -> forallb f l = true -> forallb g l = true.
Proof.
  intros H. rewrite !forallb_forall. auto.
Qed.

Lemma apply_u32 A ev st st' r :
  maps_u32 st -> c_apply A ev st = Ok (st', r) -> maps_u32 st'.
Proof.
  intros Hs H. destruct ev as [e i m Q|id rr].
  - cbn [c_apply] in H. unfold c_execute, lift in H.
    destruct st; inv_all; unfold_execs; try exact I;
      destruct m; try discriminate; inv_all;
      unfold_helpers; inv_all; split_matches; cbn [maps_u32 routes_of] in *; dpairs; cbn;
      try (destruct Hs as [Hs1 Hs2]; split);
      eauto using router_handle_u32, keys32_del.
    + apply (keys32_fold fst snd); [|exact Hs2]. cbn [emsg_ok] in Hr.
      eapply forallb_impl; [|exact Hr]. intros x0 Hx. now apply andb_true_iff in Hx.
  - destruct st; cbn [c_apply c_reply] in H; unfold lift in H; try discriminate;
      unfold_helpers; inv_all; split_matches; cbn; auto.
Qed.

Lemma run_u32 A st h : maps_u32 st -> maps_u32 (c_run A st h).
Proof.
  revert st. induction h as [|ev h IH]; intros st Hs; [exact Hs|].
  rewrite c_run_cons. apply IH. unfold c_step.
  destruct (c_apply A ev st) as [[x r]| |] eqn:E; auto. eapply apply_u32; eauto.
Qed.

Lemma instantiate_u32 A q e i m st r :
  c_instantiate A q e i m = Ok (st, r) -> maps_u32 st.
Proof.
  unfold c_instantiate, lift. intros H. destruct m; inv_all; try exact I;
    unfold rh_instantiate, cu_instantiate, fb_instantiate, gp_instantiate,
      wn_instantiate, wc_instantiate in *; inv_all; split_matches; cbn; repeat split; constructor.
Qed.

Lemma map_listing {K V E} (f : K * V -> E) (m : omap K V) o :
  map f (listing m o) = in_order o (map f m).
Proof. unfold listing, in_order. destruct o as [[]|]; auto. apply map_rev. Qed.

Lemma routes_listing st r lim o :
  maps_sorted st -> maps_u32 st -> routes_of st = Some r -> page_limit lim ->
  forall fuel, (length r < fuel)%nat ->
  fetch (ask_routes st lim o) rs_domain fuel None
  = Some (in_order o (map (fun p => mkRouteSet (fst p) (snd p)) r)).
Proof.
  intros Hs Hu Hr Hlim fuel Hf.
  destruct (page_limit_ok lim Hlim) as (l & Hl & Hpos & Hok).
  rewrite <- (map_listing (fun p => mkRouteSet (fst p) (snd p)) r o).
  apply (fetch_listing (fun p : N * option bytes => mkRouteSet (fst p) (snd p)) rs_domain (fun k => k)
           (ask_routes st lim o) r lim o l); auto.
  - eapply routes_of_sorted; eauto.
  - intros start Hst. unfold ask_routes, c_query.
    assert (E : qmsg_ok (QListRoutes (option_map (fun k => k) start) lim o) = true).
    { cbn [qmsg_ok]. rewrite Hok, andb_true_r. destruct start as [k|]; [|reflexivity]. cbn.
      apply u32_lt_ok. specialize (Hst k eq_refl). apply in_map_iff in Hst as (p & <- & Hp).
      pose proof (maps_u32_routes st r Hu Hr) as Hk. unfold keys32 in Hk.
      rewrite Forall_forall in Hk. now apply Hk. }
    rewrite E. cbn [ensure bind].
    assert (E2 : option_map (fun k : N => k) start = start) by (now destruct start).
    rewrite E2.
    destruct st; try discriminate; cbn in Hr; apply Some_inj in Hr as <-;
      cbn [rh_query cu_query fb_query gp_query wn_query wc_query wp_query router_query];
      unfold wn_query, wc_query, wp_query, router_query, get_routes;
      destruct (range_page _ _ _ _); reflexivity.
Qed.

Definition gas_of (st : cstate) : option (omap N N) :=
  match st with SIgp x => Some (gp_gas x) | _ => None end.

Lemma gas_listing st m lim o :
  maps_sorted st -> maps_u32 st -> gas_of st = Some m -> page_limit lim ->
  forall fuel, (length m < fuel)%nat ->
  fetch (ask_gas st lim o) fst fuel None = Some (in_order o m).
Proof.
  intros Hs Hu Hr Hlim fuel Hf.
  destruct (page_limit_ok lim Hlim) as (l & Hl & Hpos & Hok).
  destruct st; try discriminate. cbn in Hr. apply Some_inj in Hr as <-.
  destruct Hs as [Hs1 Hs2], Hu as [Hu1 Hu2].
  rewrite <- (map_id (gp_gas x)) at 1. rewrite <- (map_listing (fun p => p)).
  apply (fetch_listing (fun p : N * N => p) fst (fun k => k)
           (ask_gas (SIgp x) lim o) (gp_gas x) lim o l); auto.
  intros start Hst. unfold ask_gas, c_query.
  assert (E : qmsg_ok (QListGas (option_map (fun k => k) start) lim o) = true).
  { cbn [qmsg_ok]. rewrite Hok, andb_true_r. destruct start as [k|]; [|reflexivity]. cbn.
    apply u32_lt_ok. specialize (Hst k eq_refl). apply in_map_iff in Hst as (p & <- & Hp).
    unfold keys32 in Hu2. rewrite Forall_forall in Hu2. now apply Hu2. }
  rewrite E. cbn [ensure bind gp_query].
  assert (E2 : option_map (fun k : N => k) start = start) by (now destruct start).
  rewrite E2.
  destruct (range_page _ _ _ _); cbn; [|reflexivity|reflexivity]. now rewrite map_id.
Qed.

(** ** Custom hooks of one destination *)
Lemma cu_prefix_In d r h m : In (r, h) (cu_prefix d m) <-> In ((d, r), h) m.
Proof.
  unfold cu_prefix. rewrite in_map_iff. split.
  - intros ([[d' r'] h'] & E & Hin). apply filter_In in Hin as [Hin Hd]. cbn in *.
    apply N.eqb_eq in Hd as ->. now injection E as -> ->.
  - intros Hin. exists ((d, r), h). split; [reflexivity|]. apply filter_In. split; [exact Hin|].
    apply N.eqb_refl.
Qed.

Lemma cu_prefix_sorted d m : om_sorted m -> om_sorted (cu_prefix d m).
Proof.
  induction m as [|[[d' r'] h'] m IH]; intros Hs; [exact I|].
  cbn [om_sorted] in Hs. destruct Hs as [H1 H2].
  unfold cu_prefix. cbn [filter fst snd]. destruct (d' =? d) eqn:E; [|exact (IH H2)].
  cbn [map fst snd om_sorted]. split; [|exact (IH H2)].
  apply N.eqb_eq in E as ->.
  apply Forall_forall. intros [r h] Hin. apply cu_prefix_In in Hin.
  rewrite Forall_forall in H1. specialize (H1 _ Hin). cbn in H1 |- *.
  unfold pair_ltb in H1. cbn in H1. now rewrite N.ltb_irrefl in H1.
Qed.

Lemma hooks_listing x d lim o :
  maps_sorted (SCustomHook x) -> d < u32_max -> page_limit lim ->
  let m := cu_prefix d (cu_hooks x) in
  forall fuel, (length m < fuel)%nat ->
  fetch (ask_hooks (SCustomHook x) d lim o) ch_recipient fuel None
  = Some (in_order o (map (fun p => mkCustomHook d (hex_encode (fst p)) (snd p)) m)).
Proof.
  intros [_ Hs] Hd Hlim m fuel Hf.
  destruct (page_limit_ok lim Hlim) as (l & Hl & Hpos & Hok).
  rewrite <- (map_listing (fun p => mkCustomHook d (hex_encode (fst p)) (snd p)) m o).
  apply (fetch_listing (fun p : bytes * addr => mkCustomHook d (hex_encode (fst p)) (snd p))
           ch_recipient hex_encode (ask_hooks (SCustomHook x) d lim o) m lim o l); auto.
  - now apply cu_prefix_sorted.
  - intros start Hst. unfold ask_hooks, c_query.
    assert (E : qmsg_ok (QCustomHooks d (option_map hex_encode start) lim o) = true).
    { cbn [qmsg_ok]. rewrite Hok, andb_true_r. now apply u32_lt_ok. }
    rewrite E. cbn [ensure bind cu_query]. unfold cu_list.
    assert (E2 : match option_map hex_encode start with
                 | Some t => v <- hex_decode t ;; Ok (Some v)
                 | None => Ok None end = Ok start).
    { destruct start as [k|]; [|reflexivity]. cbn [option_map]. now rewrite hex_decode_encode. }
    rewrite E2. cbn [bind]. fold m. destruct (range_page _ _ _ _); reflexivity.
Qed.

(** ** The statements, in terms of the other queries *)
Lemma reported_domains_of st : reported_domains st = option_map om_keys (routes_of st).
Proof. destruct st; reflexivity. Qed.

Lemma sorted_ascending {K V} {OK : OrdKey K} (m : omap K V) :
  om_sorted m -> ascending klt (om_keys m).
Proof.
  induction m as [|[k v] m IH]; cbn; intros Hs; [constructor|].
  destruct Hs as [H1 H2]. constructor; [exact (IH H2)|].
  apply Forall_map. exact H1.
Qed.

Lemma routes_pages A q e i im st0 r0 h ds lim o :
  c_instantiate A q e i im = Ok (st0, r0) ->
  let st := c_run A st0 h in
  reported_domains st = Some ds -> page_limit lim ->
  ascending N.ltb ds /\
  forall fuel, (length ds < fuel)%nat ->
  fetch (ask_routes st lim o) rs_domain fuel None
  = Some (in_order o (map (fun d => mkRouteSet d
            (match reported_route st d with Some x => x | None => None end)) ds)).
Proof.
  intros Hi st Hds Hlim.
  pose proof (run_sorted A st0 h (instantiate_sorted _ _ _ _ _ _ _ Hi)) as Hs.
  pose proof (run_u32 A st0 h (instantiate_u32 _ _ _ _ _ _ _ Hi)) as Hu. fold st in Hs, Hu.
  rewrite reported_domains_of in Hds.
  destruct (routes_of st) as [m|] eqn:Em; [|discriminate].
  cbn in Hds. apply Some_inj in Hds as <-.
  pose proof (routes_of_sorted st m Hs Em) as Hsm.
  split; [exact (sorted_ascending m Hsm)|].
  intros fuel Hf. unfold om_keys in Hf. rewrite map_length in Hf.
  rewrite (routes_listing st m lim o Hs Hu Em Hlim fuel Hf).
  do 2 f_equal. unfold om_keys. rewrite map_map. apply map_ext_in.
  intros [d v] Hin. cbn [fst snd]. f_equal.
  assert (Hd : d < u32_max).
  { pose proof (maps_u32_routes st m Hu Em) as Hk. unfold keys32 in Hk.
    rewrite Forall_forall in Hk. apply (Hk _ Hin). }
  rewrite reported_route_of by exact Hd. rewrite Em. cbn.
  unfold load_route. rewrite (om_sorted_In_get d v m Hsm Hin). now destruct v.
Qed.

Lemma reported_gas_of x d : d < u32_max -> reported_gas (SIgp x) d = om_get d (gp_gas x).
Proof.
  intros Hd. unfold reported_gas, c_query. cbn [qmsg_ok forallb].
  rewrite (u32_lt_ok d Hd). cbn [andb ensure bind gp_query mapM].
  destruct (om_get d (gp_gas x)); reflexivity.
Qed.

Lemma gas_pages A q e i hrp ow tk bn gas st0 r0 h lim o :
  c_instantiate A q e i (IIgp hrp ow tk bn gas) = Ok (st0, r0) -> page_limit lim ->
  let st := c_run A st0 h in
  exists l,
    ascending N.ltb (map fst l) /\
    (forall d g, d < u32_max -> In (d, g) l <-> reported_gas st d = Some g) /\
    forall fuel, (length l < fuel)%nat ->
      fetch (ask_gas st lim o) fst fuel None = Some (in_order o l).
Proof.
  intros Hi Hlim st.
  pose proof (run_sorted A st0 h (instantiate_sorted _ _ _ _ _ _ _ Hi)) as Hs.
  pose proof (run_u32 A st0 h (instantiate_u32 _ _ _ _ _ _ _ Hi)) as Hu. fold st in Hs, Hu.
  assert (Hk : kind st = 14).
  { unfold st. rewrite run_kind. unfold c_instantiate, lift in Hi. inv_all. reflexivity. }
  destruct st as [| | | | | | | | | | | | | |x| | |] eqn:Est; try discriminate.
  exists (gp_gas x). split; [|split].
  - exact (sorted_ascending _ (proj2 Hs)).
  - intros d g Hd. rewrite reported_gas_of by exact Hd. split.
    + apply om_sorted_In_get. exact (proj2 Hs).
    + apply om_get_In.
  - intros fuel Hf. now apply (gas_listing (SIgp x) (gp_gas x)).
Qed.

Lemma hooks_pages A q e i ow st0 r0 h d lim o :
  c_instantiate A q e i (ICustomHook ow) = Ok (st0, r0) -> d < u32_max -> page_limit lim ->
  let st := c_run A st0 h in
  exists l,
    ascending bytes_ltb (map ch_recipient l) /\
    (forall c, In c l <-> ch_dest c = d /\ reported_hook st d (ch_recipient c) = Some c) /\
    forall fuel, (length l < fuel)%nat ->
      fetch (ask_hooks st d lim o) ch_recipient fuel None = Some (in_order o l).
Proof.
  intros Hi Hd Hlim st.
  pose proof (run_sorted A st0 h (instantiate_sorted _ _ _ _ _ _ _ Hi)) as Hs. fold st in Hs.
  assert (Hk : kind st = 10).
  { unfold st. rewrite run_kind. unfold c_instantiate, lift in Hi. inv_all. reflexivity. }
  destruct st as [| | | | | | | | | |x| | | | | | |] eqn:Est; try discriminate.
  pose proof (cu_prefix_sorted d _ (proj2 Hs)) as Hp.
  set (m := cu_prefix d (cu_hooks x)) in *.
  exists (map (fun p => mkCustomHook d (hex_encode (fst p)) (snd p)) m). split; [|split].
  - rewrite map_map. cbn [ch_recipient].
    pose proof (sorted_ascending m Hp) as Ha. clearbody m. clear - Ha.
    induction m as [|[k v] m IH]; [constructor|]. cbn [om_keys map] in *.
    inversion Ha as [|? ? H1 H2]; subst. constructor; [exact (IH H1)|].
    apply Forall_map. apply Forall_map in H2. eapply Forall_impl; [|exact H2].
    intros [k' v'] Hlt. cbn in *. now apply hex_encode_ltb.
  - intros c. rewrite in_map_iff. unfold reported_hook, c_query. cbn [qmsg_ok].
    rewrite (u32_lt_ok d Hd). cbn [ensure bind cu_query]. split.
    + intros ([r hk] & <- & Hin). cbn. split; [reflexivity|].
      rewrite hex_decode_encode. cbn [bind]. apply cu_prefix_In in Hin.
      rewrite (om_sorted_In_get _ _ _ (proj2 Hs) Hin). reflexivity.
    + intros [E Hq]. destruct (hex_decode (ch_recipient c)) as [v| |] eqn:Ev; try discriminate.
      cbn [bind] in Hq. destruct (om_get (d, v) (cu_hooks x)) as [hk|] eqn:Eh; [|discriminate].
      cbn in Hq. apply Some_inj in Hq as <-. exists (v, hk). split; [reflexivity|].
      apply cu_prefix_In. now apply om_get_In.
  - intros fuel Hf. rewrite map_length in Hf. now apply hooks_listing.
Qed.
