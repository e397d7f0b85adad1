(** * Warp routes on chains: what two connected routes exchange. *)
From Coq Require Import List NArith Bool Lia Permutation.
From Verif Require Import Base BaseFacts OMap Crypto Bech32 Message CodecFacts Coins CoinsFacts Chain Ownable Router
  Mailbox Va Isms Hooks Igp Warp Cw20 Contracts Spec SpecModules StepFacts AccessFacts MailboxConfFacts MailboxFacts
  IsmFacts HookFacts WarpFacts World SpecWorld WorldFacts WorldMailbox WorldMerkle SpecBridge.
Import ListNotations.

Lemma Forall2_weaken {X Y} (R R' : X -> Y -> Prop) l l' :
  (forall x y, R x y -> R' x y) -> Forall2 R l l' -> Forall2 R' l l'.
Proof. intros H. induction 1; constructor; auto. Qed.

Lemma Forall2_in_l {X Y} (R : X -> Y -> Prop) l l' :
  Forall2 R l l' -> Forall2 (fun x y => In x l /\ R x y) l l'.
Proof.
  induction 1 as [| x y l l' H F IH]; constructor; [split; [now left | exact H] |].
  eapply Forall2_weaken; [| exact IH]. intros a b [H1 H2]. split; [now right | exact H2].
Qed.
Lemma Forall2_in_r {X Y} (R : X -> Y -> Prop) l l' y :
  Forall2 R l l' -> In y l' -> exists x, In x l /\ R x y.
Proof.
  induction 1 as [| a b l l' H F IH]; intros Hin; [destruct Hin |].
  destruct Hin as [-> | Hin]; [exists a; split; [now left | exact H] |].
  destruct (IH Hin) as (x & H1 & H2). exists x. split; [now right | exact H2].
Qed.

Lemma Forall2_in_left {X Y} (R : X -> Y -> Prop) l l' x :
  Forall2 R l l' -> In x l -> exists y, In y l' /\ R x y.
Proof.
  induction 1 as [| a b l l' H F IH]; intros Hin; [destruct Hin |].
  destruct Hin as [-> | Hin]; [exists b; split; [now left | exact H] |].
  destruct (IH Hin) as (y & H1 & H2). exists y. split; [now right | exact H2].
Qed.
Lemma Permutation_filter {X} (f : X -> bool) l l' : Permutation l l' -> Permutation (filter f l) (filter f l').
Proof.
  induction 1 as [| x l l' H IH | x y l | l1 l2 l3 H1 IH1 H2 IH2]; cbn [filter].
  - constructor.
  - destruct (f x); [now constructor | exact IH].
  - destruct (f x), (f y); first [apply perm_swap | apply Permutation_refl].
  - eapply perm_trans; eauto.
Qed.

(** ** Amounts in payloads *)
Lemma named_amount_parts rcp n tail :
  length rcp = 32%nat -> n < 2 ^ 256 -> named_amount (rcp ++ be 32 n ++ tail) = n.
Proof.
  intros L B. unfold named_amount.
  rewrite skipn_app, L, PeanoNat.Nat.sub_diag, skipn_all2 by lia. cbn [app skipn].
  rewrite firstn_app, be_length, PeanoNat.Nat.sub_diag, firstn_all2 by (rewrite be_length; lia).
  cbn [firstn]. rewrite app_nil_r. change (be 32 n) with (be32 n). now apply of_be_be32.
Qed.

Lemma named_amount_proper rcp n : length rcp = 32%nat -> n < 2 ^ 128 -> named_amount (rcp ++ be 32 n) = n.
Proof.
  intros L B. rewrite <- (app_nil_r (be 32 n)). apply named_amount_parts; [exact L |].
  eapply N.lt_trans; [exact B |]. reflexivity.
Qed.

(** ** One answer of a warp route *)
Definition dispatch_in (m : cmsg) : list (addr * dispatch_msg) :=
  match m with CExec b (MDispatch dm) _ => [(b, dm)] | _ => [] end.

Lemma silent_warp A st ev st' r :
  is_warp st -> c_apply A ev st = Ok (st', r) -> transfer_of (ev, r) = [] -> arrival_of (ev, r) = [] -> r_msgs r = [].
Proof.
  intros Hk H T V. destruct ev as [e i m Q | id rr].
  - destruct m; try discriminate T; try discriminate V;
      destruct st as [ | | | | | | | | | | | | | | |x|x|]; try contradiction Hk;
      cbn [c_apply] in H; unfold c_execute, lift in H; inv_all; cbn [wn_execute wc_execute] in *;
      match goal with Hc : wp_common _ _ _ _ = Ok _ |- _ => exact (common_silent _ _ _ _ _ _ Hc) end.
  - destruct st as [ | | | | | | | | | | | | | | |x|x|]; try contradiction Hk;
      cbn [c_apply c_reply] in H; unfold lift in H; inv_all; unfold wn_reply, wc_reply in *; split_matches; inv_all;
      reflexivity.
Qed.

Lemma warp_transfer A Q e i d rcp n hook md st st' r :
  is_warp st -> c_execute A Q e i (MTransferRemote d rcp n hook md) st = Ok (st', r) ->
  d < 2 ^ 32 /\ n < 2 ^ 128 /\
  exists mb router dm,
    warp_mailbox st = Some mb /\ reported_route st d = Some (Some router) /\
    flat_map dispatch_in (map sm_msg (r_msgs r)) = [(mb, dm)] /\
    d_dest dm = d /\ d_recipient dm = router /\ d_body dm = rcp ++ be 32 n.
Proof.
  intros Hk H. destruct st as [ | | | | | | | | | | | | | | |x|x|] eqn:Es; try contradiction Hk; rewrite <- Es in *.
  - apply native_transfer in H; [|subst st; exact I].
    destruct H as (D & B & _ & _ & tk & rt & mb & rest & _ & H3 & Hm & _ & ->). split; [exact D |]. split; [exact B |].
    exists mb, rt. eexists. split; [exact Hm |]. split; [exact H3 |]. unfold plain. cbn [r_msgs].
    rewrite map_map. cbn [sm_msg]. rewrite map_id.
    destruct (mode_eqb (reported_mode st) Bridged); cbn [app flat_map dispatch_in transfer_dispatch]; split; try reflexivity;
      cbn [d_dest d_recipient d_body]; auto.
  - apply cw20_transfer in H; [|subst st; exact I].
    destruct H as (D & B & _ & _ & tk & rt & mb & _ & H3 & Hm & ->). split; [exact D |]. split; [exact B |].
    exists mb, rt. eexists. split; [exact Hm |]. split; [exact H3 |]. unfold plain. cbn [r_msgs].
    rewrite map_map. cbn [sm_msg]. rewrite map_id.
    destruct (mode_eqb (reported_mode st) Bridged); cbn [app flat_map dispatch_in transfer_dispatch]; split; try reflexivity;
      cbn [d_dest d_recipient d_body]; auto.
Qed.

Lemma warp_arrival A Q e i o sd bd st st' r :
  is_warp st -> c_execute A Q e i (MHandle o sd bd) st = Ok (st', r) ->
  o < 2 ^ 32 /\ warp_mailbox st = Some (i_sender i) /\ reported_route st o = Some (Some sd) /\
  named_amount bd < 2 ^ 128 /\ flat_map dispatch_in (map sm_msg (r_msgs r)) = [].
Proof.
  intros Hk H. destruct st as [ | | | | | | | | | | | | | | |x|x|] eqn:Es; try contradiction Hk; rewrite <- Es in *.
  - apply native_delivery in H; [|subst st; exact I].
    destruct H as (rc & am & tk & (D & M & R & B & rcp & tail & -> & L & _) & _ & _ & ->).
    rewrite named_amount_parts; [| exact L | eapply N.lt_trans; [exact B | reflexivity]].
    repeat split; auto. unfold plain. cbn [r_msgs]. destruct (mode_eqb (reported_mode st) Bridged); reflexivity.
  - apply cw20_delivery in H; [|subst st; exact I].
    destruct H as (rc & am & tk & (D & M & R & B & rcp & tail & -> & L & _) & _ & _ & ->).
    rewrite named_amount_parts; [| exact L | eapply N.lt_trans; [exact B | reflexivity]].
    repeat split; auto. unfold plain. cbn [r_msgs]. destruct (mode_eqb (reported_mode st) Bridged); reflexivity.
Qed.

Lemma warp_apply A st ev st' r : is_warp st -> c_apply A ev st = Ok (st', r) ->
  is_warp st' /\ warp_mailbox st' = warp_mailbox st.
Proof.
  intros Hk H. assert (E : st' = c_step A st ev) by (unfold c_step; now rewrite H). subst st'.
  split; [now apply warp_keep |]. exact (proj1 (warp_fixed_step A st ev Hk)).
Qed.

(** ** A whole life *)
Lemma last_update_from d l x : last_update d l None = Some x ->
  exists r, In r l /\ rs_domain r = d /\ rs_route r = Some x.
Proof.
  unfold last_update. destruct (find _ (rev l)) as [r|] eqn:E; [| discriminate].
  intros H. apply find_some in E as [E1 E2]. apply in_rev in E1. apply N.eqb_eq in E2. eauto.
Qed.

Lemma lives_updates A st h st' : lives A st h st' ->
  updates A st (map fst h) = flat_map route_updates (map fst h).
Proof.
  intros L. unfold updates. rewrite <- (lives_accepted _ _ _ _ L) at 2.
  rewrite !flat_map_concat_map, map_map. reflexivity.
Qed.

(** routers in use were enrolled *)
Lemma lives_route A q e i m st0 r0 h st d x :
  c_instantiate A q e i m = Ok (st0, r0) -> is_warp st0 -> lives A st0 h st -> d < 2 ^ 32 ->
  reported_route st d = Some (Some x) ->
  exists r, In r (flat_map route_updates (map fst h)) /\ rs_domain r = d /\ rs_route r = Some x.
Proof.
  intros Hi Hk L Hd H.
  destruct (reported_route st0 d) as [y|] eqn:E0.
  2: { rewrite reported_route_of in E0 by exact Hd. destruct st0; try contradiction Hk; discriminate E0. }
  destruct (route_last_update A q e i m st0 r0 (map fst h) d y Hi Hd E0) as [-> E].
  rewrite (lives_run _ _ _ _ L), H, (lives_updates _ _ _ _ L) in E.
  apply Some_inj in E. symmetry in E. now apply last_update_from in E.
Qed.

(** the transfers of a route, its dispatches, and the routers it addressed *)
Definition matches_transfer (mb : addr) (h : list event) (t : N * bytes * N) (p : addr * dispatch_msg) : Prop :=
  fst p = mb /\ d_dest (snd p) = fst (fst t) /\ d_body (snd p) = snd (fst t) ++ be 32 (snd t) /\
  snd t < 2 ^ 128 /\
  exists r, In r (flat_map route_updates h) /\ rs_domain r = d_dest (snd p) /\ rs_route r = Some (d_recipient (snd p)).

Lemma matches_more mb h h' t p : matches_transfer mb h t p -> matches_transfer mb (h ++ h') t p.
Proof.
  intros (H1 & H2 & H3 & H4 & r & H5 & H6). repeat split; auto. exists r. split; [| exact H6].
  rewrite flat_map_app. apply in_or_app. now left.
Qed.

Lemma lives_transfers A q e i m st0 r0 mb h st :
  c_instantiate A q e i m = Ok (st0, r0) -> is_warp st0 -> warp_mailbox st0 = Some mb -> lives A st0 h st ->
  is_warp st /\ warp_mailbox st = Some mb /\
  Forall2 (matches_transfer mb (map fst h)) (flat_map transfer_of h)
    (flat_map dispatch_in (flat_map (fun p => map sm_msg (r_msgs (snd p))) h)) /\
  Forall (fun p => match p with
     | (EvExec _ i (MHandle o sd bd) _, _) => i_sender i = mb /\ named_amount bd < 2 ^ 128 /\
         exists r, In r (flat_map route_updates (map fst h)) /\ rs_domain r = o /\ rs_route r = Some sd
     | _ => True end) h.
Proof.
  intros Hi Hk0 Hm0. induction 1 as [| h st1 ev st2 r L IH H].
  - repeat split; auto; constructor.
  - destruct (IH) as (Hk & Hm & F & G).
    destruct (warp_apply _ _ _ _ _ Hk H) as [Hk2 Hm2].
    split; [exact Hk2 |]. split; [congruence |].
    rewrite !flat_map_app, map_app. split.
    + apply Forall2_app.
      * eapply Forall2_weaken; [| exact F]. intros t p. apply matches_more.
      * cbn [flat_map snd map]. rewrite !app_nil_r.
        destruct ev as [e' i' m' Q | id rr].
        2: { rewrite (silent_warp _ _ _ _ _ Hk H eq_refl eq_refl). constructor. }
        destruct m'; try (rewrite (silent_warp _ _ _ _ _ Hk H eq_refl eq_refl); constructor).
        -- cbn [c_apply] in H. apply warp_arrival in H as (_ & _ & _ & _ & E); [| exact Hk].
           rewrite E. constructor.
        -- cbn [c_apply] in H. apply warp_transfer in H as (D & B & mb' & rt & dm & M1 & R & E & E1 & E2 & E3); [| exact Hk].
           rewrite E. cbn [transfer_of]. constructor; [| constructor].
           assert (mb' = mb) by congruence. subst mb'.
           destruct (lives_route _ _ _ _ _ _ _ _ _ _ _ Hi Hk0 L D R) as (ru & U1 & U2 & U3).
           cbn [fst snd]. unfold matches_transfer. cbn [fst snd]. repeat split; auto.
           exists ru. rewrite E1, E2. split; [| auto]. rewrite flat_map_app. apply in_or_app. now left.
    + apply Forall_app. split.
      * eapply Forall_impl; [| exact G]. intros [[e' i' m' Q | id rr] r']; [| auto]. destruct m'; auto.
        intros (E1 & E2 & ru & U1 & U2). split; [exact E1 |]. split; [exact E2 |]. exists ru. split; [| exact U2].
        rewrite flat_map_app. apply in_or_app. now left.
      * constructor; [| constructor]. destruct ev as [e' i' m' Q | id rr]; [| exact I]. destruct m'; try exact I.
        cbn [c_apply] in H. apply warp_arrival in H as (D & M & R & B & _); [| exact Hk].
        split; [congruence |]. split; [exact B |].
        destruct (lives_route _ _ _ _ _ _ _ _ _ _ _ Hi Hk0 L D R) as (ru & U1 & U2 & U3).
        exists ru. split; [| auto]. rewrite flat_map_app. apply in_or_app. now left.
Qed.

(** ** Births of routes *)
Lemma born_quiet A q e i m st r :
  c_instantiate A q e i m = Ok (st, r) -> is_warp st -> flat_map dispatch_in (map sm_msg (r_msgs r)) = [].
Proof.
  intros H Hk. unfold c_instantiate, lift in H. destruct m; inv_all; try contradiction Hk;
    unfold wn_instantiate, wc_instantiate in *; inv_all; split_matches; inv_all; try reflexivity;
    cbn [r_msgs map sm_msg flat_map dispatch_in app]; try reflexivity.
  all: destruct md; reflexivity.
Qed.

Lemma kind_is_warp st st' : kind st' = kind st -> is_warp st' -> is_warp st.
Proof. destruct st, st'; cbn; intros; try contradiction; try discriminate; exact I. Qed.

Lemma route_life C w a st mb :
  reachable C w -> contract_at w a st -> is_warp st -> warp_mailbox st = Some mb ->
  exists e i q m r st0, births_at a (w_log w) = [(e, i, q, m, r)] /\ e_contract e = a /\
    c_instantiate (ch_api C) q e i m = Ok (st0, r) /\ is_warp st0 /\ warp_mailbox st0 = Some mb /\
    lives (ch_api C) st0 (answers_at a (w_log w)) st.
Proof.
  intros Hr Hc Hk Hm.
  destruct (contract_known C w a st Hr Hc) as (e & i & q & m & r & st0 & B & He & Hi & L).
  exists e, i, q, m, r, st0. split; [exact B |]. split; [exact He |]. split; [exact Hi |].
  assert (Hk0 : is_warp st0) by exact (kind_is_warp _ _ (lives_kind _ _ _ _ L) Hk).
  split; [exact Hk0 |]. split; [| exact L].
  rewrite <- (lives_run _ _ _ _ L) in Hm. rewrite (proj1 (warp_fixed (ch_api C) st0 _ Hk0)) in Hm. exact Hm.
Qed.

(** ** Sums *)
Lemma total_perm {X} (f : X -> N) l1 l2 : Permutation l1 l2 -> total f l1 = total f l2.
Proof. unfold total. induction 1; cbn [fold_right]; lia. Qed.
Lemma total_ext {X} (f g : X -> N) l : (forall x, In x l -> f x = g x) -> total f l = total g l.
Proof.
  unfold total. induction l as [| x l IH]; intros H; [reflexivity |]. cbn [fold_right].
  rewrite (H x (or_introl eq_refl)), IH; [reflexivity |]. intros y Hy. apply H. now right.
Qed.
Lemma total_map {X Y} (f : Y -> N) (g : X -> Y) l : total f (map g l) = total (fun x => f (g x)) l.
Proof. unfold total. induction l as [| x l IH]; [reflexivity |]. cbn [map fold_right]. now rewrite IH. Qed.
Lemma total_filter {X} (f : X -> N) p l : total f (filter p l) = total (fun x => if p x then f x else 0) l.
Proof.
  unfold total. induction l as [| x l IH]; [reflexivity |]. cbn [filter fold_right].
  destruct (p x); cbn [fold_right]; rewrite IH; reflexivity.
Qed.
Lemma total_Forall2 {X Y} (R : X -> Y -> Prop) (f : X -> N) (g : Y -> N) l l' :
  (forall x y, R x y -> f x = g y) -> Forall2 R l l' -> total f l = total g l'.
Proof.
  intros H. unfold total. induction 1 as [| x y l l' Hxy _ IH]; [reflexivity |]. cbn [fold_right].
  now rewrite (H _ _ Hxy), IH.
Qed.

(** ** Who says what in a log *)
Lemma log_addresses C w c m : reachable C w -> In (LDo c m) (w_log w) -> is_address C c.
Proof.
  intros H. apply reachable_steps in H as (bank & Hs & H).
  assert (G : reachable C w \/ True) by auto. clear G.
  cut ((forall a, om_get a (w_inst w) <> None -> exists n, a = ch_addr C n) /\
       (forall c m, In (LDo c m) (w_log w) -> is_address C c)); [intros [_ G]; apply G |].
  refine (asteps_inv C (fun w =>
    (forall a, om_get a (w_inst w) <> None -> exists n, a = ch_addr C n) /\
    (forall c m, In (LDo c m) (w_log w) -> is_address C c)) _ (genesis bank) w H _).
  2: { split; [intros a Ha; now contradiction Ha | intros ? ? []]. }
  clear. intros w w' [I1 I2] Hs.
  assert (AB : forall x, able C w x -> is_address C x) by (intros x [Hx | Hx]; [now left | right; auto]).
  destruct Hs; subst;
    repeat match goal with
    | M : move_coins _ _ _ _ = Ok _ |- _ =>
        apply move_coins_same in M as (M & ML & _); cbn [w_inst w_log add_log bump] in M, ML
    end; cbn [w_log w_inst add_log bump set_inst set_admin set_bank set_height] in *;
    repeat match goal with M : w_log ?x = _ |- context [w_log ?x] => rewrite M; clear M end;
    repeat match goal with M : w_inst ?x = _ |- context [w_inst ?x] => rewrite M end;
    split; auto.
  all: try (intros x Hx; rewrite om_get_set in Hx; destruct (keqb x _) eqn:E; [| auto]; apply keqb_eq in E; subst x).
  all: try (intros c0 m0 Hin; repeat (apply in_app_or in Hin as [Hin | [Hin | []]]); eauto; try discriminate Hin;
            injection Hin as <- <-; auto).
  all: try (eexists; reflexivity).
  all: apply I1; unfold contract_at in *; try congruence.
Qed.

Definition dispatch_call (p : event * response) : list (addr * dispatch_msg) :=
  match p with (EvExec _ i (MDispatch dm) _, _) => [(i_sender i, dm)] | _ => [] end.
(** calls of mailbox [b] by [a] *)
Definition dispatch_between (a b : addr) (x : addr * addr * emsg * list coin) : list dispatch_msg :=
  match x with
  | (c, d, MDispatch dm, _) => if bytes_eqb a c then if bytes_eqb b d then [dm] else [] else []
  | _ => []
  end.

Lemma between_sent a b l :
  flat_map (dispatch_between a b) (calls_sent l) =
  map snd (filter (fun p => bytes_eqb b (fst p)) (flat_map dispatch_in (done_for a l))).
Proof.
  induction l as [| x l IH]; [reflexivity |].
  unfold calls_sent, done_for in *. cbn [flat_map]. rewrite !flat_map_app, filter_app, map_app, IH. f_equal.
  destruct x as [c m | | |]; try reflexivity.
  destruct m as [d m f | | | | | |]; cbn [flat_map app].
  1: destruct m; cbn [flat_map app dispatch_between]; destruct (bytes_eqb a c); cbn; try reflexivity;
     destruct (bytes_eqb b d); reflexivity.
  all: destruct (bytes_eqb a c); reflexivity.
Qed.

Lemma between_seen a b l :
  flat_map (dispatch_between a b) (calls_seen l) =
  map snd (filter (fun p => bytes_eqb a (fst p)) (flat_map dispatch_call (answers_at b l))).
Proof.
  induction l as [| x l IH]; [reflexivity |].
  unfold calls_seen, answers_at in *. cbn [flat_map]. rewrite !flat_map_app, filter_app, map_app, IH. f_equal.
  destruct x as [ | | | d ev r]; try reflexivity.
  destruct ev as [e i m Q | id rr]; cbn [flat_map app].
  2: destruct (bytes_eqb b d); reflexivity.
  destruct m; cbn [flat_map app dispatch_between]; destruct (bytes_eqb b d); cbn; try reflexivity;
     destruct (bytes_eqb a (i_sender i)); reflexivity.
Qed.

(** ** The mailbox's side *)
Definition matches_message (dom : N) (p : addr * dispatch_msg) (raw : bytes) : Prop :=
  exists n sender, bech32_to_h256 (fst p) = Ok sender /\
    msg_decode raw = Ok (mkMessage 3 n dom sender (d_dest (snd p)) (d_recipient (snd p)) (d_body (snd p))).

Lemma lives_messages A x0 h st :
  lives A (SMailbox x0) h st -> mb_nonce x0 < u32_max -> mb_domain x0 < u32_max ->
  exists x, st = SMailbox x /\ mb_domain x = mb_domain x0 /\ mb_nonce x < u32_max /\
  Forall2 (matches_message (mb_domain x0)) (flat_map dispatch_call h)
    (flat_map (fun p : event * response => match p with
                     | (EvExec _ _ (MDispatch _) _, r) =>
                         match sent_message r with Some raw => [raw] | None => [] end
                     | _ => [] end) h) /\
  Forall (fun p : event * response => match p with
     | (EvExec _ _ (MProcess _ raw) _, _) => exists m, msg_decode raw = Ok m /\ m_dest m = mb_domain x0
     | _ => True end) h.
Proof.
  intros L Hn0 Hd0. induction L as [| h st1 ev st2 r L IH H].
  - exists x0. repeat split; auto; constructor.
  - destruct IH as (x1 & -> & Hd & Hn & F & G).
    destruct ev as [e i m Q | id rr]; [| discriminate H].
    cbn [c_apply] in H. apply mb_exec_inv in H as (Hok & x2 & -> & H).
    exists x2. split; [reflexivity |].
    enough (E : mb_domain x2 = mb_domain x0 /\ mb_nonce x2 < u32_max /\
      Forall2 (matches_message (mb_domain x0)) (dispatch_call (EvExec e i m Q, r))
        (match m with MDispatch _ => match sent_message r with Some raw => [raw] | None => [] end | _ => [] end) /\
      match m with MProcess _ raw => exists m', msg_decode raw = Ok m' /\ m_dest m' = mb_domain x0 | _ => True end).
    { destruct E as (E1 & E2 & E3 & E4). split; [exact E1 |]. split; [exact E2 |]. rewrite !flat_map_app. split.
      - apply Forall2_app; [exact F |]. cbn [flat_map]. rewrite !app_nil_r. destruct m; exact E3.
      - apply Forall_app. split; [exact G |]. constructor; [destruct m; exact E4 | constructor]. }
    destruct m; try discriminate H;
      try (cbn [mb_execute] in H;
        unfold mb_set_default_ism, mb_set_default_hook, mb_set_required_hook, mb_set_own in H; inv_all;
        cbn [mb_domain mb_nonce]; repeat split; auto; constructor).
    + cbn [mb_execute] in H.
      apply mb_dispatch_iff in H
        as (sender & dflt & hook & required & fees & rest & H1 & H2 & _ & _ & _ & _ & _ & H8 & -> & ->).
      cbn [mb_domain mb_nonce]. split; [exact Hd |]. split; [exact H8 |]. split; [| exact I].
      cbn [dispatch_call sent_message r_msgs]. constructor; [| constructor].
      exists (mb_nonce x1), sender. cbn [fst snd]. split; [exact H2 |]. rewrite <- Hd.
      apply msg_decode_encode. cbn [emsg_ok] in Hok. unfold u32_ok in Hok. apply (proj1 (N.ltb_lt _ _)) in Hok.
      unfold msg_wf, the_message. cbn [m_version m_nonce m_origin m_dest m_sender m_recipient].
      assert (Hs : length sender = 32%nat).
      { unfold bech32_to_h256 in H2. apply bind_Ok_inv in H2 as (w & _ & H2). unfold pad32 in H2.
        destruct (Nat.leb (length w) 32) eqn:E; [|discriminate]. apply Ok_inj in H2 as <-.
        apply PeanoNat.Nat.leb_le in E. rewrite app_length. unfold zeros. rewrite repeat_length. lia. }
      repeat split; auto; try reflexivity. rewrite Hd. exact Hd0.
    + cbn [mb_execute] in H.
      apply mb_process_iff in H as (m & rc & o & dflt & H1 & H2 & H3 & H4 & H5 & H6 & H7 & -> & H8 & ->).
      cbn [mb_deliver mb_domain mb_nonce]. split; [exact Hd |]. split; [exact Hn |]. split; [constructor |].
      exists m. rewrite <- Hd. auto.
Qed.

(** the mailbox of a chain: its dispatches as calls and as messages *)
Lemma mailbox_messages C w b mb dom :
  reachable C w -> contract_at w b mb -> is_mailbox mb -> reported_domain mb = Some dom ->
  Forall2 (matches_message dom) (flat_map dispatch_call (answers_at b (w_log w))) (dispatched_at b (w_log w)) /\
  (forall raw, In raw (processed_at b (w_log w)) -> exists m, msg_decode raw = Ok m /\ m_dest m = dom).
Proof.
  intros Hr Hc Hm Hd.
  destruct (mailbox_known C w b mb Hr Hc Hm) as (e & i & q & hrp & owner & dom0 & r & st0 & _ & _ & Hi & L).
  destruct (mb_born _ _ _ _ _ _ _ _ _ Hi) as [Hd0 ->].
  destruct (lives_messages _ _ _ _ L) as (x & -> & E & _ & F & G); [reflexivity | exact Hd0 |].
  cbn [mb_domain] in *. unfold reported_domain in Hd. cbn in Hd. apply Some_inj in Hd.
  rewrite E in Hd. subst dom0. split; [exact F |].
  intros raw Hin. unfold processed_at in Hin. apply in_flat_map in Hin as ([ev r'] & Hin & Hraw).
  rewrite Forall_forall in G. specialize (G _ Hin). destruct ev as [e' i' m' Q | id rr]; [| destruct Hraw].
  destruct m'; try contradiction Hraw. destruct Hraw as [<- | []]. exact G.
Qed.

(** ** Sending *)
Section Sending.
  Variables (C : chain) (w : world) (mb route : addr) (name : bytes) (dom : N) (mbst st : cstate).
  Hypothesis HC : chain_ok C.
  Hypothesis Hr : reachable C w.
  Hypothesis Hmc : contract_at w mb mbst.
  Hypothesis Hmm : is_mailbox mbst.
  Hypothesis Hmd : reported_domain mbst = Some dom.
  Hypothesis Hwc : contract_at w route st.
  Hypothesis Hwk : is_warp st.
  Hypothesis Hwm : warp_mailbox st = Some mb.
  Hypothesis Hname : bech32_to_h256 route = Ok name.
  Hypothesis Honly : forall c, is_address C c -> bech32_to_h256 c = Ok name -> c = route.

  Notation l := (w_log w).
  Let X := flat_map (dispatch_between route mb) (calls_seen l).

  Lemma sending_matches : exists Y, Permutation X (map snd Y) /\
    Forall2 (matches_transfer mb (events_at route l)) (transfers_at route l) Y.
  Proof.
    destruct (route_life C w route st mb Hr Hwc Hwk Hwm) as (e & i & q & m & r & st0 & B & _ & Hi & Hk0 & Hm0 & L).
    destruct (lives_transfers _ _ _ _ _ _ _ _ _ _ Hi Hk0 Hm0 L) as (_ & _ & F & _).
    eexists. split; [| exact F]. unfold X.
    rewrite <- (calls_reachable C w Hr), between_sent.
    assert (P : Permutation (flat_map dispatch_in (done_for route l))
      (flat_map dispatch_in (flat_map (fun p => map sm_msg (r_msgs (snd p))) (answers_at route l)))).
    { rewrite (Permutation_flat_map dispatch_in (messages_settled C w route st HC Hr Hwc)).
      rewrite (Permutation_flat_map dispatch_in (asked_split route l)), B. cbn [flat_map snd].
      rewrite app_nil_r, flat_map_app, (born_quiet _ _ _ _ _ _ _ Hi Hk0). apply Permutation_refl. }
    rewrite filter_all; [apply Permutation_map; exact P |].
    intros p Hp. apply (Permutation_in p P) in Hp. clear - F Hp.
    induction F as [| t y l1 l2 H F IH]; [destruct Hp |].
    destruct Hp as [-> | Hp]; [| auto]. destruct H as [H _]. apply bytes_eqb_eq. symmetry. exact H.
  Qed.

  Lemma callers_are_addresses p : In p (flat_map dispatch_call (answers_at mb l)) -> is_address C (fst p).
  Proof.
    intros Hin. destruct p as [c dm]. cbn [fst].
    assert (In (c, dm) (filter (fun p => bytes_eqb c (fst p)) (flat_map dispatch_call (answers_at mb l)))) as Hf.
    { apply filter_In. split; [exact Hin | apply bytes_eqb_refl]. }
    apply (in_map snd) in Hf. rewrite <- between_seen, <- (calls_reachable C w Hr), between_sent in Hf.
    apply in_map_iff in Hf as ([b dm'] & _ & Hf). apply filter_In in Hf as [Hf _].
    apply in_flat_map in Hf as (m & Hf & _). unfold done_for in Hf. apply in_flat_map in Hf as (x & Hx & Hf).
    destruct x as [c' m' | | |]; try contradiction Hf.
    destruct (bytes_eqb c c') eqn:E; [| contradiction Hf]. apply bytes_eqb_eq in E. subst c'.
    eapply log_addresses; eauto.
  Qed.

  Lemma from_route p raw d :
    In p (flat_map dispatch_call (answers_at mb l)) -> matches_message dom p raw ->
    sent_by name d raw = (bytes_eqb route (fst p) && (d_dest (snd p) =? d))%bool.
  Proof.
    intros Hin (n & sender & H1 & H2). unfold sent_by. rewrite H2. cbn [m_sender m_dest]. f_equal.
    destruct (bytes_eqb route (fst p)) eqn:E.
    - apply bytes_eqb_eq in E. rewrite <- E, Hname in H1. apply Ok_inj in H1. subst sender. apply bytes_eqb_refl.
    - apply bytes_eqb_neq in E. apply bytes_eqb_neq. intros ->. apply E. symmetry.
      apply Honly; [now apply callers_are_addresses | exact H1].
  Qed.

  Lemma sending_sum d :
    promised_to route d l = total message_amount (filter (sent_by name d) (dispatched_at mb l)).
  Proof.
    destruct sending_matches as (Y & P & F).
    destruct (mailbox_messages C w mb mbst dom Hr Hmc Hmm Hmd) as [G _].
    pose (g := fun dm : dispatch_msg => if d_dest dm =? d then named_amount (d_body dm) else 0).
    transitivity (total g X).
    - rewrite (total_perm g _ _ P), total_map. unfold promised_to.
      eapply total_Forall2; [| exact F]. intros t p (_ & H2 & H3 & _). unfold g. rewrite H2, H3. reflexivity.
    - unfold X. rewrite between_seen, total_map, !total_filter.
      assert (G' : Forall2 (fun p raw => In p (flat_map dispatch_call (answers_at mb l)) /\ matches_message dom p raw)
        (flat_map dispatch_call (answers_at mb l)) (dispatched_at mb l)).
      { apply Forall2_in_l. exact G. }
      eapply total_Forall2; [| exact G']. intros p raw [Hin Hm]. rewrite (from_route p raw d Hin Hm).
      destruct Hm as (n & sender & _ & H2). unfold message_amount, g. rewrite H2. destruct p as [c dm]. cbn [m_body fst snd].
      destruct (bytes_eqb route c); [| reflexivity]. destruct (d_dest dm =? d); reflexivity.
  Qed.

  Lemma sending_names raw d :
    In raw (dispatched_at mb l) -> sent_by name d raw = true ->
    exists m, msg_decode raw = Ok m /\ m_origin m = dom /\ m_dest m = d /\
      exists r, In r (flat_map route_updates (events_at route l)) /\ rs_domain r = d /\ rs_route r = Some (m_recipient m).
  Proof.
    intros Hin Hs. destruct sending_matches as (Y & P & F).
    destruct (mailbox_messages C w mb mbst dom Hr Hmc Hmm Hmd) as [G _].
    apply Forall2_in_l in G. apply (Forall2_in_r _ _ _ raw) in G as (p & _ & Hp & Hm); [| exact Hin].
    rewrite (from_route p raw d Hp Hm) in Hs. apply andb_true_iff in Hs as [Hs1 Hs2].
    apply N.eqb_eq in Hs2. destruct Hm as (n & sender & H1 & H2). eexists. split; [exact H2 |]. cbn [m_origin m_dest m_recipient].
    split; [reflexivity |]. split; [exact Hs2 |].
    assert (HX : In (snd p) X).
    { unfold X. rewrite between_seen. apply in_map. apply filter_In. split; assumption. }
    apply (Permutation_in _ P) in HX. apply in_map_iff in HX as (y & E & Hy).
    apply (Forall2_in_r _ _ _ y) in F as (t & _ & (_ & _ & _ & _ & r & U1 & U2 & U3)); [| exact Hy].
    rewrite E in U2, U3. exists r. split; [exact U1 |]. split; [congruence | exact U3].
  Qed.

  Lemma sending_payload raw d m :
    In raw (dispatched_at mb l) -> sent_by name d raw = true -> msg_decode raw = Ok m ->
    m_version m = 3 /\ m_sender m = name /\
    exists rcp n, In (d, rcp, n) (transfers_at route l) /\ m_body m = rcp ++ be 32 n /\ n < 2 ^ 128.
  Proof.
    intros Hin Hs Hd. destruct sending_matches as (Y & P & F).
    destruct (mailbox_messages C w mb mbst dom Hr Hmc Hmm Hmd) as [G _].
    apply Forall2_in_l in G. apply (Forall2_in_r _ _ _ raw) in G as (p & _ & Hp & Hm); [| exact Hin].
    rewrite (from_route p raw d Hp Hm) in Hs. apply andb_true_iff in Hs as [Hs1 Hs2].
    apply N.eqb_eq in Hs2. destruct Hm as (n & sender & H1 & H2). rewrite Hd in H2. apply Ok_inj in H2. subst m.
    cbn [m_version m_sender m_body]. split; [reflexivity |].
    split; [apply bytes_eqb_eq in Hs1; rewrite <- Hs1, Hname in H1; apply Ok_inj in H1; now symmetry |].
    assert (HX : In (snd p) X).
    { unfold X. rewrite between_seen. apply in_map. apply filter_In. split; assumption. }
    apply (Permutation_in _ P) in HX. apply in_map_iff in HX as (y & E & Hy).
    apply (Forall2_in_r _ _ _ y) in F as ([[d' rcp] n'] & Ht & (_ & U2 & U3 & U4 & _)); [| exact Hy].
    cbn [fst snd] in U2, U3, U4. rewrite E in U2, U3. exists rcp, n'. split; [congruence |]. split; [exact U3 | exact U4].
  Qed.
End Sending.

(** ** Receiving *)
Definition arrives (hrp : str) (route : addr) (o : N) (raw : bytes) : bool :=
  match msg_decode raw with
  | Ok m => match bech32_encode hrp (m_recipient m) with
            | Ok b => (bytes_eqb route b && (m_origin m =? o))%bool
            | _ => false
            end
  | _ => false
  end.
Definition arrival_from (b : addr) (p : event * response) : list (N * bytes * bytes) :=
  match p with
  | (EvExec _ i (MHandle o sd bd) _, _) => if bytes_eqb b (i_sender i) then [(o, sd, bd)] else []
  | _ => []
  end.

Definition handed_to (a : addr) (h : addr * (N * bytes * bytes)) : bool := bytes_eqb a (fst h).

Lemma deliveries_here b a l :
  map snd (filter (handed_to a) (deliveries_by b l)) = flat_map (arrival_from b) (answers_at a l).
Proof.
  unfold deliveries_by. induction l as [| x l IH]; [reflexivity |].
  unfold calls_seen, answers_at in *. cbn [flat_map]. rewrite !flat_map_app, filter_app, map_app, IH. f_equal.
  destruct x as [ | | | d ev r]; try reflexivity.
  destruct ev as [e i m Q | id rr]; cbn [flat_map app].
  2: destruct (bytes_eqb a d); reflexivity.
  destruct m; cbn [flat_map app delivery_of]; destruct (bytes_eqb a d) eqn:E1; cbn [flat_map app arrival_from]; try reflexivity;
     destruct (bytes_eqb b (i_sender i)); cbn [app filter]; unfold handed_to; cbn [fst]; rewrite ?E1; reflexivity.
Qed.

Section Receiving.
  Variables (C : chain) (w : world) (mb route : addr) (dom : N) (hrp : str) (mbst st : cstate).
  Hypothesis HC : chain_ok C.
  Hypothesis Hr : reachable C w.
  Hypothesis Hmc : contract_at w mb mbst.
  Hypothesis Hmm : is_mailbox mbst.
  Hypothesis Hmd : reported_domain mbst = Some dom.
  Hypothesis Hmh : reported_hrp mbst = Some hrp.
  Hypothesis Hwc : contract_at w route st.
  Hypothesis Hwk : is_warp st.
  Hypothesis Hwm : warp_mailbox st = Some mb.
  Notation l := (w_log w).

  Lemma receiving_facts : Forall (fun p : event * response => match p with
     | (EvExec _ i (MHandle o sd bd) _, _) => i_sender i = mb /\ named_amount bd < 2 ^ 128 /\
         exists r, In r (flat_map route_updates (events_at route l)) /\ rs_domain r = o /\ rs_route r = Some sd
     | _ => True end) (answers_at route l).
  Proof.
    destruct (route_life C w route st mb Hr Hwc Hwk Hwm) as (e & i & q & m & r & st0 & B & _ & Hi & Hk0 & Hm0 & L).
    destruct (lives_transfers _ _ _ _ _ _ _ _ _ _ Hi Hk0 Hm0 L) as (_ & _ & _ & G). exact G.
  Qed.

  Lemma receiving_list :
    exists l', Forall2 (delivers hrp) (processed_at mb l) l' /\
      Permutation (flat_map (arrival_from mb) (answers_at route l)) (map snd (filter (handed_to route) l')).
  Proof.
    destruct (chain_deliveries C w mb mbst HC Hr Hmc Hmm) as (_ & _ & hrp' & l' & E & F & P).
    rewrite Hmh in E. apply Some_inj in E. subst hrp'. exists l'. split; [exact F |].
    rewrite <- deliveries_here. apply Permutation_map. apply Permutation_filter. exact P.
  Qed.

  Lemma receiving_sum o :
    received_from route o l = total message_amount (filter (arrives hrp route o) (processed_at mb l)).
  Proof.
    destruct receiving_list as (l' & F & P).
    pose (g := fun t : N * bytes * bytes => if fst (fst t) =? o then named_amount (snd t) else 0).
    transitivity (total g (flat_map (arrival_from mb) (answers_at route l))).
    - unfold received_from, arrivals_at. pose proof receiving_facts as G. clear - G.
      induction G as [| p h Hp G IH]; [reflexivity |]. cbn [flat_map]. rewrite !total_app, IH. f_equal.
      destruct p as [[e i m Q | id rr] r]; [| reflexivity]. destruct m; try reflexivity.
      destruct Hp as [Hp _]. cbn [arrival_of arrival_from]. rewrite (proj2 (bytes_eqb_eq mb (i_sender i)) (eq_sym Hp)).
      rewrite !total_one. reflexivity.
    - rewrite (total_perm g _ _ P), total_map, !total_filter. symmetry.
      eapply total_Forall2; [| exact F]. intros raw h (m & H1 & H2 & H3).
      unfold arrives, message_amount, g, handed_to. rewrite H1, H2, H3. cbn [fst snd].
      destruct (bytes_eqb route (fst h)); [| reflexivity]. destruct (m_origin m =? o); reflexivity.
  Qed.

  Lemma receiving_names raw o :
    In raw (processed_at mb l) -> arrives hrp route o raw = true ->
    exists m, msg_decode raw = Ok m /\ m_origin m = o /\ m_dest m = dom /\
      exists r, In r (flat_map route_updates (events_at route l)) /\ rs_domain r = o /\ rs_route r = Some (m_sender m).
  Proof.
    intros Hin Ha. destruct (mailbox_messages C w mb mbst dom Hr Hmc Hmm Hmd) as [_ G].
    destruct (G raw Hin) as (m & Hm & Hd). exists m. split; [exact Hm |].
    unfold arrives in Ha. rewrite Hm in Ha.
    destruct (bech32_encode hrp (m_recipient m)) as [b | |] eqn:Eb; try discriminate Ha.
    apply andb_true_iff in Ha as [Ha1 Ha2]. apply N.eqb_eq in Ha2. split; [exact Ha2 |]. split; [exact Hd |].
    destruct receiving_list as (l' & F & P).
    destruct (Forall2_in_left _ _ _ raw F Hin) as (h & Hh & (m' & M1 & M2 & M3)).
    rewrite Hm in M1. apply Ok_inj in M1. subst m'. rewrite Eb in M2. apply Ok_inj in M2.
    assert (Hl : In (snd h) (map snd (filter (handed_to route) l'))).
    { apply in_map, filter_In. split; [exact Hh |]. unfold handed_to. rewrite <- M2. exact Ha1. }
    apply (Permutation_in _ (Permutation_sym P)) in Hl. rewrite M3 in Hl.
    apply in_flat_map in Hl as ([ev r] & Hl & Hv). destruct ev as [e i em Q | id rr]; [| destruct Hv].
    destruct em; try contradiction Hv. cbn [arrival_from] in Hv.
    destruct (bytes_eqb mb (i_sender i)); [| destruct Hv]. destruct Hv as [Hv | []]. injection Hv as -> -> ->.
    pose proof receiving_facts as G'. rewrite Forall_forall in G'. apply G' in Hl as (_ & _ & ru & U).
    exists ru. rewrite Ha2 in U. exact U.
  Qed.
End Receiving.

(** ** Both ends *)
Lemma total_split {X} (f : X -> N) p l :
  total f l = total f (filter p l) + total f (filter (fun x => negb (p x)) l).
Proof.
  unfold total. induction l as [| x l IH]; [reflexivity |]. cbn [filter fold_right].
  rewrite IH. destruct (p x); cbn [negb fold_right]; lia.
Qed.

Lemma filter_filter {X} (p q : X -> bool) l : filter p (filter q l) = filter (fun x => q x && p x)%bool l.
Proof.
  induction l as [| x l IH]; [reflexivity |]. cbn [filter]. destruct (q x); cbn [filter andb]; [| exact IH].
  destruct (p x); now rewrite IH.
Qed.

Lemma existsb_bytes (x : bytes) l : existsb (bytes_eqb x) l = true <-> In x l.
Proof.
  rewrite existsb_exists. split.
  - intros (y & H1 & H2). apply bytes_eqb_eq in H2. now subst.
  - intros H. exists x. split; [exact H | apply bytes_eqb_refl].
Qed.

Lemma bridge_messages S T :
  side_ok S -> side_ok T -> enrolled S T -> enrolled T S -> honest S T ->
  promised_to (sd_route S) (sd_domain T) (sd_log S)
  = received_from (sd_route T) (sd_domain S) (sd_log T) + in_flight S T.
Proof.
  intros (HC & Hr & (mb & hrp & Hmc & Hmm & Hmd & Hmh & Henc) & (st & Hwc & Hwk & Hwm) & Hn & Ho)
         (HC' & Hr' & (mb' & hrp' & Hmc' & Hmm' & Hmd' & Hmh' & Henc') & (st' & Hwc' & Hwk' & Hwm') & Hn' & Ho')
         E1 E2 Hon. unfold sd_log in *.
  rewrite (sending_sum _ _ _ _ _ _ _ _ HC Hr Hmc Hmm Hmd Hwc Hwk Hwm Hn Ho (sd_domain T)).
  rewrite (receiving_sum _ _ _ _ _ _ _ HC' Hr' Hmc' Hmm' Hmh' Hwc' Hwk' Hwm' (sd_domain S)).
  rewrite (total_split message_amount (fun raw => existsb (bytes_eqb raw) (processed_at (sd_mailbox T) (w_log (sd_world T))))).
  rewrite !filter_filter. unfold in_flight, travelling, sd_log. f_equal.
  apply total_perm. apply NoDup_Permutation.
  - apply NoDup_filter. apply (chain_nonces _ _ _ _ Hr Hmc Hmm).
  - apply NoDup_filter. eapply NoDup_map_inv. apply (chain_deliveries _ _ _ _ HC' Hr' Hmc' Hmm').
  - intros raw. rewrite !filter_In, andb_true_iff, existsb_bytes. split.
    + intros (Hin & Hs & Hp). split; [exact Hp |].
      destruct (sending_names _ _ _ _ _ _ _ _ HC Hr Hmc Hmm Hmd Hwc Hwk Hwm Hn Ho raw _ Hin Hs)
        as (m & M1 & M2 & M3 & r & U1 & U2 & U3).
      unfold arrives. rewrite M1. rewrite (E1 r _ U1 U2 U3), Henc', M2, bytes_eqb_refl, N.eqb_refl. reflexivity.
    + intros (Hp & Ha).
      destruct (receiving_names _ _ _ _ _ _ _ _ HC' Hr' Hmc' Hmm' Hmd' Hmh' Hwc' Hwk' Hwm' raw _ Hp Ha)
        as (m & M1 & M2 & M3 & r & U1 & U2 & U3).
      assert (Had : addressed T m).
      { exists mb', hrp'. split; [exact Hmc' |]. split; [exact Hmh' |]. unfold arrives in Ha. rewrite M1 in Ha.
        destruct (bech32_encode hrp' (m_recipient m)) as [b | |]; try discriminate Ha.
        apply andb_true_iff in Ha as [Ha _]. apply bytes_eqb_eq in Ha. now rewrite <- Ha. }
      split; [exact (Hon raw m Hp M1 M2 Had) |]. split; [| exact Hp].
      unfold sent_by. rewrite M1. rewrite (E2 r _ U1 U2 U3), M3, bytes_eqb_refl, N.eqb_refl. reflexivity.
Qed.

(** the payloads name what was taken, when the recipients are 32 bytes *)
Lemma promised_sent C w route st mb d :
  reachable C w -> contract_at w route st -> is_warp st -> warp_mailbox st = Some mb -> chain_ok C ->
  (forall d' rcp n, In (d', rcp, n) (transfers_at route (w_log w)) -> length rcp = 32%nat) ->
  promised_to route d (w_log w) = sent_to route d (w_log w).
Proof.
  intros Hr Hwc Hwk Hwm HC Hp. unfold promised_to, sent_to. apply total_ext. intros [[d' rcp] n] Hin.
  cbn [fst snd]. destruct (d' =? d); [| reflexivity].
  destruct (sending_matches C w mb route st HC Hr Hwc Hwk Hwm) as (Y & _ & F).
  destruct (Forall2_in_left _ _ _ _ F Hin) as (y & _ & (_ & _ & _ & B & _)). cbn [snd] in B.
  apply named_amount_proper; [| exact B]. eapply Hp. exact Hin.
Qed.

Lemma bridge_amounts S T :
  side_ok S -> side_ok T -> enrolled S T -> enrolled T S -> honest S T -> proper_recipients S ->
  sent_to (sd_route S) (sd_domain T) (sd_log S)
  = received_from (sd_route T) (sd_domain S) (sd_log T) + in_flight S T.
Proof.
  intros HS HT E1 E2 Hon Hp. rewrite <- (bridge_messages S T HS HT E1 E2 Hon).
  destruct HS as (HC & Hr & _ & (st & Hwc & Hwk & Hwm) & _).
  symmetry. exact (promised_sent _ _ _ _ _ _ Hr Hwc Hwk Hwm HC Hp).
Qed.
