(** * A call changes the entries it may write, and no others. *)
From Coq Require Import List NArith Bool Lia Arith.
From Verif Require Import Base BaseFacts OMap Crypto Coins Hex Merkle Json Message CodecFacts Chain Ownable Router Utils Mailbox Va
  Isms Hooks Igp Warp Cw20 Contracts Wire WireQuery StepFacts Store StoreFacts SpecStore StoreState.
Import ListNotations.

Definition agree (k : bytes) (c c' : cell) : Prop :=
  title c = title c' /\ (claims c k = true -> cell_get c k = cell_get c' k).
Lemma agree_refl k c : agree k c c.
Proof. split; reflexivity. Qed.
Lemma agree_one k n v v' : k <> n -> agree k (One n v) (One n v').
Proof. intros H. split; [reflexivity|]. cbn [claims]. intros X. apply bytes_eqb_eq in X. contradiction. Qed.
Lemma title_claims c c' k : title c = title c' -> claims c k = claims c' k.
Proof. destruct c, c'; cbn [title claims]; intros H; try discriminate; now injection H as ->. Qed.
Lemma layout_frame k l l' : neat l -> neat l' -> Forall2 (agree k) l l' -> om_get k (layout l') = om_get k (layout l).
Proof.
  intros N N' F.
  assert (D : (exists c, In c l /\ claims c k = true) \/ (forall c, In c l -> claims c k = false)).
  { clear. induction l as [|c l IH]; [right; intros c []|]. destruct (claims c k) eqn:E; [left; exists c; split; [now left|exact E]|].
    destruct IH as [(c' & I & H)|H]; [left; exists c'; split; [now right|exact H]|right]. intros c' [<-|I]; auto. }
  assert (B : forall c, In c l -> exists c', In c' l' /\ agree k c c').
  { clear - F. induction F as [|x y l l' A F IH]; intros c []; [subst; exists y; split; [now left|exact A]|].
    destruct (IH c H) as (c' & I & X). exists c'. split; [now right|exact X]. }
  assert (B' : forall c', In c' l' -> exists c, In c l /\ agree k c c').
  { clear - F. induction F as [|x y l l' A F IH]; intros c []; [subst; exists x; split; [now left|exact A]|].
    destruct (IH c H) as (c' & I & X). exists c'. split; [now right|exact X]. }
  destruct D as [(c & I & C)|D].
  - destruct (B c I) as (c' & I' & T & G). rewrite (layout_get l c k N I C).
    rewrite (layout_get l' c' k N' I') by now rewrite <- (title_claims c c' k T). symmetry. now apply G.
  - rewrite (layout_unclaimed l k N D). apply layout_unclaimed; [exact N'|]. intros c' I'. destruct (B' c' I') as (c & I & T & _).
    rewrite <- (title_claims c c' k T). now apply D.
Qed.

Lemma path_entry ns k : path ns k = entry ns k.
Proof. unfold path, prefix, flat_map, named, entry. now rewrite app_nil_r, <- app_assoc. Qed.
Lemma agree_table {X V} {OK : OrdKey X} ok (key : X -> bytes) back (c : codec V) k ns m m' :
  key_kind ok key back -> holds ok c m -> holds ok c m' ->
  (forall x, ok x = true -> k = entry ns (key x) -> om_get x m' = om_get x m) -> agree k (table ns key c m) (table ns key c m').
Proof.
  intros KK H H' G. split; [reflexivity|]. cbn [claims cell_get table]. intros S. apply starts_split in S.
  set (r := skipn (length (prefix [ns])) k) in *. clearbody r.
  change (om_get r (rows key c m) = om_get r (rows key c m')).
  assert (E : k = path ns r) by exact S. rewrite path_entry in E.
  destruct (om_get r (rows key c m)) as [t|] eqn:E1.
  - destruct (rows_In ok key c m r t H E1) as (x & a & O & -> & _). rewrite (rows_get ok key back KK c m x H O) in E1.
    rewrite (rows_get ok key back KK c m' x H' O), (G x O E). now rewrite E1.
  - destruct (om_get r (rows key c m')) as [t|] eqn:E2; [|reflexivity].
    destruct (rows_In ok key c m' r t H' E2) as (x & a & O & -> & _). rewrite (rows_get ok key back KK c m x H O) in E1.
    rewrite (rows_get ok key back KK c m' x H' O), (G x O E) in E2. congruence.
Qed.
Definition agree_u32 {V} (c : codec V) k ns m m' := agree_table u32_ok u32_key u32_back c k ns m m' kind_u32.
Definition agree_bytes {V} (c : codec V) k ns m m' := agree_table any (fun x => x) octets_back c k ns m m' kind_bytes.
Definition agree_pair {V} (c : codec V) k ns m m' := agree_table pair_ok pair_key pair_back c k ns m m' kind_pair.

Lemma get_fold {X V E} {OK : OrdKey X} (x : X) (f : omap X V -> E -> omap X V) l m :
  (forall m e, In e l -> om_get x (f m e) = om_get x m) -> om_get x (fold_left f l m) = om_get x m.
Proof.
  revert m. induction l as [|e l IH]; intros m H; [reflexivity|]. cbn [fold_left]. rewrite IH; [apply H; now left|]. intros m' e' I. apply H. now right.
Qed.
Lemma get_foldM {X V E} {OK : OrdKey X} (x : X) (f : omap X V -> E -> res (omap X V)) l m m' :
  (forall m e m', In e l -> f m e = Ok m' -> om_get x m' = om_get x m) -> foldM f l m = Ok m' -> om_get x m' = om_get x m.
Proof.
  revert m. induction l as [|e l IH]; intros m H E1; cbn [foldM] in E1; [apply Ok_inj in E1 as <-; reflexivity|].
  apply bind_Ok_inv in E1 as (m1 & E1 & E2). rewrite (IH m1) by (eauto; intros m0 y m2 I; apply H; now right).
  apply (H m e m1); [now left|exact E1].
Qed.
Lemma router_get o i m r r' x : router_handle o i m r = Ok r' -> ~ writes (MRouter m) (entry (s "routes") (u32_key x)) -> om_get x r' = om_get x r.
Proof.
  intros H NW. unfold router_handle in H. apply bind_Ok_inv in H as (u & _ & H). destruct m as [y|l]; apply Ok_inj in H as <-.
  - unfold set_route. apply om_get_set_neq. intros ->. apply NW. reflexivity.
  - unfold set_routes. apply get_fold. intros m y I. unfold set_route. apply om_get_set_neq. intros ->. apply NW. exists y. auto.
Qed.
Lemma custom_pair p : entry (s "custom_hooks") (pair_key p) = custom (fst p) (snd p).
Proof. unfold custom, pair_key, named, u32_key. rewrite be_length, <- app_assoc. reflexivity. Qed.

Lemma conn_same A o i m c c' : conn_handle A o i m c = Ok c' ->
  (cn_mailbox c' = cn_mailbox c \/ exists a, m = SetMailbox a) /\ (cn_ism c' = cn_ism c \/ exists a, m = SetIsm a) /\
  (cn_hook c' = cn_hook c \/ exists a, m = SetHook a).
Proof. intros H. unfold conn_handle in H. inv_all. destruct m; inv_all; cbn [cn_mailbox cn_ism cn_hook]; eauto 8. Qed.
Lemma get_del_neq {X V} {OK : OrdKey X} k x (m : omap X V) : x <> k -> om_get x (om_del k m) = om_get x m.
Proof. intros H. rewrite om_get_del. apply keqb_neq in H. now rewrite H. Qed.
Lemma decoded_id raw m : msg_decode raw = Ok m -> msg_id m = keccak256_hash raw.
Proof. intros H. unfold msg_id. apply msg_decode_Ok_inv in H as (_ & _ & ->). reflexivity. Qed.

Lemma frame A v ev st st' r k : stored st -> timely ev -> c_apply A ev st = Ok (st', r) -> ~ event_writes ev k ->
  om_get k (storage v st') = om_get k (storage v st).
Proof.
  intros W T H NW. pose proof (stored_step A ev st st' r W T H) as W'. unfold storage.
  apply layout_frame; [now apply cells_neat|now apply cells_neat|]. constructor; [apply agree_refl|].
  destruct ev as [e i m Q|id rr]; cbn [c_apply event_writes] in H, NW.
  - clear T. unfold c_execute, lift in H. apply bind_Ok_inv in H as (u & O & H). apply ensure_Ok_inv in O.
    destruct st; inv_all; unfold_execs; destruct m; try discriminate; inv_all.
    all: unfold_helpers; inv_all; split_matches; cbn [stored] in W, W';
      cbn [mb_own mb_hrp mb_domain mb_ism mb_hook mb_required mb_nonce mb_latest mb_deliveries va_mailbox va_domain va_validators va_locations va_replay
         ms_own ms_validators ms_threshold ag_own ag_isms ag_threshold ri_own ri_modules pi_own pi_paused mk_mailbox mk_tree ah_own ah_hooks ph_own ph_paused
         rh_own rh_routes cu_own cu_routes cu_hooks fb_own fb_routes fb_fallback fe_own fe_fee or_own or_data
         gp_own gp_routes gp_hrp gp_token gp_default_gas gp_gas gp_beneficiary wp_own wp_routes wp_conn wp_token wp_mode wp_hrp wp_mailbox] in W';
      unfold routes_held in *; repeat match goal with H : _ /\ _ |- _ => destruct H end;
      cbn [cells own_cells warp_cells conn_cells routes_cell app
         mb_own mb_hrp mb_domain mb_ism mb_hook mb_required mb_nonce mb_latest mb_deliveries va_mailbox va_domain va_validators va_locations va_replay
         ms_own ms_validators ms_threshold ag_own ag_isms ag_threshold ri_own ri_modules pi_own pi_paused mk_mailbox mk_tree ah_own ah_hooks ph_own ph_paused
         rh_own rh_routes cu_own cu_routes cu_hooks fb_own fb_routes fb_fallback fe_own fe_fee or_own or_data
         gp_own gp_routes gp_hrp gp_token gp_default_gas gp_gas gp_beneficiary wp_own wp_routes wp_conn wp_token wp_mode wp_hrp wp_mailbox
         cn_mailbox cn_ism cn_hook];
      repeat match goal with |- Forall2 _ (_ :: _) (_ :: _) => apply Forall2_cons | |- Forall2 _ [] [] => apply Forall2_nil end;
      match goal with |- agree _ ?a ?a => apply agree_refl | _ => idtac end.
    all: try (apply agree_one; intros ->; apply NW; cbn [writes]; auto; fail).
    all: try (match goal with H : conn_handle _ _ _ _ _ = Ok _ |- _ => apply conn_same in H as (C1 & C2 & C3) end;
      match goal with
      | |- agree _ (maybe (s "conn::mailbox") _ _) _ => destruct C1 as [->|(a & ->)]
      | |- agree _ (maybe (s "conn::ism") _ _) _ => destruct C2 as [->|(a & ->)]
      | |- agree _ (maybe (s "conn::hook") _ _) _ => destruct C3 as [->|(a & ->)]
      end; [apply agree_refl|apply agree_one; intros ->; apply NW; reflexivity]; fail).
    all: unfold routes_cell; match goal with
      | |- agree _ (table _ u32_key _ _) _ => apply agree_u32; [assumption|assumption|]
      | |- agree _ (table _ pair_key _ _) _ => apply agree_pair; [assumption|assumption|]
      | |- agree _ (table _ _ _ _) _ => apply agree_bytes; [assumption|assumption|]
      end; intros y Oy ->.
    all: try (apply om_get_set_neq; intros ->; apply NW; cbn [writes]; auto; fail).
    all: try (match goal with H : router_handle _ _ _ _ = Ok _ |- _ => exact (router_get _ _ _ _ _ _ H NW) end; fail).
    + rewrite (decoded_id _ _ Hr0). apply om_get_set_neq. intros ->. apply NW. reflexivity.
    + apply get_del_neq. intros ->. apply NW. cbn [writes]. auto.
    + apply get_del_neq. intros ->. apply NW. cbn [writes]. auto.
    + apply get_fold. intros m z I. apply get_del_neq. intros ->. apply NW. cbn [writes]. eauto.
    + rewrite custom_pair in NW. destruct y as [d t]. eapply get_foldM; [|eassumption]. intros m z m' [<-|[]] E1. unfold cu_register1 in E1. inv_all.
      apply om_get_set_neq. intros E2. injection E2 as -> ->. apply NW. cbn [writes fst snd]. eauto.
    + rewrite custom_pair in NW. destruct y as [d t]. eapply get_foldM; [|eassumption]. intros m z m' I E1. unfold cu_register1 in E1. inv_all.
      apply om_get_set_neq. intros E2. injection E2 as -> ->. apply NW. cbn [writes fst snd]. eauto.
    + rewrite custom_pair in NW. destruct y as [d t]. eapply get_foldM; [|eassumption]. intros m z m' [<-|[]] E1. cbv beta in E1. inv_all.
      apply get_del_neq. intros E2. injection E2 as -> ->. apply NW. cbn [writes fst snd]. eauto.
    + rewrite custom_pair in NW. destruct y as [d t]. eapply get_foldM; [|eassumption]. intros m [z z'] m' I E1. cbv beta in E1. inv_all.
      apply get_del_neq. intros E2. injection E2 as -> ->. apply NW. cbn [writes fst snd]. eauto 8.
    + eapply get_foldM; [|eassumption]. intros m z m' I E1. cbv beta in E1. inv_all. unfold or_insert. apply om_get_set_neq. intros ->.
      apply NW. cbn [writes]. eauto.
    + apply get_fold. intros m [z g] I. apply om_get_set_neq. intros ->. apply NW. cbn [writes]. eauto.
    + apply get_fold. intros m z I. apply get_del_neq. intros ->. apply NW. cbn [writes]. eauto.
  - clear T. unfold c_reply, lift in H. destruct st; try discriminate H; inv_all; unfold_helpers; inv_all; split_matches;
    cbn [cells own_cells warp_cells conn_cells routes_cell app wp_own wp_routes wp_conn wp_token wp_mode wp_hrp wp_mailbox];
      repeat match goal with |- Forall2 _ (_ :: _) (_ :: _) => apply Forall2_cons | |- Forall2 _ [] [] => apply Forall2_nil end;
      match goal with |- agree _ ?a ?a => apply agree_refl | _ => apply agree_one; exact NW end.
Qed.
