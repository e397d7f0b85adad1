(** * What every contract's storage looks like, and that it is read back. *)
From Coq Require Import List NArith Bool Lia Arith.
From Verif Require Import Base BaseFacts OMap Crypto Coins Hex Merkle Json JsonFacts Chain Ownable Router Utils Mailbox Va
  Isms Hooks Igp Warp Cw20 Contracts Wire WireQuery SpecWire WireFacts WireQueryFacts StepFacts InitFacts PagingFacts WireWidths Store StoreFacts SpecStore.
Import ListNotations.

(** ** Types of values *)
Lemma good_nothing : good nothing_c.
Proof. apply good_struct; [apply shape_none|reflexivity]. Qed.
Lemma good_version : good version_c.
Proof.
  apply good_as; [|intros []; reflexivity|intros (a & b & []); reflexivity].
  apply good_struct; [|reflexivity]. repeat apply shape_field; try apply good_string. apply shape_none.
Qed.
Lemma good_config : good config_c.
Proof.
  apply good_struct; [|reflexivity]. apply shape_field; [apply good_string|]. apply shape_field; [apply good_u32|].
  repeat (apply shape_optional; [apply good_string|]). apply shape_none.
Qed.
Lemma good_u64 : good u64_c.
Proof. apply good_int. intros n H. apply N.ltb_lt in H. eapply N.lt_trans; [exact H|reflexivity]. Qed.
Lemma good_delivery : good delivery_c.
Proof.
  apply good_as; [|intros []; reflexivity|intros (a & b & []); reflexivity].
  apply good_struct; [|reflexivity]. apply shape_field; [apply good_string|]. apply shape_field; [apply good_u64|]. apply shape_none.
Qed.
Lemma good_tree : good tree_c.
Proof.
  apply good_as; [|intros []; reflexivity|intros (a & b & []); reflexivity].
  apply good_struct; [|reflexivity]. apply shape_field; [apply good_branch|]. apply shape_field; [apply good_u128|]. apply shape_none.
Qed.
Lemma good_gas_data : good gas_data_c.
Proof.
  apply good_as; [|intros []; reflexivity|intros (a & b & []); reflexivity].
  apply good_struct; [|reflexivity]. repeat (apply shape_field; [apply good_u128|]). apply shape_none.
Qed.
#[export] Hint Resolve kept_good kept_option good_nothing good_version good_config good_delivery good_tree good_gas_data good_string good_bool
  good_u8 good_u32 good_u128 good_hex good_list good_route good_coin good_token_mode good_octets octets_fit : store.

(** ** What is stored *)
Definition any {X} (_ : X) : bool := true.
Definition pair_ok (p : N * bytes) : bool := u32_ok (fst p).
Definition routes_held (h : bool) (r : routes) : Prop := holds u32_ok (option_c (route_c h)) r.
Definition stored (st : cstate) : Prop :=
  match st with
  | SMailbox x => u32_ok (mb_domain x) = true /\ u32_ok (mb_nonce x) = true /\ holds any delivery_c (mb_deliveries x)
  | SVa x => u32_ok (va_domain x) = true /\ holds any nothing_c (va_validators x) /\
      holds any (list_c string_c) (va_locations x) /\ holds any nothing_c (va_replay x)
  | SMultisig x => holds u32_ok (list_c hex_c) (ms_validators x) /\ holds u32_ok u8_c (ms_threshold x)
  | SAggIsm x => u8_ok (ag_threshold x) = true
  | SRoutingIsm x => holds u32_ok string_c (ri_modules x)
  | SMerkle x => fits tree_c (mk_tree x) = true
  | SRoutingHook x => routes_held false (rh_routes x)
  | SCustomHook x => routes_held false (cu_routes x) /\ holds pair_ok string_c (cu_hooks x)
  | SFallbackHook x => routes_held false (fb_routes x)
  | SFeeHook x => u128_ok (c_amount (fe_fee x)) = true
  | SOracle x => holds u32_ok gas_data_c (or_data x)
  | SIgp x => routes_held false (gp_routes x) /\ u128_ok (gp_default_gas x) = true /\ holds u32_ok u128_c (gp_gas x)
  | SWarpNative x | SWarpCw20 x => routes_held true (wp_routes x)
  | _ => True
  end.

Lemma holds_nil {X V} {OK : OrdKey X} (ok : X -> bool) (c : codec V) : holds ok c [].
Proof. split; [exact I|constructor]. Qed.
Lemma holds_set {X V} {OK : OrdKey X} (ok : X -> bool) (c : codec V) k v (m : omap X V) :
  ok k = true -> fits c v = true -> holds ok c m -> holds ok c (om_set k v m).
Proof. intros Hk Hv [S F]. split; [now apply om_sorted_set|]. apply om_set_Forall; auto. Qed.
Lemma holds_del {X V} {OK : OrdKey X} (ok : X -> bool) (c : codec V) k (m : omap X V) : holds ok c m -> holds ok c (om_del k m).
Proof. intros [S F]. split; [now apply om_sorted_del|]. now apply om_del_Forall. Qed.
Lemma holds_fold {X V E} {OK : OrdKey X} (ok : X -> bool) (c : codec V) (f : omap X V -> E -> omap X V) l m :
  (forall m x, In x l -> holds ok c m -> holds ok c (f m x)) -> holds ok c m -> holds ok c (fold_left f l m).
Proof.
  revert m. induction l as [|x l IH]; intros m H Hm; [exact Hm|]. cbn [fold_left]. apply IH; [|apply H; [now left|exact Hm]].
  intros m' y Hy. apply H. now right.
Qed.
Lemma holds_foldM {X V E} {OK : OrdKey X} (ok : X -> bool) (c : codec V) (f : omap X V -> E -> res (omap X V)) l m m' :
  (forall m x m', In x l -> holds ok c m -> f m x = Ok m' -> holds ok c m') -> holds ok c m -> foldM f l m = Ok m' -> holds ok c m'.
Proof.
  revert m. induction l as [|x l IH]; intros m H Hm E1; cbn [foldM] in E1; [apply Ok_inj in E1 as <-; exact Hm|].
  apply bind_Ok_inv in E1 as (m1 & E1 & E2). apply (IH m1); auto.
  - intros m0 y m2 Hy. apply H. now right.
  - apply (H m x m1); auto. now left.
Qed.
Lemma route_fits h o : fits (option_c (route_c h)) o = true.
Proof. destruct o; [|reflexivity]. destruct h; reflexivity. Qed.
Lemma strings_fit l : forallb (fun _ : str => true) l = true.
Proof. apply forallb_forall. reflexivity. Qed.
Lemma router_held h o i m r r' : emsg_ok (MRouter m) = true -> routes_held h r -> router_handle o i m r = Ok r' -> routes_held h r'.
Proof.
  intros O F H. unfold router_handle in H. apply bind_Ok_inv in H as (u & _ & H). destruct m as [x|l]; apply Ok_inj in H as <-.
  - apply holds_set; [exact O|apply route_fits|exact F].
  - cbn [emsg_ok] in O. rewrite forallb_forall in O. apply holds_fold; [|exact F]. intros m x Hx. apply holds_set; [now apply O|apply route_fits].
Qed.

(** ** ... from the beginning, and always *)

Lemma stored_born A q e i m st r : c_instantiate A q e i m = Ok (st, r) -> stored st.
Proof.
  intros H. pose proof (narrow_born _ _ _ _ _ _ _ H) as W. unfold c_instantiate, lift in H. apply bind_Ok_inv in H as (u & O & H).
  apply ensure_Ok_inv in O. destruct m; cbn [imsg_ok] in O; inv_all.
  all: try unfold mb_instantiate in *; try unfold va_instantiate in *; try unfold ms_instantiate in *; try unfold ag_instantiate in *;
    try unfold ri_instantiate in *; try unfold pi_instantiate in *; try unfold mk_instantiate in *; try unfold ah_instantiate in *;
    try unfold ph_instantiate in *; try unfold rh_instantiate in *; try unfold cu_instantiate in *; try unfold fb_instantiate in *;
    try unfold fe_instantiate in *; try unfold or_instantiate in *; try unfold gp_instantiate in *; try unfold wn_instantiate in *;
    try unfold wc_instantiate in *; inv_all; split_matches; cbn [stored narrow] in *; unfold routes_held;
    cbn [mb_domain mb_nonce mb_deliveries va_domain va_validators va_locations va_replay ms_validators ms_threshold ag_threshold ri_modules mk_tree
         rh_routes cu_routes cu_hooks fb_routes fe_fee or_data gp_routes gp_default_gas gp_gas wp_routes] in *; auto using holds_nil.
  all: try (repeat split; auto; constructor; fail).
  all: match goal with H : ri_save_all _ _ _ = Ok _ |- _ => revert H | _ => idtac end.
  intros H. refine (holds_foldM _ _ _ _ _ _ _ (holds_nil _ _) H). rewrite forallb_forall in O. intros m [d a] m' Hx Hm E1.
  apply bind_Ok_inv in E1 as (a' & _ & E1). apply Ok_inj in E1 as <-. apply holds_set; [exact (O _ Hx)|reflexivity|exact Hm].
Qed.

Lemma cu_register_held A l m m' : forallb (fun h => u32_ok (ch_dest h)) l = true -> holds pair_ok string_c m ->
  foldM (cu_register1 A) l m = Ok m' -> holds pair_ok string_c m'.
Proof.
  intros O Hm. rewrite forallb_forall in O. apply holds_foldM; [|exact Hm]. intros m0 x m1 Hx H0 H. unfold cu_register1 in H. inv_all.
  apply holds_set; [exact (O _ Hx)|reflexivity|exact H0].
Qed.
Lemma cu_clear_held l m m' : holds pair_ok string_c m ->
  foldM (fun m (p : N * str) => r <- hex_decode (snd p) ;; Ok (om_del (fst p, r) m)) l m = Ok m' -> holds pair_ok string_c m'.
Proof.
  intros Hm. apply holds_foldM; [|exact Hm]. intros m0 x m1 Hx H0 H. inv_all. now apply holds_del.
Qed.
Lemma gas_fit c : (u32_ok (gc_domain c) && u128_ok (gc_rate c) && u128_ok (gc_price c))%bool = true ->
  forall m, holds u32_ok gas_data_c m -> holds u32_ok gas_data_c (or_insert m c).
Proof.
  intros O m Hm. apply andb_true_iff in O as [O O3]. apply andb_true_iff in O as [O1 O2]. unfold or_insert.
  apply holds_set; [exact O1| |exact Hm]. cbn. now rewrite O2, O3.
Qed.

Lemma stored_step A ev st st' r : stored st -> timely ev -> c_apply A ev st = Ok (st', r) -> stored st'.
Proof.
  intros W T H. destruct ev as [e i m Q|id rr]; cbn [c_apply timely] in H, T.
  - unfold c_execute, lift in H. apply bind_Ok_inv in H as (u & O & H). apply ensure_Ok_inv in O.
    destruct st; inv_all; unfold_execs; destruct m; try discriminate; inv_all.
    all: unfold_helpers; inv_all; split_matches; cbn [stored] in *;
      cbn [mb_domain mb_nonce mb_deliveries va_domain va_validators va_locations va_replay ms_validators ms_threshold ag_threshold ri_modules mk_tree
         rh_routes cu_routes cu_hooks fb_routes fe_fee or_data gp_routes gp_default_gas gp_gas wp_routes] in *; auto.
    + destruct W as (W1 & W2 & W3). auto.
    + destruct W as (W1 & W2 & W3). repeat split; auto; [apply om_sorted_set, W3|]. apply om_set_Forall; [|apply W3].
      split; [reflexivity|]. cbn. rewrite andb_true_r. apply N.ltb_lt. exact T.
    + destruct W as (W1 & W2 & W3 & W4). split; [exact W1|]. repeat split; try (apply om_sorted_set; first [apply W2|apply W3|apply W4]).
      * apply om_set_Forall; [split; reflexivity|apply W2].
      * apply om_set_Forall; [split; [reflexivity|apply strings_fit]|apply W3].
      * apply om_set_Forall; [split; reflexivity|apply W4].
    + destruct W as (W1 & W2). cbn [emsg_ok] in O. apply andb_true_iff in O as [O1 O2].
      split; (apply holds_set; [exact O1| |assumption]); [apply strings_fit|exact O2].
    + destruct W as (W1 & W2). split; now apply holds_del.
    + apply holds_set; [exact O|reflexivity|exact W].
    + apply holds_fold; [|exact W]. intros m y _. apply holds_del.
    + unfold mt_insert in *. inv_all. cbn in W |- *.
      match goal with H : insert_loop _ _ _ = Ok _ |- _ => rewrite (insert_loop_length _ _ _ _ H) end.
      apply andb_true_iff in W as [W _]. rewrite W, andb_true_r. cbn [andb]. apply N.ltb_lt.
      match goal with H : (mt_count _ <? MAX_LEAVES) = true |- _ => apply N.ltb_lt in H; unfold MAX_LEAVES in H; unfold u128_max end. lia.
    + exact (router_held false _ _ _ _ _ O W Hr0).
    + destruct W as (W1 & W2). split; [exact (router_held false _ _ _ _ _ O W1 Hr0)|exact W2].
    + destruct W as (W1 & W2). split; [exact W1|]. cbn [emsg_ok] in O. eapply cu_register_held; [|exact W2|eassumption].
      cbn [forallb]. now rewrite O.
    + destruct W as (W1 & W2). split; [exact W1|]. eapply cu_register_held; [exact O|exact W2|eassumption].
    + destruct W as (W1 & W2). split; [exact W1|]. eapply cu_clear_held; [exact W2|eassumption].
    + destruct W as (W1 & W2). split; [exact W1|]. eapply cu_clear_held; [exact W2|eassumption].
    + exact (router_held false _ _ _ _ _ O W Hr0).
    + cbn [emsg_ok] in O. rewrite forallb_forall in O. eapply holds_foldM; [|exact W|eassumption]. intros m c m' Hc Hm E1. cbv beta in E1. inv_all.
      apply gas_fit; [exact (O _ Hc)|exact Hm].
    + now apply gas_fit.
    + destruct W as (W1 & W2 & W3). split; [exact (router_held false _ _ _ _ _ O W1 Hr0)|auto].
    + destruct W as (W1 & W2 & W3). auto.
    + destruct W as (W1 & W2 & W3). split; [exact W1|split; [exact W2|]]; apply (holds_fold u32_ok u128_c); try exact W3; cbn [emsg_ok] in O; rewrite forallb_forall in O;
        intros m p Hp; specialize (O p Hp); apply andb_true_iff in O as [O1 O2]; now apply holds_set.
    + destruct W as (W1 & W2 & W3). split; [exact W1|split; [exact W2|]]; apply (holds_fold u32_ok u128_c); try exact W3; intros m p _; apply holds_del.
    + exact (router_held true _ _ _ _ _ O W Hr0).
    + exact (router_held true _ _ _ _ _ O W Hr0).
  - unfold c_reply, lift in H. destruct st; try discriminate H; inv_all; unfold_helpers; inv_all; split_matches; exact W.
Qed.
Lemma stored_run A st h : stored st -> Forall timely h -> stored (c_run A st h).
Proof.
  unfold c_run. revert st. induction h as [|ev h IH]; intros st W T; [exact W|]. cbn [fold_left]. inversion T as [|? ? T1 T2]; subst.
  apply IH; [|exact T2]. unfold c_step.
  destruct (c_apply A ev st) as [[st' r]|e|] eqn:E; [exact (stored_step A ev st st' r W T1 E)|exact W|exact W].
Qed.

(** ** Names *)
Fixpoint apart (l : list (bool * str)) : bool :=
  match l with
  | [] => true
  | x :: l' => (negb (existsb (fun y => (Bool.eqb (fst x) (fst y) && bytes_eqb (snd x) (snd y))%bool) l') && apart l')%bool
  end.
Lemma apart_NoDup l : apart l = true -> NoDup l.
Proof.
  induction l as [|x l IH]; cbn [apart]; intros H; [constructor|]. apply andb_true_iff in H as [H1 H2]. apply negb_true_iff in H1.
  constructor; [|auto]. intros X. rewrite <- not_true_iff_false in H1. apply H1. apply existsb_exists. exists x.
  rewrite eqb_reflx, bytes_eqb_refl. auto.
Qed.
Lemma ordered_u32 {V} ns (c : codec V) m : holds u32_ok c m -> ordered (table ns u32_key c m).
Proof. intros H. apply (rows_sorted _ _ _ kind_u32 c m H). Qed.
Lemma ordered_bytes {V} ns (c : codec V) m : holds any c m -> ordered (table ns (fun k => k) c m).
Proof. intros H. apply (rows_sorted _ _ _ kind_bytes c m H). Qed.
Lemma ordered_pair {V} ns (c : codec V) m : holds pair_ok c m -> ordered (table ns pair_key c m).
Proof. intros H. apply (rows_sorted _ _ _ kind_pair c m H). Qed.

Ltac spread := cbn [cells own_cells warp_cells conn_cells info_cell pause_cell routes_cell item maybe table app].
Lemma cells_neat v st : stored st -> neat (info_cell v :: cells st).
Proof.
  intros W. split.
  - destruct st; spread; cbn [forallb plain]; lazy; reflexivity.
  - apply apart_NoDup. destruct st; spread; cbn [map title]; vm_compute; reflexivity.
  - destruct st; cbn [stored] in W;
    cbn [cells own_cells warp_cells conn_cells app]; unfold routes_held in W;
    repeat match goal with H : _ /\ _ |- _ => destruct H end; repeat match goal with |- Forall _ (_ :: _) => apply Forall_cons | |- Forall _ [] => apply Forall_nil end;
    match goal with
    | |- ordered (table _ u32_key _ _) => apply ordered_u32; assumption
    | |- ordered (table _ pair_key _ _) => apply ordered_pair; assumption
    | |- ordered (table _ _ _ _) => apply ordered_bytes; assumption
    | |- ordered (routes_cell _ _) => unfold routes_cell; apply ordered_u32; assumption
    | _ => exact I
    end.
Qed.

(** ** Reading everything *)
Ltac here := cbn [cells own_cells warp_cells conn_cells routes_cell app]; repeat (first [left; reflexivity|right]).
Ltac tamed := eexists (removelast _), (last _ x00); split; [apply app_removelast_last; discriminate|vm_compute; discriminate].
Lemma tame_name ns : negb (bytes_eqb ns []) = true -> negb (bN (last ns x00) =? 255) = true -> tame (prefix [ns]).
Proof.
  intros H1 H2. apply negb_true_iff in H1, H2. exists (be 2 (N.of_nat (length ns)) ++ removelast ns), (last ns x00).
  split; [|now apply N.eqb_neq]. unfold prefix, flat_map, named. rewrite app_nil_r, <- app_assoc. f_equal.
  apply app_removelast_last. intros ->. discriminate.
Qed.

Section Read.
  Context (v : cw2) (st : cstate).
  Hypothesis W : stored st.
  Let d := storage v st.
  Lemma read_item {A} k (c : codec A) a : In (item k c a) (cells st) -> kept c -> fits c a = true -> load c k d = Ok a.
  Proof. intros I. apply load_item; [now apply cells_neat|now right]. Qed.
  Lemma read_maybe {A} k (c : codec A) o : In (maybe k c o) (cells st) -> kept c ->
    match o with Some a => fits c a = true | None => True end -> may_load c k d = Ok o.
  Proof. intros I. apply may_load_maybe; [now apply cells_neat|now right]. Qed.
  Lemma read_u32s {V} ns (c : codec V) m : In (table ns u32_key c m) (cells st) -> kept c -> holds u32_ok c m ->
    negb (bytes_eqb ns []) = true -> negb (bN (last ns x00) =? 255) = true -> load_all u32_back c ns d = Ok m.
  Proof. intros I K H N1 N2. apply (load_all_table _ _ _ kind_u32); auto using cells_neat, tame_name. now right. Qed.
  Lemma read_bytes {V} ns (c : codec V) m : In (table ns (fun k => k) c m) (cells st) -> kept c -> holds any c m ->
    negb (bytes_eqb ns []) = true -> negb (bN (last ns x00) =? 255) = true -> load_all octets_back c ns d = Ok m.
  Proof. intros I K H N1 N2. apply (load_all_table _ _ _ kind_bytes); auto using cells_neat, tame_name. now right. Qed.
  Lemma read_pairs {V} ns (c : codec V) m : In (table ns pair_key c m) (cells st) -> kept c -> holds pair_ok c m ->
    negb (bytes_eqb ns []) = true -> negb (bN (last ns x00) =? 255) = true -> load_all pair_back c ns d = Ok m.
  Proof. intros I K H N1 N2. apply (load_all_table _ _ _ kind_pair); auto using cells_neat, tame_name. now right. Qed.
  Lemma read_own o : In (item (s "owner") string_c (o_owner o)) (cells st) ->
    In (maybe (s "pending_owner") string_c (o_pending o)) (cells st) -> load_own d = Ok o.
  Proof.
    intros I1 I2. unfold load_own. rewrite (read_item _ _ _ I1) by auto with store. cbn [bind].
    rewrite (read_maybe _ _ _ I2) by (auto with store; now destruct (o_pending o)). now destruct o.
  Qed.
  Lemma read_routes h r : In (routes_cell h r) (cells st) -> routes_held h r -> load_routes h d = Ok r.
  Proof. intros I H. apply read_u32s; auto with store. Qed.
End Read.

Ltac own_read W o := rewrite (read_own _ _ W o) by here; cbn [bind].
Ltac item_read W k c a := rewrite (read_item _ _ W (s k) c a) by (here || auto with store); cbn [bind].
Ltac maybe_read W k c o := rewrite (read_maybe _ _ W (s k) c o) by (here || auto with store || (destruct o; auto with store)); cbn [bind].
Lemma strings_fit' l : fits (list_c string_c) l = true.
Proof. apply strings_fit. Qed.
Lemma config_fits h n a b c : u32_ok n = true -> fits config_c (h, (n, (a, (b, (c, tt))))) = true.
Proof. intros H. cbn. rewrite H. now destruct a, b, c. Qed.
Lemma coin_fits x : u128_ok (c_amount x) = true -> fits coin_c x = true.
Proof. intros H. cbn. now rewrite H. Qed.
#[local] Hint Resolve strings_fit' config_fits coin_fits : store.
Ltac got := here || auto with store.
Lemma read_warp v st x : stored st -> cells st = warp_cells x -> routes_held true (wp_routes x) -> load_warp (storage v st) = Ok x.
Proof.
  intros W E R. unfold load_warp.
  rewrite (read_own _ _ W (wp_own x)) by (rewrite E; here). cbn [bind].
  rewrite (read_routes _ _ W true (wp_routes x)) by first [exact R|rewrite E; here]. cbn [bind]. unfold load_conn.
  rewrite (read_maybe _ _ W (s "conn::mailbox") string_c (cn_mailbox (wp_conn x))) by first [rewrite E; here|solve [auto with store]|now destruct (cn_mailbox (wp_conn x))].
  cbn [bind].
  rewrite (read_maybe _ _ W (s "conn::ism") string_c (cn_ism (wp_conn x))) by first [rewrite E; here|solve [auto with store]|now destruct (cn_ism (wp_conn x))].
  cbn [bind].
  rewrite (read_maybe _ _ W (s "conn::hook") string_c (cn_hook (wp_conn x))) by first [rewrite E; here|solve [auto with store]|now destruct (cn_hook (wp_conn x))].
  cbn [bind].
  rewrite (read_maybe _ _ W (s "token") string_c (wp_token x)) by first [rewrite E; here|solve [auto with store]|now destruct (wp_token x)].
  cbn [bind].
  rewrite (read_item _ _ W (s "mode") token_mode_c (wp_mode x)) by first [rewrite E; here|solve [auto with store]]. cbn [bind].
  rewrite (read_item _ _ W (s "hrp") string_c (wp_hrp x)) by first [rewrite E; here|solve [auto with store]]. cbn [bind].
  rewrite (read_item _ _ W (s "mailbox") string_c (wp_mailbox x)) by first [rewrite E; here|solve [auto with store]]. cbn [bind].
  destruct x as [a b [c1 c2 c3] d e f g]. reflexivity.
Qed.
Lemma read_back v st : stored st -> (forall x, st <> SCw20 x) -> load_state (program_of st) (storage v st) = Ok st.
Proof.
  intros W NC. destruct st as [x|x|x|x|x|x|x|x|x|x|x|x|x|x|x|x|x|x]; cbn [program_of load_state].
  - pose proof W as (W1 & W2 & W3). own_read W (mb_own x).
    rewrite (read_item _ _ W (s "config") config_c (mb_hrp x, (mb_domain x, (mb_ism x, (mb_hook x, (mb_required x, tt)))))) by got. cbn [bind].
    rewrite (read_item _ _ W (s "nonce") u32_c (mb_nonce x)) by got. cbn [bind].
    rewrite (read_maybe _ _ W (s "latest_dispatched_id") octets_c (mb_latest x)) by (first [solve [got]|destruct (mb_latest x); auto with store]).
    cbn [bind]. rewrite (read_bytes _ _ W (s "deliveries") delivery_c (mb_deliveries x)) by got. now destruct x.
  - pose proof W as (W1 & W2 & W3 & W4).
    rewrite (read_item _ _ W (s "mailbox") octets_c (va_mailbox x)) by got. cbn [bind].
    rewrite (read_item _ _ W (s "local_domain") u32_c (va_domain x)) by got. cbn [bind].
    rewrite (read_bytes _ _ W (s "validators") nothing_c (va_validators x)) by got. cbn [bind].
    rewrite (read_bytes _ _ W (s "storage_locations") (list_c string_c) (va_locations x)) by got. cbn [bind].
    rewrite (read_bytes _ _ W (s "replay_protections") nothing_c (va_replay x)) by got. now destruct x.
  - pose proof W as (W1 & W2). own_read W (ms_own x).
    rewrite (read_u32s _ _ W (s "validators") (list_c hex_c) (ms_validators x)) by got. cbn [bind].
    rewrite (read_u32s _ _ W (s "threshold") u8_c (ms_threshold x)) by got. now destruct x.
  - own_read W (ag_own x). rewrite (read_item _ _ W (s "isms") (list_c string_c) (ag_isms x)) by got. cbn [bind].
    rewrite (read_item _ _ W (s "threshold") u8_c (ag_threshold x)) by got. now destruct x.
  - own_read W (ri_own x). rewrite (read_u32s _ _ W (s "modules") string_c (ri_modules x)) by got. now destruct x.
  - own_read W (pi_own x). rewrite (read_item _ _ W (s "pause") bool_c (pi_paused x)) by got. now destruct x.
  - rewrite (read_item _ _ W (s "mailbox") string_c (mk_mailbox x)) by got. cbn [bind].
    rewrite (read_item _ _ W (s "message_tree") tree_c (mk_tree x)) by got. now destruct x.
  - own_read W (ah_own x). rewrite (read_item _ _ W (s "hooks") (list_c string_c) (ah_hooks x)) by got. now destruct x.
  - own_read W (ph_own x). rewrite (read_item _ _ W (s "pause") bool_c (ph_paused x)) by got. now destruct x.
  - own_read W (rh_own x). rewrite (read_routes _ _ W false (rh_routes x)) by got. now destruct x.
  - pose proof W as (W1 & W2). own_read W (cu_own x). rewrite (read_routes _ _ W false (cu_routes x)) by got. cbn [bind].
    rewrite (read_pairs _ _ W (s "custom_hooks") string_c (cu_hooks x)) by got. now destruct x.
  - own_read W (fb_own x). rewrite (read_routes _ _ W false (fb_routes x)) by got. cbn [bind].
    rewrite (read_maybe _ _ W (s "fallback_hook") string_c (fb_fallback x)) by (first [solve [got]|now destruct (fb_fallback x)]). now destruct x.
  - own_read W (fe_own x). rewrite (read_item _ _ W (s "coin_fee") coin_c (fe_fee x)) by got. now destruct x.
  - own_read W (or_own x). rewrite (read_u32s _ _ W (s "remote_gas_data") gas_data_c (or_data x)) by got. now destruct x.
  - pose proof W as (W1 & W2 & W3). own_read W (gp_own x). rewrite (read_routes _ _ W false (gp_routes x)) by got. cbn [bind].
    rewrite (read_item _ _ W (s "hrp") string_c (gp_hrp x)) by got. cbn [bind].
    rewrite (read_item _ _ W (s "gas_token") string_c (gp_token x)) by got. cbn [bind].
    rewrite (read_item _ _ W (s "default_gas_usage") u128_c (gp_default_gas x)) by got. cbn [bind].
    rewrite (read_u32s _ _ W (s "gas_for_domain") u128_c (gp_gas x)) by got. cbn [bind].
    rewrite (read_item _ _ W (s "beneficiary") string_c (gp_beneficiary x)) by got. now destruct x.
  - rewrite (read_warp v _ x W eq_refl W). reflexivity.
  - rewrite (read_warp v _ x W eq_refl W). reflexivity.
  - now elim (NC x).
Qed.

Lemma kept_stored A st : kept_by A st -> stored st.
Proof.
  intros [(q & e & i & m & r & st0 & h & H & T & ->) _]. apply stored_run; [exact (stored_born _ _ _ _ _ _ _ H)|exact T].
Qed.

(** ** Pages *)
Lemma upper_be_app c k : forall n, n + 1 < 256 ^ N.of_nat k -> upper (c ++ be k n) = c ++ be k (n + 1).
Proof.
  unfold upper. induction k as [|k IH]; intros n Hn; [change (256 ^ N.of_nat 0) with 1 in Hn; lia|].
  rewrite Nat2N.inj_succ, N.pow_succ_r' in Hn. cbn [be]. rewrite !app_assoc, !rev_app_distr. cbn [rev app carry]. rewrite <- rev_app_distr.
  assert (D : n = 256 * (n / 256) + n mod 256) by (apply N.div_mod; discriminate).
  assert (M : n mod 256 < 256) by (apply N.mod_lt; discriminate).
  rewrite bN_nB by exact M. destruct (n mod 256 =? 255) eqn:E.
  - apply N.eqb_eq in E. cbn [rev]. rewrite IH by (apply N.mul_lt_mono_pos_l with 256; lia).
    assert (E1 : (n + 1) / 256 = n / 256 + 1) by (symmetry; apply N.div_unique with 0; lia).
    assert (E2 : (n + 1) mod 256 = 0) by (symmetry; apply N.mod_unique with (n / 256 + 1); lia).
    now rewrite E1, E2.
  - apply N.eqb_neq in E. cbn [rev]. rewrite rev_involutive.
    assert (E1 : (n + 1) / 256 = n / 256) by (symmetry; apply N.div_unique with (n mod 256 + 1); lia).
    assert (E2 : (n + 1) mod 256 = n mod 256 + 1) by (symmetry; apply N.mod_unique with (n / 256); lia).
    now rewrite E1, E2.
Qed.
Lemma cu_prefix_get d r m : om_sorted m -> om_get r (cu_prefix d m) = om_get (d, r) m.
Proof.
  intros S. destruct (om_get (d, r) m) as [h|] eqn:E.
  - apply om_get_In, cu_prefix_In in E. now apply om_sorted_In_get; [apply cu_prefix_sorted|].
  - destruct (om_get r (cu_prefix d m)) as [h|] eqn:F; [|reflexivity]. apply om_get_In, cu_prefix_In in F.
    apply om_sorted_In_get in F; [congruence|exact S].
Qed.
Lemma rows_In {X V} {OK : OrdKey X} (ok : X -> bool) key (c : codec V) m r t : holds ok c m -> om_get r (rows key c m) = Some t ->
  exists x a, ok x = true /\ r = key x /\ In (x, a) m.
Proof.
  intros [_ F] H. apply om_get_In in H. unfold rows in H. apply in_map_iff in H as ([x a] & E & H). injection E as <- _.
  rewrite Forall_forall in F. exists x, a. repeat split; auto. exact (proj1 (F _ H)).
Qed.

Lemma load_page_sub l ns (m : omap (N * bytes) addr) d start lim o :
  neat l -> In (table ns pair_key string_c m) l -> holds pair_ok string_c m -> u32_ok d = true ->
  load_page (fun k => k) octets_back string_c (prefix [ns; u32_key d]) start lim o (layout l) = range_page (cu_prefix d m) start lim o.
Proof.
  intros N I H Hd. pose proof Hd as Hd'. apply N.ltb_lt in Hd'. unfold u32_max in Hd'.
  assert (P : prefix [ns; u32_key d] = prefix [ns] ++ be 6 (4 * 256 ^ 4 + d)).
  { unfold prefix, flat_map. rewrite !app_nil_r. f_equal. now apply named_u32. }
  assert (U : upper (prefix [ns; u32_key d]) = prefix [ns] ++ be 6 (4 * 256 ^ 4 + d + 1)).
  { rewrite P. apply upper_be_app. change (256 ^ N.of_nat 6) with 281474976710656. change (256 ^ 4) with 4294967296.
    change (2 ^ 32) with 4294967296 in Hd'. lia. }
  assert (B6 : forall n, n <= 4294967296 -> 4 * 256 ^ 4 + n < 256 ^ N.of_nat 6).
  { intros n Hn. change (256 ^ N.of_nat 6) with 281474976710656. change (256 ^ 4) with 4294967296. lia. }
  change (2 ^ 32) with 4294967296 in Hd'.
  assert (PK : forall d' r, u32_ok d' = true -> pair_key (d', r) = be 6 (4 * 256 ^ 4 + d') ++ r).
  { intros d' r X. unfold pair_key. cbn [fst snd]. now rewrite named_u32. }
  apply (load_page_section any (fun k => k) octets_back kind_bytes); auto with store.
  - split; [apply cu_prefix_sorted, H|]. apply Forall_forall. intros [r a] _. split; reflexivity.
  - intros k. rewrite P, <- app_assoc, (table_get pair_key string_c l ns m _ N I), <- (PK d k Hd).
    rewrite (rows_get _ _ _ kind_pair string_c m (d, k) H Hd).
    pose proof (cu_prefix_get d k m (proj1 H)) as E. unfold addr in *. rewrite <- E.
    rewrite (rows_get any (fun k => k) octets_back kind_bytes string_c (cu_prefix d m) k); [reflexivity| |reflexivity].
    split; [apply cu_prefix_sorted, H|]. apply Forall_forall. intros [r a] _. split; reflexivity.
  - intros k t Hk B. rewrite U in B. rewrite P in *. apply andb_true_iff in B as [B1 B2]. apply negb_true_iff in B1.
    pose proof (between _ _ _ _ B1 B2) as S. apply starts_split in S. set (r := skipn (length (prefix [ns])) k) in *. clearbody r. subst k.
    rewrite ltb_app in B1, B2. rewrite (table_get pair_key string_c l ns m _ N I) in Hk.
    destruct (rows_In pair_ok _ _ _ _ _ H Hk) as ([d' r'] & a & O & -> & _). unfold pair_ok in O. cbn [fst] in O.
    rewrite (PK _ _ O) in *. pose proof O as O'. apply N.ltb_lt in O'. unfold u32_max in O'. change (2 ^ 32) with 4294967296 in O'.
    assert (d' = d) as ->; [|apply starts_iff; exists r'; now rewrite app_assoc].
    destruct (N.eq_dec d' d) as [X|X]; [exact X|exfalso].
    rewrite <- (app_nil_r (be 6 (4 * 256 ^ 4 + d))) in B1.
    rewrite (ltb_same_length 6) in B1 by (try apply be_length; intros Y; apply be_inj in Y; try apply B6; lia).
    rewrite ltb_be in B1 by (apply B6; lia). apply N.ltb_ge in B1.
    rewrite <- (app_nil_r (be 6 (4 * 256 ^ 4 + d + 1))), <- N.add_assoc in B2. destruct (N.eq_dec d' (d + 1)) as [Y|Y].
    + subst d'. rewrite ltb_app, ltb_nil_r in B2. discriminate.
    + rewrite (ltb_same_length 6) in B2 by (try apply be_length; intros Z; apply be_inj in Z; try apply B6; lia).
      rewrite ltb_be in B2 by (apply B6; lia). apply N.ltb_lt in B2. lia.
  - intros k t _. rewrite U, P, <- app_assoc, ltb_app, <- (app_nil_r (be 6 (4 * 256 ^ 4 + d + 1))), <- N.add_assoc.
    rewrite (ltb_same_length 6) by (try apply be_length; intros Z; apply be_inj in Z; try apply B6; lia).
    rewrite ltb_be by (apply B6; lia). apply N.ltb_lt. lia.
  - destruct start; [reflexivity|exact Logic.I].
Qed.
