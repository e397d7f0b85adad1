(** * The entries of Store.v are those of SpecStore.v. *)
From Coq Require Import List NArith Bool Lia.
From Verif Require Import Base BaseFacts OMap Crypto Coins Hex Merkle Json JsonFacts Chain Ownable Router Utils Mailbox Va
  Isms Hooks Igp Warp Cw20 Contracts Wire WireQuery SpecWire WireFacts WireQueryFacts WireTexts Store StoreFacts SpecStore StoreState.
Import ListNotations.

(** ** Values *)
Lemma v_string t : value_text string_c t = quoted t.
Proof. apply t_string. Qed.
Lemma v_u32 n : value_text u32_c n = dec n.
Proof. reflexivity. Qed.
Lemma v_u8 n : value_text u8_c n = dec n.
Proof. reflexivity. Qed.
Lemma v_u128 n : value_text u128_c n = big n.
Proof. apply t_u128. Qed.
Lemma v_bool n : value_text bool_c n = truth n.
Proof. reflexivity. Qed.
Lemma v_mode n : value_text token_mode_c n = mode_text n.
Proof. apply t_mode. Qed.
Lemma v_coin n : value_text coin_c n = coin_text n.
Proof. apply t_coin. Qed.
Lemma v_strings l : value_text (list_c string_c) l = brackets (map quoted l).
Proof. apply t_list, t_string. Qed.
Lemma v_hexes l : value_text (list_c hex_c) l = brackets (map hexed l).
Proof. apply t_list, t_hex. Qed.
Lemma v_octets b : value_text octets_c b = octets b.
Proof.
  unfold value_text, octets_c, octets. cbn [as_c write]. rewrite (t_list u8_c dec) by exact t_u8. now rewrite map_map.
Qed.
Lemma v_nothing u : value_text nothing_c u = braces [].
Proof. reflexivity. Qed.
Lemma v_version v : value_text version_c v = braces [is "contract" (quoted (cv_contract v)); is "version" (quoted (cv_version v))].
Proof. destruct v as [a b]. unfold value_text, version_c. shapes. cbn [cv_contract cv_version]. leaves. reflexivity. Qed.
Lemma v_config h d a b c : value_text config_c (h, (d, (a, (b, (c, tt))))) =
  braces [is "hrp" (quoted h); is "local_domain" (dec d); is "default_ism" (or_null quoted a); is "default_hook" (or_null quoted b);
          is "required_hook" (or_null quoted c)].
Proof. unfold value_text, config_c. destruct a, b, c; shapes; leaves; reflexivity. Qed.
Lemma v_delivery d : value_text delivery_c d = braces [is "sender" (quoted (dl_sender d)); is "block_number" (dec (dl_height d))].
Proof. destruct d as [a b]. unfold value_text, delivery_c. shapes. cbn [dl_sender dl_height]. leaves. reflexivity. Qed.
Lemma v_tree t : value_text tree_c t = braces [is "branch" (brackets (map hexed (mt_branch t))); is "count" (big (mt_count t))].
Proof. destruct t as [a b]. unfold value_text, tree_c. shapes. cbn [mt_branch mt_count]. leaves. reflexivity. Qed.
Lemma v_gas g : value_text gas_data_c g = braces [is "token_exchange_rate" (big (gd_rate g)); is "gas_price" (big (gd_price g))].
Proof. destruct g as [a b]. unfold value_text, gas_data_c. shapes. cbn [gd_rate gd_price]. leaves. reflexivity. Qed.
Lemma v_route h o : value_text (option_c (route_c h)) o = or_null (if h then hexed else quoted) o.
Proof. unfold value_text. cbn [option_c write]. apply t_option. exact (t_route h). Qed.

(** ** Cells *)
Lemma e_item {A} k (c : codec A) f a : (forall x, value_text c x = f x) -> entries (item k c a) = [(k, f a)].
Proof. intros H. cbn [entries item]. now rewrite H. Qed.
Lemma e_maybe {A} k (c : codec A) f o : (forall x, value_text c x = f x) -> entries (maybe k c o) = if_any k f o.
Proof. intros H. destruct o; cbn [entries maybe option_map if_any]; [now rewrite H|reflexivity]. Qed.
Lemma path_entry ns k : path ns k = entry ns k.
Proof. unfold path, entry, prefix, flat_map, named. now rewrite app_nil_r, <- app_assoc. Qed.
Lemma e_table {K A} ns (key : K -> bytes) (c : codec A) f m : (forall x, value_text c x = f x) ->
  entries (table ns key c m) = of_map ns key f m.
Proof.
  intros H. cbn [entries table]. unfold of_map. rewrite map_map. apply map_ext. intros [k a]. cbn [fst snd]. now rewrite H, path_entry.
Qed.
Lemma e_own o : flat_map entries (own_cells o) = owner_entries o.
Proof.
  unfold own_cells, owner_entries. cbn [flat_map]. rewrite (e_item _ _ _ _ v_string), (e_maybe _ _ _ _ v_string), app_nil_r. reflexivity.
Qed.
Lemma e_routes h r : entries (routes_cell h r) = route_entries h r.
Proof. exact (e_table _ _ _ _ _ (v_route h)). Qed.
Lemma e_info v : entries (info_cell v) = [(s "contract_info", braces [is "contract" (quoted (cv_contract v)); is "version" (quoted (cv_version v))])].
Proof. exact (e_item _ _ _ _ v_version). Qed.
Lemma e_custom m : entries (table (s "custom_hooks") pair_key string_c m)
  = map (fun p => (custom (fst (fst p)) (snd (fst p)), quoted (snd p))) m.
Proof.
  rewrite (e_table _ _ _ _ _ v_string). unfold of_map. apply map_ext. intros [[n k] a]. cbn [fst snd]. unfold custom, pair_key, named, u32_key, domain.
  cbn [fst snd]. now rewrite be_length, <- app_assoc.
Qed.

Lemma entries_dump v st : (forall x, st <> SCw20 x) -> flat_map entries (info_cell v :: cells st) = dump v st.
Proof.
  intros NC. cbn [flat_map]. rewrite e_info. unfold dump. cbn [app]. f_equal.
  destruct st as [x|x|x|x|x|x|x|x|x|x|x|x|x|x|x|x|x|x]; cbn [cells]; unfold warp_cells, conn_cells, pause_cell;
    try (rewrite ?flat_map_app, ?e_own; f_equal); rewrite ?app_comm_cons; cbn [flat_map app];
    rewrite ?e_routes, ?e_custom, ?(e_item _ _ _ _ v_string), ?(e_item _ _ _ _ v_u32), ?(e_item _ _ _ _ v_u8), ?(e_item _ _ _ _ v_u128),
      ?(e_item _ _ _ _ v_bool), ?(e_item _ _ _ _ v_mode), ?(e_item _ _ _ _ v_coin), ?(e_item _ _ _ _ v_strings), ?(e_item _ _ _ _ v_octets),
      ?(e_item _ _ _ _ v_tree), ?(e_maybe _ _ _ _ v_string), ?(e_maybe _ _ _ _ v_octets),
      ?(e_table _ _ _ _ _ v_delivery), ?(e_table _ _ _ _ _ v_nothing), ?(e_table _ _ _ _ _ v_strings), ?(e_table _ _ _ _ _ v_hexes),
      ?(e_table _ _ _ _ _ v_string), ?(e_table _ _ _ _ _ v_u8), ?(e_table _ _ _ _ _ v_gas), ?(e_table _ _ _ _ _ v_u128), ?app_nil_r; try reflexivity.
  cbn [entries item app]. rewrite v_config. reflexivity.
Qed.

Lemma get_in {V} k (v : V) (l : omap bytes V) : NoDup (map fst l) -> (om_get k l = Some v <-> In (k, v) l).
Proof.
  induction l as [|[x w] l IH]; cbn [map fst om_get In]; intros H; [split; [discriminate|intros []]|].
  inversion H as [|? ? Hn Hd]; subst. destruct (keqb k x) eqn:E.
  - apply keqb_eq in E. subst x. split.
    + intros Q. left. apply Some_inj in Q. now rewrite Q.
    + intros [Q|Q]; [congruence|]. destruct Hn. now apply in_map with (f := fst) in Q.
  - rewrite (IH Hd). split; [now right|]. intros [Q|Q]; [|exact Q]. injection Q as -> _. now rewrite keqb_refl in E.
Qed.
Lemma storage_dump v st k t : stored st -> (forall x, st <> SCw20 x) -> (om_get k (storage v st) = Some t <-> In (k, t) (dump v st)).
Proof.
  intros W NC. rewrite <- (entries_dump v st NC). unfold storage, layout.
  assert (D : NoDup (map fst (flat_map entries (info_cell v :: cells st)))) by now apply cells_NoDup, cells_neat.
  rewrite om_of_list_get by exact D. now apply get_in.
Qed.
