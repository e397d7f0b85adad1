(** * Instantiation messages: what is written is read, and all of what is read counts. *)
From Coq Require Import List NArith Bool Lia.
From Verif Require Import Base BaseFacts OMap Coins Hex Json JsonFacts SpecJson JsonGrammar Chain Ownable Warp Contracts Wire WireQuery WireInit RawWorld
  SpecWire SpecInitText StepFacts WireFacts WireQueryFacts WireTexts WireStrict.
Import ListNotations.

(** ** Parts *)
Lemma u64_small n : u64_ok n = true -> n < u256_max.
Proof. intros H. unfold u64_ok in H. apply N.ltb_lt in H. eapply N.lt_trans; [exact H|reflexivity]. Qed.
Lemma good_u64 : good u64_c. Proof. apply good_int, u64_small. Qed.
Lemma good_str32 : good str32_c. Proof. apply good_big, u32_small. Qed.
Lemma good_unit : good unit_c.
Proof. apply good_as; [codec_good; exact good_str32|now intros []|now intros (a & b & c & [])]. Qed.
Lemma good_metadata : good metadata_c.
Proof. apply good_as; [codec_good; exact good_unit|now intros []|now intros (a & b & c & d & e & f & [])]. Qed.
Lemma good_balance : good balance_c.
Proof. apply good_as; [codec_good|now intros []|now intros (a & b & [])]. Qed.
Lemma good_minter : good minter_c.
Proof. apply good_as; [codec_good|now intros []|now intros (a & b & [])]. Qed.
Lemma good_logo : good logo_c.
Proof.
  apply good_enum; [|vm_compute; reflexivity]. each. apply lawful_on; [codec_good|reflexivity| | |reflexivity].
  - intros a x H. now injection H.
  - reflexivity.
Qed.
Lemma good_marketing : good marketing_c.
Proof. apply good_as; [codec_good; exact good_logo|now intros []|now intros (a & b & c & d & [])]. Qed.
Lemma good_token_init : good token_init_c.
Proof.
  apply good_as; [codec_good; [exact good_balance|exact good_minter|exact good_marketing]|now intros []|now intros (a & b & c & d & e & f & [])].
Qed.
Lemma good_ism_set : good ism_set_c.
Proof. apply good_as; [codec_good|now intros []|now intros (a & b & [])]. Qed.
Lemma good_native_token : good native_token_c.
Proof.
  apply good_enum; [|vm_compute; reflexivity]. each; apply lawful_on.
  - codec_good. exact good_metadata.
  - intros (a & b & []) _. reflexivity.
  - intros [d m|d] x H; [|discriminate H]. injection H as <-. reflexivity.
  - intros [d m|d] x H O; [|discriminate H]. injection H as <-. cbn [struct struct_of fits sfits field optional none fst snd string_c andb].
    destruct m; [now rewrite O|reflexivity].
  - intros (d & m & []) H. cbn [struct struct_of fits sfits field optional none fst snd string_c andb] in H. rewrite andb_true_r in H.
    destruct m; [exact H|reflexivity].
  - codec_good.
  - intros (a & []) _. reflexivity.
  - intros [d m|d] x H; [discriminate H|]. injection H as <-. reflexivity.
  - intros [d m|d] x H O; [discriminate H|]. injection H as <-. reflexivity.
  - intros (d & []) H. reflexivity.
Qed.
Lemma good_choice : good cw20_choice_c.
Proof.
  apply good_enum; [|vm_compute; reflexivity]. each; apply lawful_on.
  - codec_good; [exact good_u64|exact good_token_init].
  - intros (a & b & []) _. reflexivity.
  - intros [d m|d] x H; [|discriminate H]. injection H as <-. reflexivity.
  - intros [d m|d] x H O; [|discriminate H]. injection H as <-. cbn [struct struct_of fits sfits field none fst snd u64_c int_c].
    rewrite andb_true_r. exact O.
  - intros (d & m & []) H. cbn [struct struct_of fits sfits field none fst snd u64_c int_c] in H. rewrite andb_true_r in H. exact H.
  - codec_good.
  - intros (a & []) _. reflexivity.
  - intros [d m|d] x H; [discriminate H|]. injection H as <-. reflexivity.
  - intros [d m|d] x H O; [discriminate H|]. injection H as <-. reflexivity.
  - intros (d & []) H. reflexivity.
Qed.

(** ** Messages *)
Ltac init_parts := codec_good; first [exact good_coin | exact good_ism_set | exact good_native_token | exact good_choice].
Lemma good_owned f g : (forall o, g (f o) = Some o) -> (forall m o, g m = Some o -> m = f o) -> good (owned_c f g).
Proof.
  intros H1 H2. apply good_ans; [codec_good| |].
  - intros (o & []) _. now rewrite H1.
  - intros [m|h m|t h o m] x; [|discriminate..]. destruct (g m) as [o|] eqn:E; [|discriminate]. intros H. injection H as <-. f_equal. now apply H2.
Qed.
Lemma good_pausing f g : (forall o p, g (f o p) = Some (o, p)) -> (forall m o p, g m = Some (o, p) -> m = f o p) -> good (pausing_c f g).
Proof.
  intros H1 H2. apply good_ans; [codec_good| |].
  - intros (o & p & []) _. now rewrite H1.
  - intros [m|h m|t h o m] x; [|discriminate..]. destruct (g m) as [[o p]|] eqn:E; [|discriminate]. intros H. injection H as <-. f_equal. now apply H2.
Qed.
Lemma good_init p : good (init_c p).
Proof.
  destruct p; cbn [init_c];
    try (apply good_owned; [reflexivity|intros m o H; destruct m; try discriminate H; now injection H as ->]);
    try (apply good_pausing; [reflexivity|intros m o p H; destruct m; try discriminate H; now injection H as -> ->]);
    try (apply good_ans;
      [ codec_good; first [exact good_coin | exact good_ism_set | exact good_native_token | exact good_choice | idtac]
      | intros x _; parts; reflexivity
      | intros b x Hx; destruct b as [im|h m|t h o m]; try discriminate Hx; try (destruct im; try discriminate Hx); injection Hx as <-; reflexivity ]).
  split; cbn [read write fits]; discriminate.
Qed.

(** ** Which messages fit *)
Lemma forallb_same {A} (f g : A -> bool) l : (forall x, f x = g x) -> forallb f l = forallb g l.
Proof. intros H. induction l as [|x l IH]; cbn [forallb]; [reflexivity|now rewrite H, IH]. Qed.
Lemma fits_unit u : fits unit_c u = u32_ok (du_exponent u).
Proof.
  unfold unit_c. cbn [as_c fits struct struct_of sfits field none fst snd string_c str32_c big_c list_c andb].
  rewrite forallb_yes. now rewrite !andb_true_r.
Qed.
Lemma fits_metadata m : fits metadata_c m = forallb (fun u => u32_ok (du_exponent u)) (md_units m).
Proof.
  unfold metadata_c. cbn [as_c fits struct struct_of sfits field none fst snd string_c list_c andb]. rewrite !andb_true_r.
  apply forallb_same. exact fits_unit.
Qed.
Lemma fits_token x : fits token_init_c x = token_widths x.
Proof.
  destruct x as [n y d l m k]. unfold token_init_c, token_widths. cbn [as_c fits struct struct_of sfits field optional none fst snd string_c list_c u8_c int_c andb
    ti_name ti_symbol ti_decimals ti_balances ti_mint ti_marketing].
  assert (E : forallb (fits balance_c) l = forallb (fun p => snd p <? 2 ^ 128) l).
  { apply forallb_same. intros [a b]. cbn [balance_c as_c fits struct struct_of sfits field none fst snd string_c u128_c big_c andb]. now rewrite andb_true_r. }
  assert (F : match m with Some a => fits minter_c a | None => true end = match m with Some (_, Some c) => c <? 2 ^ 128 | _ => true end).
  { destruct m as [[a [c|]]|]; [|reflexivity..]. cbn [minter_c as_c fits struct struct_of sfits optional field none fst snd string_c u128_c big_c andb]. now rewrite andb_true_r. }
  assert (G : match k with Some a => fits marketing_c a | None => true end = true).
  { destruct k as [[a b c [e|]]|]; [|destruct a, b, c; reflexivity|reflexivity]. destruct a, b, c; reflexivity. }
  rewrite E, F, G, !andb_true_r. unfold u8_ok, u8_max. now rewrite andb_assoc.
Qed.
Lemma fits_native t : fits native_token_c t = match t with NtBridged _ (Some md) => forallb (fun u => u32_ok (du_exponent u)) (md_units md) | _ => true end.
Proof. destruct t as [d [m|]|d]; [|reflexivity..]. cbn [native_token_c fits enum existsb on put option_map orb andb]. apply fits_metadata. Qed.
Lemma fits_choice t : fits cw20_choice_c t = match t with ChNew n x => ((n <? 2 ^ 64) && token_widths x)%bool | _ => true end.
Proof. destruct t as [n x|a]; [|reflexivity]. cbn [cw20_choice_c fits enum existsb on put option_map orb andb]. now rewrite fits_token. Qed.
Lemma fits_init p b : fits (init_c p) b = true <-> program_made (meant b) = p /\ proper b = true.
Proof.
  split.
  - destruct p; cbn [init_c owned_c pausing_c ans fits]; destruct b as [im|h m|t h o m];
      try discriminate; try (destruct im; cbn [option_map]; try discriminate); cbn [struct struct_of fits sfits field none fst snd string_c
        list_c u8_c u32_c int_c u128_c big_c bool_c coin_c as_c andb proper imsg_ok meant program_made c_denom c_amount];
      rewrite ?andb_true_r; try (intros H; now split).
    + intros H. split; [reflexivity|]. now rewrite forallb_yes in H.
    + intros H. split; [reflexivity|]. rewrite <- H. apply forallb_same. intros [a b]. cbn [ism_set_c as_c fits struct struct_of sfits field none fst snd string_c u32_c int_c andb]. now rewrite andb_true_r.
    + rewrite fits_native. intros H. now split.
    + rewrite fits_choice. intros H. destruct t; now split.
  - intros [E H]. subst p. destruct b as [m|h m|t h o m].
    + destruct m; cbn [meant program_made init_c owned_c pausing_c ans fits option_map]; cbn [proper imsg_ok meant] in H; try discriminate H;
      cbn [struct struct_of fits sfits field none fst snd string_c list_c u8_c u32_c int_c u128_c big_c bool_c coin_c as_c andb c_denom c_amount];
      rewrite ?andb_true_r; try exact H; try reflexivity.
      * now rewrite forallb_yes.
      * rewrite <- H. apply forallb_same. intros [a b]. cbn [ism_set_c as_c fits struct struct_of sfits field none fst snd string_c u32_c int_c andb]. now rewrite andb_true_r.
      * apply forallb_yes.
      * now rewrite fits_native.
    + reflexivity.
    + assert (program_made (meant (BWarp t h o m)) = PWarpCw20) as -> by now destruct t.
      cbn [init_c ans fits struct struct_of sfits field none fst snd string_c andb]. rewrite fits_choice, andb_true_r. destruct t; [exact H|reflexivity].
Qed.

(** ** Texts *)
Lemma t_str32 n : text (write str32_c n) = big n.
Proof. apply t_big. Qed.
Lemma t_unit u : text (write unit_c u) = unit_text u.
Proof. destruct u as [a b c]. unfold unit_c. shapes. cbn [du_denom du_exponent du_aliases]. rewrite t_obj. cbn [members]. rewrite t_str32. leaves. reflexivity. Qed.
Lemma t_metadata m : text (write metadata_c m) = metadata_text m.
Proof.
  destruct m as [a l b c d e]. unfold metadata_c. shapes. cbn [md_description md_units md_base md_display md_name md_symbol]. rewrite t_obj. cbn [members].
  rewrite (t_list _ _ l t_unit). leaves. reflexivity.
Qed.
Lemma t_balance p : text (write balance_c p) = balance_text p.
Proof. destruct p as [a b]. unfold balance_c. shapes. leaves. reflexivity. Qed.
Lemma t_minter p : text (write minter_c p) = minter_text p.
Proof. destruct p as [a b]. unfold minter_c. shapes. rewrite t_obj. cbn [members]. rewrite (t_option _ _ b t_u128). leaves. reflexivity. Qed.
Lemma t_logo u : text (write logo_c u) = variant "url" (quoted u).
Proof. cbn [logo_c write enum write_case on put option_map tag]. rewrite t_obj. cbn [members]. leaves. reflexivity. Qed.
Lemma t_marketing x : text (write marketing_c x) = marketing_text x.
Proof.
  destruct x as [a b c d]. unfold marketing_c. shapes. cbn [mk_project mk_description mk_marketing mk_logo]. rewrite t_obj. cbn [members].
  rewrite (t_option _ _ d t_logo), !(t_option _ _ _ t_string). leaves. reflexivity.
Qed.
Lemma t_token_init x : text (write token_init_c x) = token_init_text x.
Proof.
  destruct x as [n y d l m k]. unfold token_init_c. shapes. cbn [ti_name ti_symbol ti_decimals ti_balances ti_mint ti_marketing]. rewrite t_obj. cbn [members].
  rewrite (t_option _ _ m t_minter), (t_option _ _ k t_marketing), (t_list _ _ l t_balance). leaves. reflexivity.
Qed.
Lemma t_u64 n : text (write u64_c n) = dec n.
Proof. reflexivity. Qed.
Lemma t_native t : text (write native_token_c t) =
  match t with
  | NtBridged d md => variant "bridged" (braces [is "denom" (quoted d); is "metadata" (or_null metadata_text md)])
  | NtCollateral d => variant "collateral" (braces [is "denom" (quoted d)])
  end.
Proof.
  destruct t as [d m|d]; cbn [native_token_c write enum write_case on put option_map tag]; shapes; rewrite t_obj; cbn [members]; rewrite t_obj; cbn [members];
    rewrite ?(t_option _ _ m t_metadata); leaves; reflexivity.
Qed.
Lemma t_choice t : text (write cw20_choice_c t) =
  match t with
  | ChNew n x => variant "bridged" (braces [is "code_id" (dec n); is "init_msg" (token_init_text x)])
  | ChOld a => variant "collateral" (braces [is "address" (quoted a)])
  end.
Proof.
  destruct t as [n x|a]; cbn [cw20_choice_c write enum write_case on put option_map tag]; shapes; rewrite t_obj; cbn [members]; rewrite t_obj; cbn [members];
    rewrite ?t_u64, ?t_token_init; leaves; reflexivity.
Qed.
Lemma t_ism_set p : text (write ism_set_c p) = braces [is "domain" (dec (fst p)); is "address" (quoted (snd p))].
Proof. destruct p as [a b]. unfold ism_set_c. shapes. leaves. reflexivity. Qed.
Lemma init_texts p b : fits (init_c p) b = true -> write_init p b = birth_text b.
Proof.
  unfold write_init.
  destruct p; cbn [init_c owned_c pausing_c ans fits write]; destruct b as [im|h m|t h o m];
    try discriminate; try (destruct im; cbn [option_map]; try discriminate); intros _; shapes; rewrite t_obj; cbn [members];
    rewrite ?t_native, ?t_choice, ?t_coin, ?(t_list _ _ _ t_ism_set); leaves; unfold birth_text, route_init_text; try reflexivity.
  - destruct t; reflexivity.
  - destruct t; reflexivity.
Qed.

(** ** All of it *)
Lemma snug_u64 : snug u64_c. Proof. apply snug_int. Qed.
Lemma snug_str32 : snug str32_c. Proof. apply snug_big, u32_small. Qed.
Lemma snug_unit : snug unit_c.
Proof. apply snug_as; [pose proof snug_str32; snug_codec|now intros (a & b & c & [])]. Qed.
Lemma snug_metadata : snug metadata_c.
Proof. apply snug_as; [pose proof snug_unit; snug_codec|now intros (a & b & c & d & e & f & [])]. Qed.
Lemma snug_balance : snug balance_c.
Proof. apply snug_as; [snug_codec|now intros (a & b & [])]. Qed.
Lemma snug_minter : snug minter_c.
Proof. apply snug_as; [snug_codec|now intros (a & b & [])]. Qed.
Lemma snug_logo : snug logo_c.
Proof. snug_each. Qed.
Lemma snug_marketing : snug marketing_c.
Proof. apply snug_as; [pose proof snug_logo; snug_codec|now intros (a & b & c & d & [])]. Qed.
Lemma snug_token_init : snug token_init_c.
Proof. apply snug_as; [pose proof snug_balance; pose proof snug_minter; pose proof snug_marketing; snug_codec|now intros (a & b & c & d & e & f & [])]. Qed.
Lemma snug_ism_set : snug ism_set_c.
Proof. apply snug_as; [snug_codec|now intros (a & b & [])]. Qed.
Lemma snug_native : snug native_token_c.
Proof. pose proof snug_metadata. snug_each. Qed.
Lemma snug_choice : snug cw20_choice_c.
Proof. pose proof snug_u64. pose proof snug_token_init. snug_each. Qed.
Lemma snug_ans {X R} (c : codec X) (f : X -> R) (g : R -> option X) : snug c -> (forall x, g (f x) = Some x) -> snug (ans c f g).
Proof.
  intros S H j b R0. cbn [read ans] in R0. destruct (read c j) as [a|] eqn:E; [|discriminate R0]. injection R0 as <-. cbn [write ans].
  rewrite H. exact (S j a E).
Qed.
Lemma snug_init p : snug (init_c p).
Proof.
  pose proof snug_native. pose proof snug_choice. pose proof snug_ism_set.
  destruct p; cbn [init_c owned_c pausing_c]; try (apply snug_ans; [snug_codec|intros x; parts; reflexivity]).
  intros j a E. discriminate E.
Qed.

(** ** Reading *)
Lemma birth_reads b : proper b = true -> read_init (program_made (meant b)) (birth_text b) = Some b.
Proof.
  intros P. assert (F : fits (init_c (program_made (meant b))) b = true) by now apply fits_init.
  rewrite <- (init_texts _ _ F). unfold read_init, write_init. rewrite parse_text by (apply (g_small _ (good_init _)), F).
  exact (g_back _ (good_init _) b F).
Qed.
Lemma birth_only p t b : read_init p t = Some b -> program_made (meant b) = p /\ proper b = true.
Proof.
  unfold read_init. destruct (parse t) as [j|]; [|discriminate]. intros R. apply fits_init. exact (g_fits _ (good_init p) j b R).
Qed.
Lemma birth_strict p t b : read_init p t = Some b -> exists j j', document j t /\ document j' (birth_text b) /\ within j j'.
Proof.
  intros R. assert (F : fits (init_c p) b = true) by (apply fits_init; exact (birth_only p t b R)).
  unfold read_init in R. destruct (parse t) as [j|] eqn:P; [|discriminate R]. exists j, (write (init_c p) b).
  split; [now apply grammar|]. split; [|exact (snug_init p j b R)]. apply grammar. rewrite <- (init_texts p b F).
  apply parse_text, (g_small _ (good_init _)), F.
Qed.
Lemma birth_alike b j j' t : proper b = true -> document j' (birth_text b) -> alike j j' -> document j t ->
  read_init (program_made (meant b)) t = Some b.
Proof.
  intros P D A T. assert (F : fits (init_c (program_made (meant b))) b = true) by now apply fits_init.
  apply grammar in D, T. unfold read_init. rewrite T. apply (g_alike _ (good_init _) j b F).
  rewrite <- (init_texts _ b F) in D. unfold write_init in D. rewrite parse_text in D by (apply (g_small _ (good_init _)), F).
  apply Some_inj in D. rewrite D. exact A.
Qed.
Lemma birth_inj b b' : proper b = true -> proper b' = true -> program_made (meant b) = program_made (meant b') ->
  birth_text b = birth_text b' -> b = b'.
Proof.
  intros P P' E T. pose proof (birth_reads b P) as H. rewrite T, E, (birth_reads b' P') in H. now injection H.
Qed.
Lemma proper_ok b : proper b = true -> imsg_ok (meant b) = true.
Proof.
  destruct b as [m|h m|[n x|a] h o m]; [destruct m; intros H; exact H || discriminate H|reflexivity| |reflexivity].
  cbn [proper meant imsg_ok]. unfold token_widths. intros H. apply andb_true_iff in H as [_ H]. apply andb_true_iff in H as [H _].
  apply andb_true_iff in H as [_ H]. exact H.
Qed.

(** ** The token *)
Lemma order_reads e n x : token_widths x = true ->
  od_text (order_token e n x) = token_init_text (mkTokenInit (ti_name x) (ti_symbol x) (ti_decimals x) (ti_balances x) (Some (e_contract e, None)) (ti_marketing x)) /\
  read_token (od_text (order_token e n x)) =
    Some (mkTokenInit (ti_name x) (ti_symbol x) (ti_decimals x) (ti_balances x) (Some (e_contract e, None)) (ti_marketing x)).
Proof.
  intros W. unfold order_token. cbn [od_text]. set (y := mkTokenInit _ _ _ _ _ _). split; [apply t_token_init|].
  assert (F : fits token_init_c y = true).
  { rewrite fits_token. unfold token_widths in *. apply andb_true_iff in W as [W _]. cbn [y ti_decimals ti_balances ti_mint]. now rewrite W. }
  unfold read_token. rewrite parse_text by (apply (g_small _ good_token_init), F). exact (g_back _ good_token_init y F).
Qed.
Lemma birth_only_ok p t b : read_init p t = Some b -> program_made (meant b) = p /\ proper b = true /\ imsg_ok (meant b) = true.
Proof. intros R. destruct (birth_only p t b R) as [H1 H2]. auto using proper_ok. Qed.
Lemma token_ordered A q e i n x h o mb st r :
  proper (BWarp (ChNew n x) h o mb) = true -> c_instantiate A q e i (meant (BWarp (ChNew n x) h o mb)) = Ok (st, r) ->
  r_msgs r = [mkSub (CInstantiateCw20 (e_contract e) (ti_balances x)) (RpSuccess REPLY_ID_CREATE_DENOM)] /\
  let d := order_token e n x in
  let y := mkTokenInit (ti_name x) (ti_symbol x) (ti_decimals x) (ti_balances x) (Some (e_contract e, None)) (ti_marketing x) in
  od_admin d = Some (e_contract e) /\ od_code d = n /\ od_text d = token_init_text y /\ read_token (od_text d) = Some y /\
  token_meant y = Some (ICw20 (Some (e_contract e)) (ti_balances x)).
Proof.
  intros P H. split.
  - unfold c_instantiate, lift, wc_instantiate in H. cbn [meant] in H. inv_all. reflexivity.
  - cbn [proper] in P. apply andb_true_iff in P as [_ P]. destruct (order_reads e n x P) as [H1 H2]. cbv zeta. auto.
Qed.
Lemma births_by_text A q e i b : proper b = true ->
  init_json A q e i (program_made (meant b)) (birth_text b) =
  c_instantiate A q e i
    match b with
    | BPlain m => m
    | BVa _ mb => IVa mb
    | BWarp (ChNew _ x) h o mb => IWarpCw20 (CtBridged (ti_balances x)) h o mb
    | BWarp (ChOld a) h o mb => IWarpCw20 (CtCollateral a) h o mb
    end.
Proof. intros P. unfold init_json. rewrite (birth_reads b P). reflexivity. Qed.
Lemma births_made A q e i p t st r : init_json A q e i p t = Ok (st, r) ->
  program_of st = p /\ exists b, read_init p t = Some b /\ c_instantiate A q e i (meant b) = Ok (st, r).
Proof.
  unfold init_json. destruct (read_init p t) as [b|] eqn:R; [|discriminate]. intros H. destruct (birth_only p t b R) as [<- _]. split; [|eauto].
  unfold c_instantiate in H. apply bind_Ok_inv in H as (v & _ & H). destruct (meant b); unfold lift in H; inv_all; reflexivity.
Qed.
