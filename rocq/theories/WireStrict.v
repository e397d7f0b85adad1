(** * What a contract reads, it reads all of. *)
From Coq Require Import List NArith Bool Lia.
From Verif Require Import Base BaseFacts OMap Coins Hex HexFacts SpecVersion SpecCodec SpecEvents ProtoFacts EventFacts CaseFacts
  Json JsonFacts SpecJson JsonGrammar Chain Ownable Contracts Wire WireQuery SpecQuery SpecWire WireFacts WireQueryFacts WireTexts.
Import ListNotations.

Definition snug {A} (c : codec A) : Prop := forall j a, read c j = Some a -> within j (write c a).

Lemma snug_string : snug string_c.
Proof. intros j a H. destruct j; try discriminate H. injection H as <-. apply within_same. exact I. Qed.
Lemma snug_bool : snug bool_c.
Proof. intros j a H. destruct j; try discriminate H. injection H as <-. apply within_same. exact I. Qed.
Lemma snug_int ok : snug (int_c ok).
Proof.
  intros j a H. destruct j as [ |b|n|t|l|l]; try discriminate H. cbn [read int_c] in H. destruct (ok n); [|discriminate H].
  injection H as <-. apply within_same. exact I.
Qed.
Lemma snug_u8 : snug u8_c. Proof. apply snug_int. Qed.
Lemma snug_u32 : snug u32_c. Proof. apply snug_int. Qed.
Lemma parse_dec_quantity t n : parse_dec t = Some n -> quantity t n.
Proof.
  unfold parse_dec. set (u := match t with c :: t' => if bN c =? 43 then t' else t | [] => [] end). intros H.
  assert (T : t = u \/ t = x2b :: u).
  { unfold u. destruct t as [|c t]; [now left|]. destruct (bN c =? 43) eqn:E; [|now left]. right. apply is_byte in E. now rewrite E. }
  exists u. split; [exact T|]. clear T. destruct u as [|c v] eqn:E; [discriminate H|]. rewrite <- E in *.
  destruct (digits_split u) as (l & y & L & Y & D). rewrite D, digits_read, N.mul_0_l, N.add_0_l in H by assumption.
  destruct y as [|d y]; [|discriminate H]. rewrite app_nil_r in D. subst l. injection H as <-. split; [|reflexivity].
  split; [rewrite E; discriminate|exact L].
Qed.
Lemma snug_big ok : (forall n, ok n = true -> n < u256_max) -> snug (big_c ok).
Proof.
  intros B j a H. destruct j as [ |b|n|t|l|l]; try discriminate H. cbn [read big_c] in H. destruct (parse_dec t) as [n|] eqn:P; [|discriminate H].
  destruct (ok n) eqn:O; [|discriminate H]. injection H as <-. cbn [write big_c]. apply (within_quantity n); [exact (parse_dec_quantity t n P)|].
  destruct (dec_text n (B n O)) as (D1 & _ & D2). exists (dec n). auto.
Qed.
Lemma snug_u128 : snug u128_c.
Proof. apply snug_big. intros n H. unfold u128_ok in H. apply N.ltb_lt in H. eapply N.lt_trans; [exact H|reflexivity]. Qed.
Lemma snug_u256 : snug u256_c.
Proof. apply snug_big. intros n H. unfold u256_ok in H. now apply N.ltb_lt in H. Qed.
Lemma snug_hex : snug hex_c.
Proof.
  intros j a H. destruct j as [ |b|n|t|l|l]; try discriminate H. cbn [read hex_c] in H. destruct (hex_decode t) as [b| |] eqn:D; try discriminate H.
  injection H as <-. cbn [write hex_c]. rewrite hex_of_encode. apply within_hexadecimal. now apply hex_exact.
Qed.
Lemma snug_order : snug order_c.
Proof.
  intros j a H. destruct j as [ |b|n|t|l|l]; try discriminate H. cbn [read order_c] in H.
  destruct (bytes_eqb t (s "asc")) eqn:E; [apply bytes_eqb_eq in E; injection H as <-; subst t; apply within_same; exact I|].
  destruct (bytes_eqb t (s "desc")) eqn:E'; [apply bytes_eqb_eq in E'; injection H as <-; subst t; apply within_same; exact I|discriminate H].
Qed.
Lemma snug_never : snug never_c.
Proof. intros j a H. discriminate H. Qed.
Lemma snug_empty : snug empty_c.
Proof. intros [ |b|n|t|[|x l]|l] a H; try discriminate H. apply within_list, Forall2_nil. Qed.
Lemma snug_list {A} (c : codec A) : snug c -> snug (list_c c).
Proof.
  intros S j a H. destruct j as [ |b|n|t|l|l]; try discriminate H. apply within_list. cbn [read list_c] in H. revert a H.
  induction l as [|x l IH]; cbn [all_read]; intros a H; [injection H as <-; apply Forall2_nil|].
  destruct (read c x) as [y|] eqn:E; [|discriminate H]. destruct (all_read (read c) l) as [r|]; [|discriminate H]. injection H as <-.
  apply Forall2_cons; [exact (S x y E)|exact (IH r eq_refl)].
Qed.
Lemma snug_pair {A B} (c : codec A) (d : codec B) : snug c -> snug d -> snug (pair_c c d).
Proof.
  intros S T j a H. destruct j as [ |b|n|t|l|l]; try discriminate H. destruct l as [|x [|y [|z l]]]; try discriminate H. cbn [read pair_c] in H.
  destruct (read c x) as [x'|] eqn:E; [|discriminate H]. destruct (read d y) as [y'|] eqn:E'; [|discriminate H]. injection H as <-.
  apply within_list. apply Forall2_cons; [exact (S _ _ E)|]. apply Forall2_cons; [exact (T _ _ E')|apply Forall2_nil].
Qed.
Lemma snug_as {A B} (f : A -> B) (g : B -> A) (c : codec A) : snug c -> (forall a, g (f a) = a) -> snug (as_c f g c).
Proof.
  intros S H j b R. cbn [read as_c] in R. destruct (read c j) as [a|] eqn:E; [|discriminate R]. injection R as <-. cbn [write as_c].
  rewrite H. exact (S j a E).
Qed.

(** ** Structs *)
Record snug_shape {A} (r : shape A) : Prop := mkSnugShape {
  n_members : forall g a k j, gets r g = Some a -> In k (names r) -> g k = Some j -> exists j', In (k, j') (puts r a) /\ within j j';
  n_all : forall g a k j', gets r g = Some a -> In (k, j') (puts r a) -> g k <> None \/ j' = JNull }.
Lemma snug_none : snug_shape none.
Proof. split; [intros g a k j _ []|intros g a k j' _ []]. Qed.
Lemma snug_field {A B} k (c : codec A) (r : shape B) : snug c -> snug_shape r -> snug_shape (field k c r).
Proof.
  intros S R. split.
  - intros g [a b] k' j H K G. cbn [gets field] in H. cbn [names field] in K. cbn [puts field fst snd].
    destruct (g k) as [x|] eqn:E; [|discriminate H]. destruct (read c x) as [a'|] eqn:E1; [|discriminate H].
    destruct (gets r g) as [b'|] eqn:E2; [|discriminate H]. injection H as -> ->. destruct K as [<-|K].
    + rewrite E in G. injection G as ->. exists (write c a). split; [now left|exact (S _ _ E1)].
    + destruct (n_members r R g b k' j E2 K G) as (j' & H1 & H2). exists j'. split; [now right|exact H2].
  - intros g [a b] k' j' H K. cbn [gets field] in H. cbn [puts field fst snd] in K.
    destruct (g k) as [x|] eqn:E; [|discriminate H]. destruct (read c x) as [a'|] eqn:E1; [|discriminate H].
    destruct (gets r g) as [b'|] eqn:E2; [|discriminate H]. injection H as -> ->. destruct K as [K|K].
    + injection K as <- _. left. rewrite E. discriminate.
    + exact (n_all r R g b k' j' E2 K).
Qed.
Lemma snug_optional {A B} k (c : codec A) (r : shape B) : snug c -> snug_shape r -> snug_shape (optional k c r).
Proof.
  intros S R. split.
  - intros g [a b] k' j H K G. cbn [gets optional] in H. cbn [names optional] in K. cbn [puts optional fst snd].
    destruct (match g k with None | Some JNull => Some None | Some j0 => option_map Some (read c j0) end) as [a'|] eqn:E; [|discriminate H].
    destruct (gets r g) as [b'|] eqn:E2; [|discriminate H]. injection H as -> ->. destruct K as [<-|K].
    + rewrite G in E. eexists. split; [now left|].
      destruct j; try (destruct (read c _) as [y|] eqn:Y; cbn [option_map] in E; [|discriminate E]; injection E as <-; exact (S _ _ Y)).
      injection E as <-. apply within_same. exact I.
    + destruct (n_members r R g b k' j E2 K G) as (j' & H1 & H2). exists j'. split; [now right|exact H2].
  - intros g [a b] k' j' H K. cbn [gets optional] in H. cbn [puts optional fst snd] in K.
    destruct (match g k with None | Some JNull => Some None | Some j0 => option_map Some (read c j0) end) as [a'|] eqn:E; [|discriminate H].
    destruct (gets r g) as [b'|] eqn:E2; [|discriminate H]. injection H as -> ->. destruct K as [K|K].
    + injection K as <- <-. destruct (g k) as [j|]; [left; discriminate|right]. injection E as <-. reflexivity.
    + exact (n_all r R g b k' j' E2 K).
Qed.
Lemma distinct_nodup l : distinct l = true -> NoDup l.
Proof.
  induction l as [|k l IH]; cbn [distinct]; intros H; [constructor|]. apply andb_true_iff in H as [H1 H2]. constructor; [|exact (IH H2)].
  intros Hin. apply mem_self in Hin. rewrite Hin in H1. discriminate H1.
Qed.
Lemma assoc_in {V} k (v : V) l : NoDup (map fst l) -> In (k, v) l -> assoc k l = Some v.
Proof.
  induction l as [|[k' v'] l IH]; cbn [map fst assoc]; intros N H; [contradiction H|]. inversion_clear N as [|? ? N1 N2].
  destruct (bytes_eqb k k') eqn:E.
  - apply bytes_eqb_eq in E. subst k'. destruct H as [H|H]; [now injection H as ->|]. exfalso. apply N1. apply in_map_iff. exists (k, v). auto.
  - destruct H as [H|H]; [injection H as -> ->; rewrite bytes_eqb_refl in E; discriminate E|exact (IH N2 H)].
Qed.
Lemma assoc_some {V} k (v : V) l : assoc k l = Some v -> In (k, v) l.
Proof.
  induction l as [|[k' v'] l IH]; cbn [assoc]; intros H; [discriminate H|]. destruct (bytes_eqb k k') eqn:E.
  - apply bytes_eqb_eq in E. subst k'. injection H as ->. now left.
  - right. exact (IH H).
Qed.
Lemma filter_every {X} (f : X -> bool) l : forallb f l = true -> filter f l = l.
Proof. induction l as [|x l IH]; cbn [forallb filter]; intros H; [reflexivity|]. apply andb_true_iff in H as [-> H]. now rewrite (IH H). Qed.
Lemma mem_in k l : mem_bytes k l = true -> In k l.
Proof.
  induction l as [|x l IH]; cbn [mem_bytes]; intros H; [discriminate H|]. apply orb_true_iff in H as [H|H]; [|right; exact (IH H)].
  apply bytes_eqb_eq in H. subst x. now left.
Qed.
Lemma snug_struct {A} (r : shape A) : snug_shape r -> snug (struct r).
Proof.
  intros S j a H. destruct j as [ |b|n|t|l|l]; try discriminate H. cbn [read struct struct_of negb orb] in H.
  destruct (forallb (fun k => mem_bytes k (names r)) (map fst l)) eqn:M; [|discriminate H].
  destruct (distinct (filter (fun k => mem_bytes k (names r)) (map fst l))) eqn:D; [|discriminate H]. cbn [andb] in H.
  rewrite (filter_every _ _ M) in D. apply distinct_nodup in D. apply within_object; [exact D| |].
  - intros k j Hin. apply (n_members r S (fun k => assoc k l) a k j H).
    + apply mem_in. rewrite forallb_forall in M. apply M. apply in_map_iff. exists (k, j). auto.
    + exact (assoc_in k j l D Hin).
  - intros k j' Hin. destruct (n_all r S (fun k => assoc k l) a k j' H Hin) as [K|K]; [left|now right].
    destruct (assoc k l) as [j|] eqn:E; [|now elim K]. apply in_map_iff. exists (k, j). split; [reflexivity|exact (assoc_some k j l E)].
Qed.
Lemma nodup_filter {V} (f : str -> bool) k (v w : V) l : NoDup (filter f (map fst l)) -> f k = true -> In (k, v) l -> assoc k l = Some w -> v = w.
Proof.
  induction l as [|[k' v'] l IH]; cbn [map fst filter assoc]; intros N F H G; [contradiction H|]. destruct (bytes_eqb k k') eqn:E.
  - apply bytes_eqb_eq in E. subst k'. injection G as ->. destruct H as [H|H]; [now injection H|]. exfalso. rewrite F in N.
    inversion_clear N as [|? ? N1 _]. apply N1. apply filter_In. split; [|exact F]. apply in_map_iff. exists (k, v). auto.
  - destruct H as [H|H]; [injection H as -> ->; rewrite bytes_eqb_refl in E; discriminate E|].
    apply IH; [|exact F|exact H|exact G]. destruct (f k'); [now inversion_clear N|exact N].
Qed.
Lemma snug_coin : snug coin_c.
Proof.
  intros j a H. unfold coin_c in *. cbn [read write as_c] in H |- *. destruct j as [ |b|n|t|l|l]; try discriminate H.
  cbn [read struct_of negb orb andb names field none] in H.
  destruct (distinct _) eqn:D; [|discriminate H]. apply distinct_nodup in D. cbn [gets field none] in H.
  destruct (assoc (s "denom") l) as [jd|] eqn:Ed; [|discriminate H]. destruct (read string_c jd) as [d|] eqn:Rd; [|discriminate H].
  destruct (assoc (s "amount") l) as [ja|] eqn:Ea; [|discriminate H]. destruct (read u128_c ja) as [n|] eqn:Ra; [|discriminate H].
  cbn [option_map] in H. injection H as <-. cbn [write struct_of puts field none fst snd c_denom c_amount]. cbn [write string_c u128_c big_c].
  apply (within_coin l d (dec n) jd ja).
  - exact (assoc_some _ _ _ Ed).
  - intros j Hj. exact (nodup_filter _ (s "denom") _ _ _ D eq_refl Hj Ed).
  - exact (snug_string _ _ Rd).
  - exact (assoc_some _ _ _ Ea).
  - intros j Hj. exact (nodup_filter _ (s "amount") _ _ _ D eq_refl Hj Ea).
  - exact (snug_u128 _ _ Ra).
Qed.

(** ** Enums *)
Definition snug_case {A} (l : list (case A)) (c : case A) : Prop :=
  forall j a, get c j = Some a -> exists j', write_case l a = JObj [(tag c, j')] /\ within j j'.
Lemma snug_on_read {X A} (l : list (case A)) t (c : codec X) (f : X -> A) (g : A -> option X) :
  snug c -> (forall j x, read c j = Some x -> write_case l (f x) = JObj [(t, write c x)]) -> snug_case l (on t c f g).
Proof.
  intros S H j a R. cbn [get on] in R. destruct (read c j) as [x|] eqn:E; [|discriminate R]. injection R as <-. exists (write c x).
  split; [exact (H j x E)|exact (S j x E)].
Qed.
Lemma snug_on {X A} (l : list (case A)) t (c : codec X) (f : X -> A) (g : A -> option X) :
  snug c -> (forall x, write_case l (f x) = JObj [(t, write c x)]) -> snug_case l (on t c f g).
Proof. intros S H. apply snug_on_read; [exact S|]. intros j x _. exact (H x). Qed.
Lemma snug_enum {A} (ok : A -> bool) (l : list (case A)) : Forall (snug_case l) l -> snug (enum ok l).
Proof.
  intros F j a H. destruct j as [ |b|n|t|x|x]; try discriminate H. destruct x as [|[t j] [|y x]]; try discriminate H. cbn [read enum] in H.
  assert (K : exists c, In c l /\ tag c = t /\ get c j = Some a).
  { clear F. induction l as [|c l IH]; [discriminate H|]. cbn [read_case] in H. destruct (bytes_eqb t (tag c)) eqn:E.
    - apply bytes_eqb_eq in E. exists c. split; [now left|auto].
    - destruct (IH H) as (c' & H1 & H2). exists c'. split; [now right|exact H2]. }
  destruct K as (c & Hc & <- & Hg). rewrite Forall_forall in F. destruct (F c Hc j a Hg) as (j' & W & I). cbn [write enum]. rewrite W.
  apply within_object; [repeat constructor; intros []| |].
  - intros k j0 [E|[]]. injection E as <- <-. exists j'. split; [now left|exact I].
  - intros k j0 [E|[]]. injection E as <- <-. left. now left.
Qed.

Lemma read_case_some {A} (l : list (case A)) t j a : read_case l t j = Some a -> exists c, In c l /\ tag c = t /\ get c j = Some a.
Proof.
  induction l as [|c l IH]; cbn [read_case]; intros H; [discriminate H|]. destruct (bytes_eqb t (tag c)) eqn:E.
  - apply bytes_eqb_eq in E. exists c. split; [now left|auto].
  - destruct (IH H) as (c' & H1 & H2). exists c'. split; [now right|exact H2].
Qed.
Lemma snug_under {A} (l l' : list (case A)) ok t :
  Forall (snug_case l') l' -> (forall a, write_case l' a <> JNull -> write_case l a = JObj [(t, write_case l' a)]) -> snug_case l (under ok t l').
Proof.
  intros F H. apply snug_on_read; [exact (snug_enum ok l' F)|]. intros j a R. apply H. cbn [read enum] in R.
  destruct j as [ |b|n|u|x|x]; try discriminate R. destruct x as [|[u j] [|y x]]; try discriminate R.
  destruct (read_case_some l' u j a R) as (c & Hc & _ & Hg). rewrite Forall_forall in F. destruct (F c Hc j a Hg) as (j' & -> & _). discriminate.
Qed.

(** ** The parts *)
Ltac snug_codec :=
  repeat first
    [ exact snug_string | exact snug_bool | exact snug_u8 | exact snug_u32 | exact snug_u128 | exact snug_u256 | exact snug_hex | exact snug_empty
    | exact snug_never | exact snug_order | exact snug_coin | exact snug_none
    | assumption | apply snug_list | apply snug_pair | apply snug_field | apply snug_optional | apply snug_struct ].
Ltac snug_each := apply snug_enum; each; (apply snug_on; [snug_codec|intros x; parts; reflexivity]).
Lemma snug_ownable : snug ownable_c.
Proof. snug_each. Qed.
Lemma snug_pausable : snug pausable_c.
Proof. snug_each. Qed.
Lemma snug_connection : snug connection_c.
Proof. snug_each. Qed.
Lemma snug_route h : snug (route_c h).
Proof. destruct h; [exact snug_hex|exact snug_string]. Qed.
Lemma snug_route_set h : snug (route_set_c h).
Proof. apply snug_as; [|now intros (a & b & [])]. pose proof (snug_route h). snug_codec. Qed.
Lemma snug_router h : snug (router_c h).
Proof. pose proof (snug_route_set h). snug_each. Qed.
Lemma snug_dispatch : snug dispatch_c.
Proof. apply snug_as; [snug_codec|now intros (a & b & c & d & e & [])]. Qed.
Lemma snug_custom_hook : snug custom_hook_c.
Proof. apply snug_as; [snug_codec|now intros (a & b & c & [])]. Qed.
Lemma snug_clear_hook : snug clear_hook_c.
Proof. apply snug_as; [snug_codec|now intros (a & b & [])]. Qed.
Lemma snug_gas_config : snug gas_config_c.
Proof. apply snug_as; [snug_codec|now intros (a & b & c & [])]. Qed.
Lemma snug_meta : snug meta_message_c.
Proof. unfold meta_message_c. snug_codec. Qed.
Lemma snug_page : snug page_c.
Proof. unfold page_c. snug_codec. Qed.

Ltac snug_whole :=
  repeat first
    [ exact snug_ownable | exact snug_pausable | exact snug_connection | apply snug_router | exact snug_dispatch | exact snug_custom_hook
    | exact snug_clear_hook | exact snug_gas_config | exact snug_meta | exact snug_page
    | exact snug_string | exact snug_bool | exact snug_u8 | exact snug_u32 | exact snug_u128 | exact snug_u256 | exact snug_hex | exact snug_empty
    | exact snug_never | exact snug_order | exact snug_coin | exact snug_none
    | apply snug_list | apply snug_pair | apply snug_field | apply snug_optional | apply snug_struct ].

(** ** Messages *)
Ltac snug_one := apply snug_on; [snug_whole|intros x; parts; reflexivity].
Lemma snug_exec p : snug (exec_c p).
Proof.
  apply snug_enum. destruct p; cbn [exec_cases];
  unfold mailbox_cases, va_cases, multisig_cases, agg_ism_cases, routing_ism_cases, pausable_ism_cases, merkle_cases,
   agg_hook_cases, pausable_hook_cases, routing_hook_cases, custom_hook_cases, fallback_hook_cases, fee_hook_cases, oracle_cases, igp_cases, warp_cases, cw20_cases,
   e_ownable, e_pausable, e_router, e_connection, e_post_dispatch, e_handle; each; try snug_one.
  - apply snug_under; [unfold fee_cases; each; snug_one|]. intros a H. destruct a; try (exfalso; apply H; reflexivity); reflexivity.
  - apply snug_on_read; [snug_whole|]. intros j (a & b & [[]|] & []) H; [|reflexivity].
    exfalso. apply (g_fits (struct (field (s "spender") string_c (field (s "amount") u128_c (optional (s "expires") never_c none))))) in H; [|codec_good].
    cbn [fits struct struct_of sfits field optional fst snd never_c andb] in H. rewrite !andb_false_r in H. discriminate H.
  - apply snug_on_read; [snug_whole|]. intros j (a & b & [[]|] & []) H; [|reflexivity].
    exfalso. apply (g_fits (struct (field (s "spender") string_c (field (s "amount") u128_c (optional (s "expires") never_c none))))) in H; [|codec_good].
    cbn [fits struct struct_of sfits field optional fst snd never_c andb] in H. rewrite !andb_false_r in H. discriminate H.
Qed.

(** ** Queries *)
Ltac snug_query :=
  each; first
  [ apply snug_under; [snug_query|intros a H; destruct a; first [exfalso; apply H; reflexivity | reflexivity]]
  | snug_one ].
Lemma snug_query p : snug (query_c p).
Proof.
  apply snug_enum. destruct p; cbn [query_cases];
   unfold q_ownable, q_pausable, q_router, q_connection, q_hook, q_ism, q_specifier, q_oracle, q_quote, q_verify, q_local_domain, q_latest_id, plain; snug_query.
Qed.

(** ** Texts *)
Lemma exec_strict st t m : read_exec (program_of st) t = Some m ->
  exists j j', document j t /\ document j' (message_text (hex_router st) m) /\ within j j'.
Proof.
  intros R. destruct (exec_only st t m R) as [U O]. unfold read_exec in R. destruct (parse t) as [j|] eqn:P; [|discriminate R].
  exists j, (write (exec_c (program_of st)) m). split; [now apply grammar|]. split; [apply grammar|exact (snug_exec _ j m R)].
  rewrite <- (message_texts st m U O). unfold write_exec. apply parse_text, (g_small _ (good_exec _)). rewrite fits_exec, U, O. reflexivity.
Qed.
Lemma query_strict st t m : read_query (program_of st) t = Some m ->
  exists j j', document j t /\ document j' (question_text m) /\ within j j'.
Proof.
  intros R. destruct (query_only st t m R) as [U O]. unfold read_query in R. destruct (parse t) as [j|] eqn:P; [|discriminate R].
  exists j, (write (query_c (program_of st)) m). split; [now apply grammar|]. split; [apply grammar|exact (snug_query _ j m R)].
  rewrite <- (question_texts st m U O). unfold write_query. apply parse_text, (g_small _ (good_query _)). rewrite fits_query, U, O. reflexivity.
Qed.

(** ** Texts that say the same *)
Lemma spelling j t t' : document j t -> document j t' -> parse t = parse t'.
Proof. intros D D'. apply grammar in D, D'. congruence. Qed.
Lemma exec_alike st m j j' t : understands st m = true -> emsg_ok m = true -> document j' (message_text (hex_router st) m) ->
  alike j j' -> document j t -> read_exec (program_of st) t = Some m.
Proof.
  intros U O D A T. apply grammar in D, T. unfold read_exec. rewrite T.
  assert (F : fits (exec_c (program_of st)) m = true) by (rewrite fits_exec, U, O; reflexivity).
  apply (g_alike _ (good_exec _) j m F). rewrite <- (message_texts st m U O) in D. unfold write_exec in D.
  rewrite parse_text in D by (apply (g_small _ (good_exec _)), F). apply Some_inj in D. rewrite D. exact A.
Qed.
Lemma query_alike st m j j' t : answers_to st m = true -> qmsg_ok m = true -> document j' (question_text m) ->
  alike j j' -> document j t -> read_query (program_of st) t = Some m.
Proof.
  intros U O D A T. apply grammar in D, T. unfold read_query. rewrite T.
  assert (F : fits (query_c (program_of st)) m = true) by (rewrite fits_query, U, O; reflexivity).
  apply (g_alike _ (good_query _) j m F). rewrite <- (question_texts st m U O) in D. unfold write_query in D.
  rewrite parse_text in D by (apply (g_small _ (good_query _)), F). apply Some_inj in D. rewrite D. exact A.
Qed.
