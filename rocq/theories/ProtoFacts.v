(** * The token-factory bytes say what they should *)
From Coq Require Import List NArith ZArith Bool Lia.
From Verif Require Import Base BaseFacts Chain Warp Proto SpecProto SpecVersion.
Import ListNotations.
Local Open Scope N_scope.

Local Ltac Zify.zify_post_hook ::= Z.div_mod_to_equations.

(** ** Numbers *)
Lemma varint_fuel_base128 f : forall n, n < 2 ^ N.of_nat f -> base128 n (varint_fuel (S f) n).
Proof.
  induction f as [|f IH]; intros n H.
  - replace n with 0 by (cbn in H; lia). cbn. apply (b128_last x00). cbn. lia.
  - change (varint_fuel (S (S f)) n)
      with (if n <? 128 then [nB n] else nB (n mod 128 + 128) :: varint_fuel (S f) (n / 128)).
    destruct (N.ltb_spec n 128) as [L|L].
    + rewrite <- (bN_nB n) at 1 by lia. apply b128_last. rewrite bN_nB; lia.
    + rewrite Nat2N.inj_succ, N.pow_succ_r' in H.
      assert (E : n = bN (nB (n mod 128 + 128)) - 128 + 128 * (n / 128))
        by (rewrite bN_nB by lia; lia).
      rewrite E at 1. apply b128_more; [rewrite bN_nB; lia|].
      apply IH. lia.
Qed.
Lemma varint_base128 n : base128 n (varint n).
Proof.
  apply varint_fuel_base128. rewrite N2Nat.id. apply N.size_gt.
Qed.

Lemma base128_prefix n l : base128 n l -> forall n' l' r r', base128 n' l' ->
  l ++ r = l' ++ r' -> n = n' /\ l = l' /\ r = r'.
Proof.
  induction 1 as [b Hb|b n l Hb _ IH]; intros n' l' r r' H' E; destruct H' as [b' Hb'|b' m l' Hb' H'];
    cbn [app] in E; injection E as E1 E2; subst b'; try lia.
  - repeat split; congruence.
  - destruct (IH _ _ _ _ H' E2) as (-> & -> & ->). auto.
Qed.

(** ** Fields *)
Lemma says_app a f b g : says a f -> says b g -> says (a ++ b) (f ++ g).
Proof.
  induction 1; intros Hb; cbn [app]; auto; rewrite <- !app_assoc.
  - apply says_number; auto.
  - apply says_fixed64; auto.
  - apply says_bytes; auto.
  - apply says_fixed32; auto.
Qed.

Lemma says_unique b fs : says b fs -> forall fs', says b fs' -> fs = fs'.
Proof.
  assert (K : forall n k, base128 n k -> exists x l, k = x :: l) by (destruct 1; eauto).
  assert (L : forall (v v' b b' : bytes), length v = length v' -> v ++ b = v' ++ b' ->
              v = v' /\ b = b').
  { induction v as [|x v IH]; intros [|y v'] c c' E1 E2; cbn in *; try discriminate; auto.
    injection E1 as E1. injection E2 as -> E2. destruct (IH _ _ _ E1 E2) as (-> & ->). auto. }
  induction 1 as [|k v tag n b fs Hk Hv Hb IH|k v tag b fs Hk Hv Hb IH|k n v tag b fs Hk Hn Hb IH
    |k v tag b fs Hk Hv Hb IH]; intros fs' H'.
  - inversion H' as [E|k ? ? ? ? ? Hk _ _ E|k ? ? ? ? Hk _ _ E|k ? ? ? ? ? Hk _ _ E|k ? ? ? ? Hk _ _ E];
      subst; auto; destruct (K _ _ Hk) as (x & l & ->); discriminate.
  - inversion H' as [E|k' ? ? ? ? ? Hk' Hv' Hb' E|k' ? ? ? ? Hk' Hv' Hb' E
      |k' ? ? ? ? ? Hk' Hv' Hb' E|k' ? ? ? ? Hk' Hv' Hb' E]; subst;
      try (destruct (K _ _ Hk) as (x & l & ->); discriminate);
      symmetry in E; destruct (base128_prefix _ _ Hk _ _ _ _ Hk' E) as (E1 & _ & E2); try lia.
    assert (tag0 = tag) by lia; subst.
    destruct (base128_prefix _ _ Hv _ _ _ _ Hv' E2) as (-> & _ & ->).
    f_equal. now apply IH.
  - inversion H' as [E|k' ? ? ? ? ? Hk' Hv' Hb' E|k' ? ? ? ? Hk' Hv' Hb' E
      |k' ? ? ? ? ? Hk' Hv' Hb' E|k' ? ? ? ? Hk' Hv' Hb' E]; subst;
      try (destruct (K _ _ Hk) as (x & l & ->); discriminate);
      symmetry in E; destruct (base128_prefix _ _ Hk _ _ _ _ Hk' E) as (E1 & _ & E2); try lia.
    assert (tag0 = tag) by lia; subst.
    destruct (L v v0 _ _ ltac:(congruence) E2) as (-> & ->). f_equal. now apply IH.
  - inversion H' as [E|k' ? ? ? ? ? Hk' Hv' Hb' E|k' ? ? ? ? Hk' Hv' Hb' E
      |k' ? ? ? ? ? Hk' Hv' Hb' E|k' ? ? ? ? Hk' Hv' Hb' E]; subst;
      try (destruct (K _ _ Hk) as (x & l & ->); discriminate);
      symmetry in E; destruct (base128_prefix _ _ Hk _ _ _ _ Hk' E) as (E1 & _ & E2); try lia.
    assert (tag0 = tag) by lia; subst.
    destruct (base128_prefix _ _ Hn _ _ _ _ Hv' E2) as (E3 & _ & E4).
    apply Nat2N.inj in E3.
    destruct (L v v0 _ _ E3 E4) as (-> & ->). f_equal. now apply IH.
  - inversion H' as [E|k' ? ? ? ? ? Hk' Hv' Hb' E|k' ? ? ? ? Hk' Hv' Hb' E
      |k' ? ? ? ? ? Hk' Hv' Hb' E|k' ? ? ? ? Hk' Hv' Hb' E]; subst;
      try (destruct (K _ _ Hk) as (x & l & ->); discriminate);
      symmetry in E; destruct (base128_prefix _ _ Hk _ _ _ _ Hk' E) as (E1 & _ & E2); try lia.
    assert (tag0 = tag) by lia; subst.
    destruct (L v v0 _ _ ltac:(congruence) E2) as (-> & ->). f_equal. now apply IH.
Qed.

Lemma delimited_says tag v : says (delimited tag v) [(tag, PBytes v)].
Proof.
  unfold delimited, field_key.
  rewrite <- (app_nil_r v) at 2. apply says_bytes; [|apply varint_base128|constructor].
  rewrite N.mul_comm. apply varint_base128.
Qed.
Definition text_fields (tag : N) (v : bytes) : list (N * payload) :=
  match v with [] => [] | _ => [(tag, PBytes v)] end.
Lemma string_field_says tag v : says (string_field tag v) (text_fields tag v).
Proof. destruct v; [constructor|]. apply delimited_says. Qed.
Lemma uint32_field_says tag n :
  says (uint32_field tag n) (if n =? 0 then [] else [(tag, PNumber n)]).
Proof.
  unfold uint32_field, field_key. destruct (n =? 0); [constructor|].
  rewrite <- (app_nil_r (varint n)). apply says_number; [|apply varint_base128|constructor].
  rewrite N.mul_comm, N.add_0_r. apply varint_base128.
Qed.
Lemma repeated_field_says tag l : says (repeated_field tag l) (map (fun v => (tag, PBytes v)) l).
Proof.
  induction l as [|v l IH]; cbn [repeated_field flat_map map]; [constructor|].
  apply (says_app _ [(tag, PBytes v)]); auto. apply delimited_says.
Qed.

(** reading back *)
Lemma all_bytes_app t f g : all_bytes t (f ++ g) = all_bytes t f ++ all_bytes t g.
Proof.
  induction f as [|[t' [n|l|l]] f IH]; cbn [app all_bytes]; auto.
  destruct (t' =? t); cbn [app]; congruence.
Qed.
Lemma all_numbers_app t f g : all_numbers t (f ++ g) = all_numbers t f ++ all_numbers t g.
Proof.
  induction f as [|[t' [n|l|l]] f IH]; cbn [app all_numbers]; auto.
  destruct (t' =? t); cbn [app]; congruence.
Qed.
Lemma all_bytes_text t t' v :
  all_bytes t (text_fields t' v) = if t' =? t then match v with [] => [] | _ => [v] end else [].
Proof. destruct v; cbn [text_fields all_bytes]; destruct (t' =? t); auto. Qed.
Lemma all_bytes_map t t' l :
  all_bytes t (map (fun v => (t', PBytes v)) l) = if t' =? t then l else [].
Proof.
  induction l as [|v l IH]; cbn [map all_bytes].
  - destruct (t' =? t); auto.
  - rewrite IH. destruct (t' =? t); auto.
Qed.
Lemma all_numbers_text t t' v : all_numbers t (text_fields t' v) = [].
Proof. destruct v; auto. Qed.
Lemma all_numbers_map t t' l : all_numbers t (map (fun v => (t', PBytes v)) l) = [].
Proof. induction l; auto. Qed.
Lemma last_text (v : bytes) : last (match v with [] => [] | _ => [v] end) [] = v.
Proof. destruct v; auto. Qed.

(** ** The messages *)
Lemma coin_says d n : text_in (coin_bytes d n) 1 d /\ text_in (coin_bytes d n) 2 (dec n).
Proof.
  assert (S : says (coin_bytes d n) (text_fields 1 d ++ text_fields 2 (dec n)))
    by (apply says_app; apply string_field_says).
  split; (exists (text_fields 1 d ++ text_fields 2 (dec n)); split; [exact S|]);
    unfold the_text; rewrite all_bytes_app, !all_bytes_text;
    cbn [N.eqb Pos.eqb app]; rewrite ?app_nil_r; apply last_text.
Qed.
Lemma mint_says sd d n :
  text_in (mint_bytes sd d n) 1 sd /\ list_in (mint_bytes sd d n) 2 [coin_bytes d n].
Proof.
  assert (S : says (mint_bytes sd d n) (text_fields 1 sd ++ [(2, PBytes (coin_bytes d n))]))
    by (apply says_app; [apply string_field_says|apply delimited_says]).
  split; (eexists; split; [exact S|]); unfold the_text;
    rewrite all_bytes_app, !all_bytes_text; cbn [N.eqb Pos.eqb app all_bytes];
    rewrite ?app_nil_r; auto using last_text.
Qed.
Lemma create_says sd d :
  text_in (create_denom_bytes sd d) 1 sd /\ text_in (create_denom_bytes sd d) 2 d.
Proof.
  assert (S : says (create_denom_bytes sd d) (text_fields 1 sd ++ text_fields 2 d))
    by (apply says_app; apply string_field_says).
  split; (eexists; split; [exact S|]); unfold the_text;
    rewrite all_bytes_app, !all_bytes_text; cbn [N.eqb Pos.eqb app];
    rewrite ?app_nil_r; apply last_text.
Qed.
Lemma unit_says u :
  text_in (denom_unit_bytes u) 1 (du_denom u) /\
  number_in (denom_unit_bytes u) 2 (du_exponent u) /\
  list_in (denom_unit_bytes u) 3 (du_aliases u).
Proof.
  pose proof (says_app _ _ _ _ (string_field_says 1 (du_denom u))
    (says_app _ _ _ _ (uint32_field_says 2 (du_exponent u))
       (repeated_field_says 3 (du_aliases u)))) as S.
  fold (denom_unit_bytes u) in S.
  repeat split; (eexists; split; [exact S|]); unfold the_text, the_number;
    rewrite ?all_bytes_app, ?all_numbers_app, ?all_bytes_text, ?all_bytes_map,
      ?all_numbers_text, ?all_numbers_map; cbn [N.eqb Pos.eqb app];
    destruct (N.eqb_spec (du_exponent u) 0) as [E|E]; rewrite ?E;
    cbn [app all_bytes all_numbers N.eqb Pos.eqb]; rewrite ?app_nil_r; auto using last_text.
Qed.
Lemma metadata_says m :
  let b := metadata_bytes m in
  text_in b 1 (md_description m) /\
  list_in b 2 (map denom_unit_bytes (md_units m)) /\
  text_in b 3 (md_base m) /\ text_in b 4 (md_display m) /\
  text_in b 5 (md_name m) /\ text_in b 6 (md_symbol m).
Proof.
  pose proof (says_app _ _ _ _ (string_field_says 1 (md_description m))
    (says_app _ _ _ _ (repeated_field_says 2 (map denom_unit_bytes (md_units m)))
    (says_app _ _ _ _ (string_field_says 3 (md_base m))
    (says_app _ _ _ _ (string_field_says 4 (md_display m))
    (says_app _ _ _ _ (string_field_says 5 (md_name m)) (string_field_says 6 (md_symbol m)))))))
    as S.
  fold (metadata_bytes m) in S. intros b. subst b.
  repeat split; (eexists; split; [exact S|]); unfold the_text;
    rewrite !all_bytes_app, !all_bytes_text, ?all_bytes_map; cbn [N.eqb Pos.eqb app];
    rewrite ?app_nil_r; auto using last_text.
Qed.
Lemma set_metadata_says sd m :
  text_in (set_metadata_bytes sd m) 1 sd /\
  list_in (set_metadata_bytes sd m) 2 [metadata_bytes m].
Proof.
  assert (S : says (set_metadata_bytes sd m) (text_fields 1 sd ++ [(2, PBytes (metadata_bytes m))]))
    by (apply says_app; [apply string_field_says|apply delimited_says]).
  split; (eexists; split; [exact S|]); unfold the_text;
    rewrite all_bytes_app, !all_bytes_text; cbn [N.eqb Pos.eqb app all_bytes];
    rewrite ?app_nil_r; auto using last_text.
Qed.

(** ** Unique reading of single fields *)
Lemma text_in_unique b t v v' : text_in b t v -> text_in b t v' -> v = v'.
Proof. intros (f & S & <-) (g & S' & <-). now rewrite (says_unique _ _ S _ S'). Qed.
Lemma number_in_unique b t v v' : number_in b t v -> number_in b t v' -> v = v'.
Proof. intros (f & S & <-) (g & S' & <-). now rewrite (says_unique _ _ S _ S'). Qed.
Lemma list_in_unique b t v v' : list_in b t v -> list_in b t v' -> v = v'.
Proof. intros (f & S & <-) (g & S' & <-). now rewrite (says_unique _ _ S _ S'). Qed.

(** ** Decimal amounts *)
Lemma decimal_app a b : decimal (a ++ b) = decimal a * 10 ^ N.of_nat (length b) + decimal b.
Proof.
  induction a as [|x a IH]; cbn [app decimal]; [lia|].
  rewrite IH, app_length, Nat2N.inj_add, N.pow_add_r. ring.
Qed.
Lemma dec_fuel_spec f : forall n acc, n < 10 ^ N.of_nat (S f) ->
  exists l, dec_fuel (S f) n acc = l ++ acc /\ numeric l /\ no_leading_zero l /\ decimal l = n.
Proof.
  assert (D : forall k, k < 10 -> digit (nB (48 + k)) /\ bN (nB (48 + k)) = 48 + k).
  { intros k Hk. unfold digit. rewrite bN_nB; lia. }
  induction f as [|f IH]; intros n acc H.
  - change (10 ^ N.of_nat 1) with 10 in H.
    destruct (D n H) as (D1 & D2).
    exists [nB (48 + n)]. split; [|split; [|split]].
    + cbn [dec_fuel]. replace (n mod 10) with n by lia.
      destruct (n <? 10); reflexivity.
    + split; [discriminate|]. constructor; auto.
    + unfold no_leading_zero. destruct (N.eq_dec n 0) as [->|Z]; [left; reflexivity|].
      right. intros l' E. apply (f_equal (fun l => match l with b :: _ => bN b | [] => 0 end)) in E.
      cbv beta iota in E. rewrite D2 in E.
      change (bN x30) with 48 in E. lia.
    + cbn [decimal length]. rewrite D2. change (10 ^ N.of_nat 0) with 1. lia.
  - assert (Hm : n mod 10 < 10) by lia. destruct (D _ Hm) as (D1 & D2).
    change (dec_fuel (S (S f)) n acc) with
      (if n <? 10 then nB (48 + n mod 10) :: acc
       else dec_fuel (S f) (n / 10) (nB (48 + n mod 10) :: acc)).
    destruct (N.ltb_spec n 10) as [Z|Z].
    + exists [nB (48 + n mod 10)]. split; [reflexivity|split; [|split]].
      * split; [discriminate|]. constructor; auto.
      * unfold no_leading_zero. destruct (N.eq_dec n 0) as [->|Z']; [left; reflexivity|].
        right. intros l' E. apply (f_equal (fun l => match l with b :: _ => bN b | [] => 0 end)) in E.
      cbv beta iota in E. rewrite D2 in E.
        change (bN x30) with 48 in E. lia.
      * cbn [decimal length]. rewrite D2. change (10 ^ N.of_nat 0) with 1. lia.
    + destruct (IH (n / 10) (nB (48 + n mod 10) :: acc)) as (l & E & (L1 & L2) & L3 & L4).
      { rewrite Nat2N.inj_succ, N.pow_succ_r' in H. lia. }
      exists (l ++ [nB (48 + n mod 10)]). rewrite <- app_assoc. split; [exact E|split; [|split]].
      * split; [destruct l; discriminate|]. apply Forall_app. auto.
      * right. intros l' E'. destruct L3 as [->|L3].
        { cbn in L4. lia. }
        destruct l as [|x l]; [contradiction|]. cbn in E'. injection E' as -> E'.
        apply (L3 l). reflexivity.
      * rewrite decimal_app, L4. cbn [decimal length]. rewrite D2. change (10 ^ N.of_nat 0) with 1. lia.
Qed.
Lemma dec_text n : n < u256_max -> numeric (dec n) /\ no_leading_zero (dec n) /\ decimal (dec n) = n.
Proof.
  intros H. destruct (dec_fuel_spec 79 n []) as (l & E & R).
  - eapply N.lt_trans; [exact H|]. reflexivity.
  - unfold dec. rewrite E, app_nil_r. exact R.
Qed.

(** ** What the messages ask *)
Lemma coin_requested sd d n : n < u256_max -> coin_request (mint_bytes sd d n) sd d n.
Proof.
  intros L. destruct (mint_says sd d n) as (A & B), (coin_says d n) as (D & E).
  split; [exact A|]. exists (coin_bytes d n), (dec n).
  split; [exact B|split; [exact D|split; [exact E|]]]. now apply dec_text.
Qed.
Lemma coin_request_inj b sd d n sd' d' n' :
  coin_request b sd d n -> coin_request b sd' d' n' -> sd = sd' /\ d = d' /\ n = n'.
Proof.
  intros (A & c & t & B & D & E & _ & _ & <-) (A' & c' & t' & B' & D' & E' & _ & _ & <-).
  pose proof (list_in_unique _ _ _ _ B B') as F. injection F as <-.
  pose proof (text_in_unique _ _ _ _ E E') as <-.
  split; [exact (text_in_unique _ _ _ _ A A')|].
  split; [exact (text_in_unique _ _ _ _ D D')|reflexivity].
Qed.
Lemma metadata_requested sd m : metadata_request (set_metadata_bytes sd m) sd m.
Proof.
  destruct (set_metadata_says sd m) as (A & B), (metadata_says m) as (D & E & F).
  split; [exact A|]. exists (metadata_bytes m), (map denom_unit_bytes (md_units m)).
  split; [exact B|split; [exact D|split; [exact E|split; [|exact F]]]].
  generalize (md_units m). clear. induction l as [|u l IH]; cbn [map]; constructor; auto.
  apply unit_says.
Qed.
Lemma metadata_request_inj b sd m sd' m' :
  metadata_request b sd m -> metadata_request b sd' m' -> sd = sd' /\ m = m'.
Proof.
  intros (A & c & u & B & D & E & U & F & G & H & I) (A' & c' & u' & B' & D' & E' & U' & F' & G' & H' & I').
  split; [exact (text_in_unique _ _ _ _ A A')|].
  pose proof (list_in_unique _ _ _ _ B B') as K. injection K as <-.
  pose proof (list_in_unique _ _ _ _ E E') as <-.
  pose proof (text_in_unique _ _ _ _ D D'). pose proof (text_in_unique _ _ _ _ F F').
  pose proof (text_in_unique _ _ _ _ G G'). pose proof (text_in_unique _ _ _ _ H H').
  pose proof (text_in_unique _ _ _ _ I I').
  assert (md_units m = md_units m').
  { revert U'. generalize (md_units m'). clear -U.
    induction U as [|b x l l' (X & Y & Z) _ IH]; intros k K; inversion K as [|? y ? ? (X' & Y' & Z') K']; subst; auto.
    f_equal; [|now apply IH].
    pose proof (text_in_unique _ _ _ _ X X'). pose proof (number_in_unique _ _ _ _ Y Y').
    pose proof (list_in_unique _ _ _ _ Z Z'). destruct x, y; cbn in *; congruence. }
  destruct m, m'; cbn in *; congruence.
Qed.

Lemma stargate_requests m : factory_message m ->
  exists url b, stargate m = Some (url, b) /\ requests m url b.
Proof.
  destruct m; cbn [factory_message]; try contradiction; intros L; (eexists; eexists; split;
    [reflexivity|split; [reflexivity|]]).
  - apply create_says.
  - apply metadata_requested.
  - now apply coin_requested.
  - now apply coin_requested.
Qed.
Lemma requests_one m m' url b : requests m url b -> requests m' url b -> m = m'.
Proof.
  destruct m; try contradiction; destruct m'; try contradiction; intros (-> & H) (E & H');
    try (exfalso; vm_compute in E; discriminate E).
  - destruct H as (A & B), H' as (A' & B').
    f_equal; [exact (text_in_unique _ _ _ _ A A')|exact (text_in_unique _ _ _ _ B B')].
  - destruct (metadata_request_inj _ _ _ _ _ H H') as (-> & ->). reflexivity.
  - destruct (coin_request_inj _ _ _ _ _ _ _ H H') as (-> & -> & ->). reflexivity.
  - destruct (coin_request_inj _ _ _ _ _ _ _ H H') as (-> & -> & ->). reflexivity.
Qed.

(** ** Reading the reply *)
Lemma read_varint_sound f : forall l n r, read_varint f l = Ok (n, r) ->
  exists v, base128 n v /\ l = v ++ r.
Proof.
  induction f as [|f IH]; intros [|b l] n r H; cbn [read_varint] in H; try discriminate.
  destruct (N.ltb_spec (bN b) 128) as [L|L].
  - injection H as <- <-. exists [b]. split; [now constructor|reflexivity].
  - apply bind_Ok_inv in H as ((m & r') & H1 & H). injection H as <- <-.
    destruct (IH _ _ _ H1) as (v & V & ->). exists (b :: v). split; [now constructor|reflexivity].
Qed.
Lemma decode_varint_sound l n r : decode_varint l = Ok (n, r) -> exists v, base128 n v /\ l = v ++ r.
Proof.
  intros H. apply bind_Ok_inv in H as ((m & r') & H1 & H).
  destruct (m <? u64_max); [|discriminate]. injection H as <- <-.
  exact (read_varint_sound _ _ _ _ H1).
Qed.
Lemma take_bytes_sound n l v r : take_bytes n l = Ok (v, r) ->
  l = v ++ r /\ N.of_nat (length v) = n.
Proof.
  unfold take_bytes. destruct (N.leb_spec n (N.of_nat (length l))) as [L|L]; [|discriminate].
  intros H. injection H as <- <-. split; [now rewrite firstn_skipn|].
  rewrite firstn_length. lia.
Qed.
Lemma decode_key_sound l t w r : decode_key l = Ok (t, w, r) ->
  exists k, base128 (8 * t + w) k /\ l = k ++ r /\ w < 8.
Proof.
  intros H. apply bind_Ok_inv in H as ((m & r') & H1 & H).
  destruct (_ && _)%bool; [|discriminate]. injection H as <- <- <-.
  destruct (decode_varint_sound _ _ _ H1) as (v & V & E). exists v.
  split; [|split; [exact E|lia]]. now rewrite <- (N.div_mod m 8) by lia.
Qed.
Lemma last_last {X} (l : list X) a b : last (a :: l) b = last l a.
Proof. revert a. induction l as [|x l IH]; intros a; [reflexivity|]. cbn [last] in *. destruct l; auto. Qed.

Lemma read_response_sound f : forall l d d', read_response f l d = Ok d' ->
  exists fs, says l fs /\ d' = last (all_bytes 1 fs) d /\
    Forall (fun v => valid_utf8 v = true) (all_bytes 1 fs).
Proof.
  induction f as [|f IH]; intros l d d' H; [discriminate|]. cbn [read_response] in H.
  destruct l as [|b l]; [injection H as <-; exists []; repeat split; constructor|].
  remember (b :: l) as l0. clear Heql0 b l.
  apply bind_Ok_inv in H as (((t & w) & r) & H1 & H).
  destruct (decode_key_sound _ _ _ _ H1) as (k & K & -> & W). clear H1.
  destruct (N.eqb_spec t 1) as [->|T].
  - apply bind_Ok_inv in H as (? & H1 & H). apply ensure_Ok_inv in H1. apply N.eqb_eq in H1. subst w.
    apply bind_Ok_inv in H as ((n & r1) & H1 & H).
    destruct (decode_varint_sound _ _ _ H1) as (v & V & ->).
    apply bind_Ok_inv in H as ((tx & r2) & H2 & H).
    destruct (take_bytes_sound _ _ _ _ H2) as (-> & <-).
    apply bind_Ok_inv in H as (? & H3 & H). apply ensure_Ok_inv in H3.
    destruct (IH _ _ _ H) as (fs & S & -> & F).
    exists ((1, PBytes tx) :: fs). split; [now apply says_bytes|].
    cbn [all_bytes N.eqb Pos.eqb]. rewrite last_last. auto.
  - assert (T' : (t =? 1) = false) by now apply N.eqb_neq.
    destruct (N.eqb_spec w 0) as [->|W0].
    { apply bind_Ok_inv in H as ((n & r1) & H1 & H).
      destruct (decode_varint_sound _ _ _ H1) as (v & V & ->).
      destruct (IH _ _ _ H) as (fs & S & -> & F). exists ((t, PNumber n) :: fs).
      rewrite N.add_0_r in K. split; [now apply says_number|]. auto. }
    destruct (N.eqb_spec w 1) as [->|W1].
    { apply bind_Ok_inv in H as ((v & r1) & H1 & H).
      destruct (take_bytes_sound _ _ _ _ H1) as (-> & L).
      destruct (IH _ _ _ H) as (fs & S & -> & F). exists ((t, PFixed v) :: fs).
      split; [apply says_fixed64; auto; lia|]. auto. }
    destruct (N.eqb_spec w 2) as [->|W2].
    { apply bind_Ok_inv in H as ((n & r1) & H1 & H).
      destruct (decode_varint_sound _ _ _ H1) as (v & V & ->).
      apply bind_Ok_inv in H as ((tx & r2) & H2 & H).
      destruct (take_bytes_sound _ _ _ _ H2) as (-> & <-).
      destruct (IH _ _ _ H) as (fs & S & -> & F). exists ((t, PBytes tx) :: fs).
      split; [now apply says_bytes|]. cbn [all_bytes]. rewrite T'. auto. }
    destruct (N.eqb_spec w 5) as [->|W5]; [|discriminate].
    apply bind_Ok_inv in H as ((v & r1) & H1 & H).
    destruct (take_bytes_sound _ _ _ _ H1) as (-> & L).
    destruct (IH _ _ _ H) as (fs & S & -> & F). exists ((t, PFixed v) :: fs).
    split; [apply says_fixed32; auto; lia|]. auto.
Qed.

Lemma read_varint_complete f : forall g n r, n < 128 ^ N.of_nat (S f) -> n < 2 ^ N.of_nat g ->
  read_varint (S f) (varint_fuel (S g) n ++ r) = Ok (n, r).
Proof.
  induction f as [|f IH]; intros g n r H G.
  - change (128 ^ N.of_nat 1) with 128 in H. cbn [varint_fuel].
    destruct (N.ltb_spec n 128); [|lia]. cbn [app read_varint].
    rewrite bN_nB by lia. destruct (N.ltb_spec n 128); [reflexivity|lia].
  - cbn [varint_fuel]. destruct (N.ltb_spec n 128) as [L|L].
    + cbn [app read_varint]. rewrite bN_nB by lia. destruct (N.ltb_spec n 128); [reflexivity|lia].
    + destruct g as [|g]; [cbn in G; lia|].
      rewrite Nat2N.inj_succ, N.pow_succ_r' in H, G.
      change (read_varint (S (S f)) ((nB (n mod 128 + 128) :: varint_fuel (S g) (n / 128)) ++ r))
        with (if bN (nB (n mod 128 + 128)) <? 128 then Ok (bN (nB (n mod 128 + 128)), varint_fuel (S g) (n / 128) ++ r)
              else ' (m, r') <- read_varint (S f) (varint_fuel (S g) (n / 128) ++ r) ;;
                   Ok (bN (nB (n mod 128 + 128)) - 128 + 128 * m, r')).
      rewrite bN_nB by lia.
      destruct (N.ltb_spec (n mod 128 + 128) 128); [lia|].
      rewrite IH by lia. cbn [bind]. f_equal. f_equal. lia.
Qed.
Lemma decode_varint_complete n r : n < u64_max -> decode_varint (varint n ++ r) = Ok (n, r).
Proof.
  intros H. unfold decode_varint, varint. rewrite read_varint_complete.
  - cbn [bind]. apply N.ltb_lt in H. now rewrite H.
  - eapply N.lt_trans; [exact H|reflexivity].
  - rewrite N2Nat.id. apply N.size_gt.
Qed.

Lemma response_read d : valid_utf8 d = true -> N.of_nat (length d) < u64_max ->
  create_denom_response (create_denom_response_bytes d) = Ok d.
Proof.
  intros U L. unfold create_denom_response, create_denom_response_bytes.
  destruct d as [|b d]; [reflexivity|]. remember (b :: d) as v eqn:Ev.
  assert (Lv : (0 < length v)%nat) by (subst v; cbn; lia).
  replace (string_field 1 v) with (delimited 1 v) by (subst v; reflexivity).
  unfold delimited. change (field_key 1 2) with [x0a].
  assert (G : forall f, read_response (S (S f)) ([x0a] ++ varint (N.of_nat (length v)) ++ v) [] = Ok v).
  { intros f. cbn [app]. remember (S f) as g. cbn [read_response].
    change (decode_key (x0a :: varint (N.of_nat (length v)) ++ v))
      with (Ok (1, 2, varint (N.of_nat (length v)) ++ v)).
    cbn [bind N.eqb Pos.eqb ensure].
    rewrite decode_varint_complete by exact L. cbn [bind].
    unfold take_bytes. rewrite (proj2 (N.leb_le _ _)) by lia.
    rewrite Nat2N.id, firstn_all, skipn_all. cbn [bind]. rewrite U. cbn [bind ensure].
    subst g. reflexivity. }
  rewrite !app_length. cbn [length].
  replace (1 + (length (varint (N.of_nat (length v))) + length v))%nat
    with (S (length (varint (N.of_nat (length v))) + length v)) by lia.
  apply G.
Qed.

(** ** UTF-8 *)
Lemma between_true lo hi b : between lo hi b = true <-> lo <= bN b <= hi.
Proof. unfold between. rewrite andb_true_iff, !N.leb_le. tauto. Qed.

Lemma valid_utf8_sound n : forall l, (length l <= n)%nat -> valid_utf8 l = true -> utf8 l.
Proof.
  assert (S1 : forall a l, bN a < 128 -> utf8 l -> utf8 (a :: l)).
  { intros a l A H. apply (utf8_cons (bN a) [a]); auto; [left; lia|now constructor]. }
  assert (S2 : forall a b l, 194 <= bN a <= 223 -> 128 <= bN b <= 191 -> utf8 l -> utf8 (a :: b :: l)).
  { intros a b l A B H. apply (utf8_cons ((bN a - 192) * 64 + (bN b - 128)) [a; b]); auto.
    - left. lia.
    - apply u8_2; lia. }
  assert (S3 : forall a b c l, 224 <= bN a <= 239 -> 128 <= bN b <= 191 -> 128 <= bN c <= 191 ->
    (bN a = 224 -> 160 <= bN b) -> (bN a = 237 -> bN b <= 159) -> utf8 l -> utf8 (a :: b :: c :: l)).
  { intros a b c l A B D E F H.
    apply (utf8_cons ((bN a - 224) * 4096 + (bN b - 128) * 64 + (bN c - 128)) [a; b; c]); auto.
    - unfold scalar. lia.
    - apply u8_3; lia. }
  assert (S4 : forall a b c d l, 240 <= bN a <= 244 -> 128 <= bN b <= 191 -> 128 <= bN c <= 191 ->
    128 <= bN d <= 191 ->
    (bN a = 240 -> 144 <= bN b) -> (bN a = 244 -> bN b <= 143) -> utf8 l ->
    utf8 (a :: b :: c :: d :: l)).
  { intros a b c d l A B D D' E F H.
    apply (utf8_cons ((bN a - 240) * 262144 + (bN b - 128) * 4096 + (bN c - 128) * 64 + (bN d - 128))
             [a; b; c; d]); auto.
    - unfold scalar. lia.
    - apply u8_4; lia. }
  induction n as [|n IH]; intros l L H.
  - destruct l; [constructor|cbn in L; lia].
  - destruct l as [|a l]; [constructor|]. cbn [length] in L.
    cbn [valid_utf8] in H. destruct (between 0 127 a) eqn:A.
    { apply between_true in A. apply S1; [lia|]. apply IH; [lia|exact H]. }
    destruct l as [|b l]; [discriminate|]. cbn [length] in L.
    destruct (between 194 223 a) eqn:A2.
    { apply between_true in A2. apply andb_prop in H as (B & H). apply between_true in B.
      apply S2; auto. apply IH; [lia|exact H]. }
    destruct l as [|c l]; [discriminate|]. cbn [length] in L.
    destruct (between 224 239 a) eqn:A3.
    { apply between_true in A3. apply andb_prop in H as (B & H). apply andb_prop in B as (B & D).
      apply between_true in D.
      assert (B' : 128 <= bN b <= 191 /\ (bN a = 224 -> 160 <= bN b) /\ (bN a = 237 -> bN b <= 159)).
      { destruct (N.eqb_spec (bN a) 224); [|destruct (N.eqb_spec (bN a) 237)];
          apply between_true in B; lia. }
      destruct B' as (B1 & B2 & B3). apply S3; auto. apply IH; [lia|exact H]. }
    destruct l as [|d l]; [discriminate|]. cbn [length] in L.
    destruct (between 240 244 a) eqn:A4; [|discriminate].
    apply between_true in A4. apply andb_prop in H as (B & H). apply andb_prop in B as (B & D').
    apply andb_prop in B as (B & D).
    apply between_true in D. apply between_true in D'.
    assert (B' : 128 <= bN b <= 191 /\ (bN a = 240 -> 144 <= bN b) /\ (bN a = 244 -> bN b <= 143)).
    { destruct (N.eqb_spec (bN a) 240); [|destruct (N.eqb_spec (bN a) 244)];
        apply between_true in B; lia. }
    destruct B' as (B1 & B2 & B3). apply S4; auto. apply IH; [lia|exact H].
Qed.

Lemma between_false lo hi b : ~ (lo <= bN b <= hi) -> between lo hi b = false.
Proof.
  intros H. destruct (between lo hi b) eqn:E; [|reflexivity]. apply between_true in E. contradiction.
Qed.
Lemma valid_utf8_complete l : utf8 l -> valid_utf8 l = true.
Proof.
  induction 1 as [|c ch l SC CH _ IH]; [reflexivity|].
  destruct CH as [a A|a b c A B R|a b d c A B D R|a b d e c A B D E R]; cbn [app valid_utf8].
  - rewrite (proj2 (between_true 0 127 a)) by lia. exact IH.
  - rewrite (between_false 0 127 a) by lia. rewrite (proj2 (between_true 194 223 a)) by lia.
    rewrite (proj2 (between_true 128 191 b)) by lia. exact IH.
  - rewrite (between_false 0 127 a) by lia. rewrite (between_false 194 223 a) by lia.
    rewrite (proj2 (between_true 224 239 a)) by lia.
    rewrite (proj2 (between_true 128 191 d)) by lia. rewrite IH, !andb_true_r.
    destruct (N.eqb_spec (bN a) 224); [apply between_true; lia|].
    destruct (N.eqb_spec (bN a) 237); apply between_true; unfold scalar in SC; lia.
  - rewrite (between_false 0 127 a) by lia. rewrite (between_false 194 223 a) by lia.
    rewrite (between_false 224 239 a) by lia. rewrite (proj2 (between_true 240 244 a)) by lia.
    rewrite (proj2 (between_true 128 191 d)) by lia.
    rewrite (proj2 (between_true 128 191 e)) by lia. rewrite IH, !andb_true_r.
    destruct (N.eqb_spec (bN a) 240); [apply between_true; lia|].
    destruct (N.eqb_spec (bN a) 244); apply between_true; lia.
Qed.
Lemma utf8_iff l : valid_utf8 l = true <-> utf8 l.
Proof. split; [exact (valid_utf8_sound _ l (le_n _))|apply valid_utf8_complete]. Qed.

(** ** The reply *)
Lemma Forall_last {X} (P : X -> Prop) l d : Forall P l -> P d -> P (last l d).
Proof.
  induction 1 as [|x l Hx _ IH]; intros Hd; [exact Hd|].
  cbn [last]. destruct l; auto.
Qed.
Lemma reply_bytes_sound id r x x' m : wn_reply_bytes id r x = Ok (x', m) ->
  exists data fs, r = Ok (Some data) /\ says data fs /\ utf8 (the_text 1 fs) /\
    x' = wp_set_token x (the_text 1 fs) /\ m = resp0.
Proof.
  unfold wn_reply_bytes. destruct r as [[data|]| |]; try discriminate.
  destruct (id =? REPLY_ID_CREATE_DENOM); [|discriminate]. intros H.
  apply bind_Ok_inv in H as (d & H1 & H). injection H as <- <-.
  destruct (read_response_sound _ _ _ _ H1) as (fs & S & -> & F).
  exists data, fs. repeat split; auto. apply utf8_iff. unfold the_text.
  apply (Forall_last (fun v => valid_utf8 v = true)); auto.
Qed.
Lemma reply_bytes_complete id d x : utf8 d -> N.of_nat (length d) < u64_max ->
  wn_reply_bytes id (Ok (Some (create_denom_response_bytes d))) x = wn_reply id (Ok (RrDenom d)) x.
Proof.
  intros U L. unfold wn_reply_bytes, wn_reply. rewrite response_read; auto.
  now apply utf8_iff.
Qed.
