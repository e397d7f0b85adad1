(** * The reader of Json.v and the grammar of SpecJson.v agree. *)
From Coq Require Import List NArith Bool Lia Arith.
From Verif Require Import Base BaseFacts Hex Bech32 Events SpecVersion SpecEvents SpecCodec ProtoFacts EventFacts CaseFacts Json SpecJson JsonFacts.
Import ListNotations.

(** ** Blanks *)
Lemma is_blank c : ((bN c =? 32) || (bN c =? 9) || (bN c =? 10) || (bN c =? 13))%bool = true <-> In c [x20; x09; x0a; x0d].
Proof.
  split.
  - intros H. repeat (apply orb_true_iff in H as [H|H]); apply N.eqb_eq in H; rewrite <- (nB_bN c), H; cbn; auto.
  - intros [<-|[<-|[<-|[<-|[]]]]]; reflexivity.
Qed.
Lemma spaces_split t : exists w, blank w /\ t = w ++ spaces t.
Proof.
  induction t as [|c t (w & W & E)]; [exists []; split; [constructor|reflexivity]|]. cbn [spaces].
  destruct (_ || _)%bool eqn:B.
  - exists (c :: w). split; [constructor; [now apply is_blank|exact W]|]. cbn [app]. now rewrite <- E.
  - exists []. split; [constructor|reflexivity].
Qed.
Lemma spaces_blank w t : blank w -> spaces (w ++ t) = spaces t.
Proof.
  induction 1 as [|c w C _ IH]; [reflexivity|]. cbn [app spaces]. apply is_blank in C. rewrite C. exact IH.
Qed.
Lemma blank_stops w t : blank w -> stops t -> stops (w ++ t).
Proof. intros [|c w' C _] H; [exact H|]. cbn [app stops]. destruct C as [<-|[<-|[<-|[<-|[]]]]]; reflexivity. Qed.
Lemma eat_some n t y : n < 256 -> eat n t = Some y -> t = nB n :: y.
Proof.
  destruct t as [|c t]; cbn [eat]; [discriminate|]. destruct (bN c =? n) eqn:E; [|discriminate]. intros _ [= ->].
  apply N.eqb_eq in E. now rewrite <- E, nB_bN.
Qed.
Lemma is_byte c n : bN c =? n = true -> c = nB n.
Proof. intros E. apply N.eqb_eq in E. now rewrite <- E, nB_bN. Qed.

(** ** Strings *)
Lemma utf8_encodes n u : n < 65536 -> (utf8 n = Some u <-> encodes n u).
Proof.
  intros Hn. unfold utf8, encodes. split.
  - destruct (N.ltb_spec n 128) as [A|A]; [intros [= <-]; cbn [map]; rewrite bN_nB by lia; lia|].
    destruct (N.ltb_spec n 2048) as [B|B].
    + intros Eu; apply Some_inj in Eu as <-. cbn [map]. pose proof (N.div_mod' n 64). pose proof (N.mod_lt n 64 ltac:(lia)).
      rewrite !bN_nB by lia. lia.
    + destruct ((55296 <=? n) && (n <? 57344))%bool eqn:C; [discriminate|]. intros Eu; apply Some_inj in Eu as <-. cbn [map].
      pose proof (N.div_mod' n 64). pose proof (N.mod_lt n 64 ltac:(lia)).
      pose proof (N.div_mod' (n / 64) 64). pose proof (N.mod_lt (n / 64) 64 ltac:(lia)).
      replace (n / 4096) with (n / 64 / 64) by (now rewrite N.div_div by lia).
      rewrite !bN_nB by lia. apply andb_false_iff in C. rewrite N.leb_gt, N.ltb_ge in C. lia.
  - destruct u as [|a [|b [|c [|d [|e u]]]]]; cbn [map]; try contradiction; [| | |lia].
    + intros [A ->]. destruct (N.ltb_spec (bN a) 128); [now rewrite nB_bN|lia].
    + intros (A & B & E & F). destruct (N.ltb_spec n 128); [lia|]. destruct (N.ltb_spec n 2048); [|lia].
      assert (Q : n / 64 = bN a - 192) by (symmetry; apply (N.div_unique n 64 _ (bN b - 128)); lia).
      assert (R : n mod 64 = bN b - 128) by (symmetry; apply (N.mod_unique n 64 (bN a - 192)); lia).
      rewrite Q, R, !N.add_sub_assoc by lia. rewrite !(N.add_comm _ (bN _)), !N.add_sub, !nB_bN. reflexivity.
    + intros (A & B & C & E & F & G). destruct (N.ltb_spec n 128); [lia|]. destruct (N.ltb_spec n 2048); [lia|].
      destruct ((55296 <=? n) && (n <? 57344))%bool eqn:S.
      { apply andb_true_iff in S. rewrite N.leb_le, N.ltb_lt in S. lia. }
      assert (Q : n / 64 = (bN a - 224) * 64 + (bN b - 128)) by (symmetry; apply (N.div_unique n 64 _ (bN c - 128)); lia).
      assert (R : n mod 64 = bN c - 128) by (symmetry; apply (N.mod_unique n 64 ((bN a - 224) * 64 + (bN b - 128))); lia).
      replace (n / 4096) with (n / 64 / 64) by (now rewrite N.div_div by lia). rewrite Q, R.
      assert (Q1 : ((bN a - 224) * 64 + (bN b - 128)) / 64 = bN a - 224) by (symmetry; apply (N.div_unique _ 64 _ (bN b - 128)); lia).
      assert (Q2 : ((bN a - 224) * 64 + (bN b - 128)) mod 64 = bN b - 128) by (symmetry; apply (N.mod_unique _ 64 (bN a - 224)); lia).
      rewrite Q1, Q2, !N.add_sub_assoc by lia. rewrite !(N.add_comm _ (bN _)), !N.add_sub, !nB_bN. reflexivity.
Qed.
Lemma code_point_read a b c d u :
  code_point a b c d = Some u <->
  exists h l, Forall2 lowers [a; b; c; d] (hex_of [h; l]) /\ encodes (256 * bN h + bN l) u.
Proof.
  unfold code_point. split.
  - destruct (hex_value a) as [x1|] eqn:E1; [|discriminate]. destruct (hex_value b) as [x2|] eqn:E2; [|discriminate].
    destruct (hex_value c) as [x3|] eqn:E3; [|discriminate]. destruct (hex_value d) as [x4|] eqn:E4; [|discriminate]. intros H.
    exists (nB (x1 * 16 + x2)), (nB (x3 * 16 + x4)).
    assert (B1 := E1). apply hex_value_lower in B1 as [B1 _]. assert (B2 := E2). apply hex_value_lower in B2 as [B2 _].
    assert (B3 := E3). apply hex_value_lower in B3 as [B3 _]. assert (B4 := E4). apply hex_value_lower in B4 as [B4 _].
    split.
    + apply hex_exact. cbn [hex_decode]. rewrite E1, E2, E3, E4. reflexivity.
    + apply utf8_encodes; [rewrite !bN_nB by lia; lia|]. rewrite !bN_nB by lia. rewrite <- H. f_equal. lia.
  - intros (h & l & H & E). apply hex_exact in H. cbn [hex_decode] in H.
    destruct (hex_value a) as [x1|] eqn:E1; [|discriminate]. destruct (hex_value b) as [x2|] eqn:E2; [|discriminate].
    destruct (hex_value c) as [x3|] eqn:E3; [|discriminate]. destruct (hex_value d) as [x4|] eqn:E4; [|discriminate].
    cbn [bind] in H. apply Ok_inj in H. injection H as <- <-.
    apply hex_value_lower in E1 as [B1 _], E2 as [B2 _], E3 as [B3 _], E4 as [B4 _].
    rewrite !bN_nB in E by lia. apply utf8_encodes; [lia|]. replace (((x1 * 16 + x2) * 16 + x3) * 16 + x4) with (256 * (x1 * 16 + x2) + (x3 * 16 + x4)) by lia.
    exact E.
Qed.
Lemma utf8_pair_encodes n m u : utf8_pair n m = Some u <-> exists c, surrogates n m c /\ encodes c u.
Proof.
  unfold utf8_pair, surrogates. split.
  - destruct ((55296 <=? n) && (n <? 56320) && (56320 <=? m) && (m <? 57344))%bool eqn:B; [|discriminate].
    rewrite !andb_true_iff, !N.leb_le, !N.ltb_lt in B. intros Eu; apply Some_inj in Eu as <-.
    remember (65536 + (n - 55296) * 1024 + (m - 56320)) as c eqn:Ec. exists c. split; [lia|]. unfold encodes. cbn [map].
    pose proof (N.div_mod' c 64). pose proof (N.mod_lt c 64 ltac:(lia)).
    pose proof (N.div_mod' (c / 64) 64). pose proof (N.mod_lt (c / 64) 64 ltac:(lia)).
    pose proof (N.div_mod' (c / 64 / 64) 64). pose proof (N.mod_lt (c / 64 / 64) 64 ltac:(lia)).
    replace (c / 4096) with (c / 64 / 64) by (now rewrite N.div_div by lia).
    replace (c / 262144) with (c / 64 / 64 / 64) by (now rewrite !N.div_div by lia).
    rewrite !bN_nB by lia. lia.
  - intros (c & (N1 & N2 & Ec) & E).
    destruct ((55296 <=? n) && (n <? 56320) && (56320 <=? m) && (m <? 57344))%bool eqn:B.
    2:{ rewrite !andb_false_iff, !N.leb_gt, !N.ltb_ge in B. lia. }
    rewrite <- Ec. unfold encodes in E. destruct u as [|a [|b [|d [|e [|f u]]]]]; cbn [map] in E; try contradiction; try lia.
    destruct E as (A & B1 & B2 & B3 & E & _).
    assert (Q : c / 64 = (bN a - 240) * 4096 + (bN b - 128) * 64 + (bN d - 128)) by (symmetry; apply (N.div_unique c 64 _ (bN e - 128)); lia).
    assert (R : c mod 64 = bN e - 128) by (symmetry; apply (N.mod_unique c 64 ((bN a - 240) * 4096 + (bN b - 128) * 64 + (bN d - 128))); lia).
    replace (c / 4096) with (c / 64 / 64) by (now rewrite N.div_div by lia).
    replace (c / 262144) with (c / 64 / 64 / 64) by (now rewrite !N.div_div by lia). rewrite Q, R.
    assert (Q1 : ((bN a - 240) * 4096 + (bN b - 128) * 64 + (bN d - 128)) / 64 = (bN a - 240) * 64 + (bN b - 128))
      by (symmetry; apply (N.div_unique _ 64 _ (bN d - 128)); lia).
    assert (R1 : ((bN a - 240) * 4096 + (bN b - 128) * 64 + (bN d - 128)) mod 64 = bN d - 128)
      by (symmetry; apply (N.mod_unique _ 64 ((bN a - 240) * 64 + (bN b - 128))); lia).
    assert (Q2 : ((bN a - 240) * 64 + (bN b - 128)) / 64 = bN a - 240) by (symmetry; apply (N.div_unique _ 64 _ (bN b - 128)); lia).
    assert (R2 : ((bN a - 240) * 64 + (bN b - 128)) mod 64 = bN b - 128) by (symmetry; apply (N.mod_unique _ 64 (bN a - 240)); lia).
    rewrite Q1, R1, Q2, R2, !N.add_sub_assoc by lia. rewrite !(N.add_comm _ (bN _)), !N.add_sub, !nB_bN. reflexivity.
Qed.
(** four digits and the number they write *)
Lemma four_digits a b c d h l : Forall2 lowers [a; b; c; d] (hex_of [h; l]) ->
  exists x1 x2 x3 x4, hex_value a = Some x1 /\ hex_value b = Some x2 /\ hex_value c = Some x3 /\ hex_value d = Some x4 /\
    ((x1 * 16 + x2) * 16 + x3) * 16 + x4 = 256 * bN h + bN l.
Proof.
  intros H. apply hex_exact in H. cbn [hex_decode] in H.
  destruct (hex_value a) as [x1|] eqn:E1; [|discriminate]. destruct (hex_value b) as [x2|] eqn:E2; [|discriminate].
  destruct (hex_value c) as [x3|] eqn:E3; [|discriminate]. destruct (hex_value d) as [x4|] eqn:E4; [|discriminate].
  cbn [bind] in H. apply Ok_inj in H. injection H as <- <-.
  apply hex_value_lower in E1 as [B1 _], E2 as [B2 _], E3 as [B3 _], E4 as [B4 _].
  exists x1, x2, x3, x4. repeat (split; [reflexivity|]). rewrite !bN_nB by lia. lia.
Qed.
Lemma digits_four a b c d x1 x2 x3 x4 :
  hex_value a = Some x1 -> hex_value b = Some x2 -> hex_value c = Some x3 -> hex_value d = Some x4 ->
  exists h l, Forall2 lowers [a; b; c; d] (hex_of [h; l]) /\ ((x1 * 16 + x2) * 16 + x3) * 16 + x4 = 256 * bN h + bN l.
Proof.
  intros E1 E2 E3 E4. exists (nB (x1 * 16 + x2)), (nB (x3 * 16 + x4)).
  assert (B1 := E1). apply hex_value_lower in B1 as [B1 _]. assert (B2 := E2). apply hex_value_lower in B2 as [B2 _].
  assert (B3 := E3). apply hex_value_lower in B3 as [B3 _]. assert (B4 := E4). apply hex_value_lower in B4 as [B4 _].
  split; [|rewrite !bN_nB by lia; lia]. apply hex_exact. cbn [hex_decode]. rewrite E1, E2, E3, E4. reflexivity.
Qed.
Lemma code_pair_read a b c d a' b' c' d' u :
  code_pair a b c d a' b' c' d' = Some u <->
  exists h l h' l' p, Forall2 lowers [a; b; c; d] (hex_of [h; l]) /\ Forall2 lowers [a'; b'; c'; d'] (hex_of [h'; l']) /\
    surrogates (256 * bN h + bN l) (256 * bN h' + bN l') p /\ encodes p u.
Proof.
  unfold code_pair. split.
  - destruct (hex_value a) as [x1|] eqn:E1; [|discriminate]. destruct (hex_value b) as [x2|] eqn:E2; [|discriminate].
    destruct (hex_value c) as [x3|] eqn:E3; [|discriminate]. destruct (hex_value d) as [x4|] eqn:E4; [|discriminate].
    destruct (hex_value a') as [y1|] eqn:F1; [|discriminate]. destruct (hex_value b') as [y2|] eqn:F2; [|discriminate].
    destruct (hex_value c') as [y3|] eqn:F3; [|discriminate]. destruct (hex_value d') as [y4|] eqn:F4; [|discriminate].
    intros H. destruct (digits_four a b c d _ _ _ _ E1 E2 E3 E4) as (h & l & D & E). destruct (digits_four a' b' c' d' _ _ _ _ F1 F2 F3 F4) as (h' & l' & D' & E').
    rewrite E, E' in H. apply utf8_pair_encodes in H as (p & P1 & P2). exists h, l, h', l', p. auto.
  - intros (h & l & h' & l' & p & D & D' & S & P).
    destruct (four_digits _ _ _ _ _ _ D) as (x1 & x2 & x3 & x4 & -> & -> & -> & -> & ->).
    destruct (four_digits _ _ _ _ _ _ D') as (y1 & y2 & y3 & y4 & -> & -> & -> & -> & ->).
    apply utf8_pair_encodes. eauto.
Qed.
(** a surrogate is no character by itself *)
Lemma code_point_surrogate a b c d h l : Forall2 lowers [a; b; c; d] (hex_of [h; l]) -> 55296 <= 256 * bN h + bN l < 57344 ->
  code_point a b c d = None.
Proof.
  intros D B. destruct (four_digits _ _ _ _ _ _ D) as (x1 & x2 & x3 & x4 & E1 & E2 & E3 & E4 & E). unfold code_point.
  rewrite E1, E2, E3, E4, E. unfold utf8. destruct (N.ltb_spec (256 * bN h + bN l) 128); [lia|].
  destruct (N.ltb_spec (256 * bN h + bN l) 2048); [lia|].
  destruct (N.leb_spec 55296 (256 * bN h + bN l)); [|lia]. destruct (N.ltb_spec (256 * bN h + bN l) 57344); [reflexivity|lia].
Qed.
Lemma escape_read e c : escape e = Some c <-> In (e, c) escapes.
Proof.
  split.
  - intros H. destruct e; cbv in H; try discriminate H; injection H as <-; cbn; tauto.
  - intros H. unfold escapes in H. cbn [In] in H.
    repeat (destruct H as [H|H]; [injection H as <- <-; reflexivity|]). destruct H.
Qed.
Lemma string_sound n : forall t x y, (length t <= n)%nat -> string_rest t = Some (x, y) -> exists u, chars x u /\ t = u ++ x22 :: y.
Proof.
  induction n as [|n IH]; intros t x y Hn H; (destruct t as [|c t]; [discriminate H|]); [cbn [length] in Hn; lia|].
  cbn [string_rest] in H. cbn [length] in Hn. destruct (bN c =? 34) eqn:Q.
  { injection H as <- <-. apply is_byte in Q. subst c. exists []. split; [constructor|reflexivity]. }
  destruct (bN c =? 92) eqn:B.
  - apply is_byte in B. subst c. destruct t as [|e t]; [discriminate H|]. cbn [length] in Hn. destruct (bN e =? 117) eqn:U.
    + apply is_byte in U. subst e. destruct t as [|a [|b [|c [|d t]]]]; try discriminate H. cbn [length] in Hn.
      destruct (code_point a b c d) as [v|] eqn:P.
      * destruct (string_rest t) as [[x' y']|] eqn:R; [|discriminate H].
        injection H as <- <-. apply code_point_read in P as (h & l & P1 & P2). destruct (IH t x' y' ltac:(lia) R) as (w & W & ->).
        exists (x5c :: x75 :: [a; b; c; d] ++ w). split; [exact (chars_unicode h l _ v x' w P1 P2 W)|reflexivity].
      * destruct t as [|q [|v [|a2 [|b2 [|c2 [|d2 t]]]]]]; try discriminate H. cbn [length] in Hn.
        destruct ((bN q =? 92) && (bN v =? 117))%bool eqn:Q2; [|discriminate H]. apply andb_true_iff in Q2 as [Q2 U2].
        apply is_byte in Q2, U2. subst q v.
        destruct (code_pair a b c d a2 b2 c2 d2) as [v|] eqn:P2; [|discriminate H]. destruct (string_rest t) as [[x' y']|] eqn:R; [|discriminate H].
        injection H as <- <-. apply code_pair_read in P2 as (h & l & h' & l' & p & D1 & D2 & S1 & S2).
        destruct (IH t x' y' ltac:(lia) R) as (w & W & ->).
        exists (x5c :: x75 :: [a; b; c; d] ++ x5c :: x75 :: [a2; b2; c2; d2] ++ w).
        split; [exact (chars_pair h l _ h' l' _ p v x' w D1 D2 S1 S2 W)|reflexivity].
    + destruct (escape e) as [v|] eqn:P; [|discriminate H]. destruct (string_rest t) as [[x' y']|] eqn:R; [|discriminate H].
      injection H as <- <-. apply escape_read in P. destruct (IH t x' y' ltac:(lia) R) as (w & W & ->).
      exists (x5c :: e :: w). split; [exact (chars_escape e v x' w P W)|reflexivity].
  - destruct (string_rest t) as [[x' y']|] eqn:R; [|discriminate H]. injection H as <- <-.
    destruct (IH t x' y' ltac:(lia) R) as (w & W & ->). exists (c :: w). split; [|reflexivity].
    apply chars_plain; [intros ->; discriminate Q|intros ->; discriminate B|exact W].
Qed.
Lemma string_complete x u y : chars x u -> string_rest (u ++ x22 :: y) = Some (x, y).
Proof.
  induction 1 as [|c x u C1 C2 _ IH|e c x u E _ IH|h l d v x u D E _ IH|h l d h' l' d' p v x u D D' S E _ IH].
  - reflexivity.
  - cbn [app string_rest]. rewrite IH.
    destruct (bN c =? 34) eqn:Q; [apply is_byte in Q; now rewrite Q in C1|].
    destruct (bN c =? 92) eqn:B; [apply is_byte in B; now rewrite B in C2|]. reflexivity.
  - cbn [app string_rest]. change (bN x5c =? 34) with false. change (bN x5c =? 92) with true. cbv iota.
    assert (U : bN e =? 117 = false). { unfold escapes in E. cbn [In] in E. repeat (destruct E as [E|E]; [injection E as <- <-; reflexivity|]). destruct E. }
    rewrite U, IH. apply escape_read in E. now rewrite E.
  - assert (L : length d = 4%nat) by (apply lowers_map in D; rewrite <- (map_length to_lower d), <- D; reflexivity). destruct d as [|d1 [|d2 [|d3 [|d4 [|d5 d]]]]]; try discriminate L. cbn [app string_rest].
    change (bN x5c =? 34) with false. change (bN x5c =? 92) with true. change (bN x75 =? 117) with true. cbv iota.
    assert (P : code_point d1 d2 d3 d4 = Some v) by (apply code_point_read; eauto). rewrite P, IH. reflexivity.
  - assert (L : length d = 4%nat) by (apply lowers_map in D; rewrite <- (map_length to_lower d), <- D; reflexivity).
    assert (L' : length d' = 4%nat) by (apply lowers_map in D'; rewrite <- (map_length to_lower d'), <- D'; reflexivity).
    destruct d as [|d1 [|d2 [|d3 [|d4 [|d5 d]]]]]; try discriminate L. destruct d' as [|e1 [|e2 [|e3 [|e4 [|e5 d']]]]]; try discriminate L'.
    cbn [app string_rest].
    change (bN x5c =? 34) with false. change (bN x5c =? 92) with true. change (bN x75 =? 117) with true. cbv iota. cbn [andb].
    assert (P : code_point d1 d2 d3 d4 = None) by (apply (code_point_surrogate _ _ _ _ _ _ D); unfold surrogates in S; lia).
    assert (P' : code_pair d1 d2 d3 d4 e1 e2 e3 e4 = Some v) by (apply code_pair_read; exists h, l, h', l', p; auto).
    rewrite P, P', IH. reflexivity.
Qed.

(** ** Numbers *)
Lemma digit_is c : is_digit c = true <-> digit c.
Proof. unfold is_digit, digit. rewrite andb_true_iff, !N.leb_le. reflexivity. Qed.
Lemma digits_split t : exists l y, Forall digit l /\ stops y /\ t = l ++ y.
Proof.
  induction t as [|c t (l & y & L & Y & E)]; [exists [], []; repeat split; constructor|].
  destruct (is_digit c) eqn:D.
  - exists (c :: l), y. split; [constructor; [now apply digit_is|exact L]|]. split; [exact Y|now rewrite E].
  - exists [], (c :: t). split; [constructor|]. split; [exact D|reflexivity].
Qed.
Lemma number_sound t n y : number t = Some (n, y) -> exists l, numeric l /\ no_leading_zero l /\ decimal l = n /\ t = l ++ y.
Proof.
  intros H. destruct t as [|c t]; [discriminate H|]. cbn [number] in H. destruct (bN c =? 48) eqn:Z.
  - apply is_byte in Z. subst c. assert (G : n = 0 /\ y = t).
    { destruct t as [|d t]; [injection H as <- <-; auto|]. destruct (is_digit d); [discriminate H|]. injection H as <- <-. auto. }
    destruct G as [-> ->]. exists [x30]. split; [split; [discriminate|constructor; [unfold digit; cbn; lia|constructor]]|].
    split; [now left|]. split; reflexivity.
  - destruct (is_digit c) eqn:D; [|discriminate H]. apply Some_inj in H. destruct (digits_split (c :: t)) as (l & z & L & Zs & E).
    rewrite E, digits_read, N.mul_0_l, N.add_0_l in H by assumption. injection H as <- <-. exists l.
    destruct l as [|c' l].
    { cbn [app] in E. subst z. cbn [stops] in Zs. congruence. }
    cbn [app] in E. injection E as <- ->. split; [split; [discriminate|exact L]|]. split; [|split; reflexivity].
    right. intros l' [= -> ->]. discriminate Z.
Qed.
Lemma number_complete l y : numeric l -> no_leading_zero l -> stops y -> number (l ++ y) = Some (decimal l, y).
Proof.
  intros [N L] Z S. destruct l as [|c l]; [contradiction|]. cbn [app number]. inversion_clear L as [|? ? C L'].
  destruct (bN c =? 48) eqn:B.
  - apply is_byte in B. subst c. destruct Z as [Z|Z]; [|exfalso; exact (Z l eq_refl)]. injection Z as ->. cbn [app].
    destruct y as [|d y]; [reflexivity|]. cbn [stops] in S. now rewrite S.
  - assert (D : is_digit c = true) by (now apply digit_is). rewrite D. f_equal. change (c :: l ++ y) with ((c :: l) ++ y).
    rewrite digits_read; [|constructor; assumption|exact S]. now rewrite N.mul_0_l, N.add_0_l.
Qed.

(** ** Values *)
Lemma word_some w t y : word w t = Some y -> t = w ++ y.
Proof.
  revert t. induction w as [|c w IH]; intros t H; [now injection H as ->|]. destruct t as [|d t]; [discriminate H|]. cbn [word] in H.
  destruct (byte_eqb c d) eqn:E; [|discriminate H]. apply byte_eqb_eq in E. subst d. now rewrite (IH t H).
Qed.
Definition sound (f : str -> option (json * str)) : Prop :=
  forall t j y, f t = Some (j, y) -> exists w u, blank w /\ spells j u /\ t = w ++ u ++ y.
Lemma elements_sound f : sound f -> forall k t l y, elements f k t = Some (l, y) -> exists u, entries l u /\ t = u ++ x5d :: y.
Proof.
  intros F. induction k as [|k IH]; intros t l y H; [discriminate H|]. cbn [elements] in H.
  destruct (f t) as [[j t1]|] eqn:E; [|discriminate H]. destruct (F t j t1 E) as (w & u & W & U & ->).
  destruct (spaces_split t1) as (w' & W' & E'). destruct (eat 44 (spaces t1)) as [t2|] eqn:C.
  - apply eat_some in C; [|lia]. destruct (elements f k t2) as [[l' t3]|] eqn:R; [|discriminate H]. injection H as <- <-.
    destruct (IH t2 l' t3 R) as (u' & U' & ->). exists (w ++ u ++ w' ++ x2c :: u'). split; [now apply entries_more|].
    rewrite E', C. change (nB 44) with x2c. rewrite <- !app_assoc. cbn [app]. now rewrite <- ?app_assoc.
  - destruct (eat 93 (spaces t1)) as [t2|] eqn:D; [|discriminate H]. apply eat_some in D; [|lia]. injection H as <- <-.
    exists (w ++ u ++ w'). split; [now apply entries_last|]. rewrite E', D. now rewrite <- !app_assoc.
Qed.
Lemma member_sound f t k j y : sound f -> member f t = Some ((k, j), y) ->
  exists w1 n w2 w3 u, blank w1 /\ blank w2 /\ blank w3 /\ chars k n /\ spells j u /\ t = w1 ++ x22 :: n ++ x22 :: w2 ++ x3a :: w3 ++ u ++ y.
Proof.
  intros F H. unfold member in H. destruct (spaces_split t) as (w1 & W1 & E1).
  destruct (eat 34 (spaces t)) as [t0|] eqn:Q; [|discriminate H]. apply eat_some in Q; [|lia].
  destruct (string_rest t0) as [[k' t1]|] eqn:R; [|discriminate H]. destruct (string_sound _ _ _ _ (Nat.le_refl _) R) as (n & N & E2).
  destruct (spaces_split t1) as (w2 & W2 & E3). destruct (eat 58 (spaces t1)) as [t2|] eqn:C; [|discriminate H]. apply eat_some in C; [|lia].
  destruct (f t2) as [[j' t3]|] eqn:V; [|discriminate H]. injection H as -> -> ->. destruct (F t2 j y V) as (w3 & u & W3 & U & E4).
  exists w1, n, w2, w3, u. do 5 (split; [assumption|]). rewrite E1, Q, E2, E3, C, E4. change (nB 34) with x22. change (nB 58) with x3a.
  now rewrite <- ?app_assoc.
Qed.
Lemma members_sound f : sound f -> forall k t l y, members f k t = Some (l, y) -> exists u, pairs l u /\ t = u ++ x7d :: y.
Proof.
  intros F. induction k as [|k IH]; intros t l y H; [discriminate H|]. cbn [members] in H.
  destruct (member f t) as [[[n j] t1]|] eqn:E; [|discriminate H].
  destruct (member_sound f t n j t1 F E) as (w1 & x & w2 & w3 & u & W1 & W2 & W3 & N & U & ->).
  destruct (spaces_split t1) as (w' & W' & E'). destruct (eat 44 (spaces t1)) as [t2|] eqn:C.
  - apply eat_some in C; [|lia]. destruct (members f k t2) as [[l' t3]|] eqn:R; [|discriminate H]. injection H as <- <-.
    destruct (IH t2 l' t3 R) as (u' & U' & ->). exists (w1 ++ x22 :: x ++ x22 :: w2 ++ x3a :: w3 ++ u ++ w' ++ x2c :: u').
    split; [now apply pairs_more|].
    rewrite E', C. change (nB 44) with x2c. repeat (rewrite <- !app_assoc; cbn [app]). reflexivity.
  - destruct (eat 125 (spaces t1)) as [t2|] eqn:D; [|discriminate H]. apply eat_some in D; [|lia]. injection H as <- <-.
    exists (w1 ++ x22 :: x ++ x22 :: w2 ++ x3a :: w3 ++ u ++ w'). split; [now apply pairs_last|]. rewrite E', D. change (nB 125) with x7d.
    repeat (rewrite <- !app_assoc; cbn [app]). reflexivity.
Qed.
Lemma value_sound n : sound (value n).
Proof.
  induction n as [|n IH]; intros t j y H; [discriminate H|]. cbn [value] in H. destruct (spaces_split t) as (w & W & E).
  exists w. destruct (spaces t) as [|c t'] eqn:S; [discriminate H|]. rewrite E. clear E S t.
  assert (G : exists u, spells j u /\ c :: t' = u ++ y); [|destruct G as (u & G1 & G2); exists u; rewrite G2; auto].
  destruct (bN c =? 34) eqn:B1.
  { apply is_byte in B1. subst c. destruct (string_rest t') as [[x z]|] eqn:R; [|discriminate H]. injection H as <- <-.
    destruct (string_sound _ _ _ _ (Nat.le_refl _) R) as (u & U & ->). exists (x22 :: u ++ [x22]). split; [now constructor|].
    cbn [app]. now rewrite <- app_assoc. }
  destruct (bN c =? 91) eqn:B2.
  { apply is_byte in B2. subst c. destruct (spaces_split t') as (w' & W' & E'). destruct (eat 93 (spaces t')) as [z|] eqn:C.
    - apply eat_some in C; [|lia]. injection H as <- <-. exists (x5b :: w' ++ [x5d]). split; [now constructor|]. rewrite E', C. cbn [app].
      now rewrite <- app_assoc.
    - destruct (elements (value n) (length t') t') as [[l z]|] eqn:R; [|discriminate H]. injection H as <- <-.
      destruct (elements_sound _ IH _ _ _ _ R) as (u & U & ->). exists (x5b :: u ++ [x5d]). split; [now constructor|]. cbn [app].
      now rewrite <- app_assoc. }
  destruct (bN c =? 123) eqn:B3.
  { apply is_byte in B3. subst c. destruct (spaces_split t') as (w' & W' & E'). destruct (eat 125 (spaces t')) as [z|] eqn:C.
    - apply eat_some in C; [|lia]. injection H as <- <-. exists (x7b :: w' ++ [x7d]). split; [now constructor|]. rewrite E', C. cbn [app].
      now rewrite <- app_assoc.
    - destruct (members (value n) (length t') t') as [[l z]|] eqn:R; [|discriminate H]. injection H as <- <-.
      destruct (members_sound _ IH _ _ _ _ R) as (u & U & ->). exists (x7b :: u ++ [x7d]). split; [now constructor|]. cbn [app].
      now rewrite <- app_assoc. }
  destruct (bN c =? 110) eqn:B4.
  { apply is_byte in B4. subst c. destruct (word (s "ull") t') as [z|] eqn:R; [|discriminate H]. injection H as <- <-. apply word_some in R. subst t'.
    exists (s "null"). split; [constructor|reflexivity]. }
  destruct (bN c =? 116) eqn:B5.
  { apply is_byte in B5. subst c. destruct (word (s "rue") t') as [z|] eqn:R; [|discriminate H]. injection H as <- <-. apply word_some in R. subst t'.
    exists (s "true"). split; [constructor|reflexivity]. }
  destruct (bN c =? 102) eqn:B6.
  { apply is_byte in B6. subst c. destruct (word (s "alse") t') as [z|] eqn:R; [|discriminate H]. injection H as <- <-. apply word_some in R. subst t'.
    exists (s "false"). split; [constructor|reflexivity]. }
  destruct (number (c :: t')) as [[m z]|] eqn:R; [|discriminate H]. injection H as <- <-.
  destruct (number_sound _ _ _ R) as (l & L1 & L2 & L3 & L4). exists l. split; [now constructor|exact L4].
Qed.

(** ** All that the grammar allows is read *)
Scheme spells_ind' := Induction for spells Sort Prop
  with entries_ind' := Induction for entries Sort Prop
  with pairs_ind' := Induction for pairs Sort Prop.
Combined Scheme spells_all from spells_ind', entries_ind', pairs_ind'.

Lemma spells_opens j t : spells j t -> exists c u, t = c :: u /\ opens c = true.
Proof.
  intros [ | | |n u [N1 N2] _ _|x u _|w _|l u _|w _|l u _]; try (eexists; eexists; split; reflexivity).
  destruct u as [|c u]; [contradiction|]. exists c, u. split; [reflexivity|]. inversion_clear N2 as [|? ? C _]. apply digit_is in C.
  unfold opens. rewrite C. apply orb_true_r.
Qed.
Lemma entries_open l t : entries l t -> exists w c u, blank w /\ opens c = true /\ t = w ++ c :: u.
Proof.
  intros [j u w w' W _ S|j u w w' l' u' W _ S _]; destruct (spells_opens _ _ S) as (c & v & -> & O); exists w, c; cbn [app]; eauto.
Qed.
Lemma pairs_open l t : pairs l t -> exists w u, blank w /\ t = w ++ x22 :: u.
Proof. intros []; eauto. Qed.

Definition whole (j : json) (t : str) : Prop :=
  forall n w y, blank w -> (length t <= n)%nat -> stops y -> value n (w ++ t ++ y) = Some (j, y).
Lemma members_complete : 
  (forall j t, spells j t -> whole j t) /\
  (forall l t, entries l t -> forall n k y, (length t <= n)%nat -> (length t <= k)%nat -> elements (value n) k (t ++ x5d :: y) = Some (l, y)) /\
  (forall l t, pairs l t -> forall n k y, (length t <= n)%nat -> (length t <= k)%nat -> members (value n) k (t ++ x7d :: y) = Some (l, y)).
Proof.
  apply (spells_all (fun j t _ => whole j t)
    (fun l t _ => forall n k y, (length t <= n)%nat -> (length t <= k)%nat -> elements (value n) k (t ++ x5d :: y) = Some (l, y))
    (fun l t _ => forall n k y, (length t <= n)%nat -> (length t <= k)%nat -> members (value n) k (t ++ x7d :: y) = Some (l, y))).
  - intros n w y W L S. destruct n as [|n]; [cbn in L; lia|]. cbn [value]. rewrite spaces_blank by exact W. reflexivity.
  - intros n w y W L S. destruct n as [|n]; [cbn in L; lia|]. cbn [value]. rewrite spaces_blank by exact W. reflexivity.
  - intros n w y W L S. destruct n as [|n]; [cbn in L; lia|]. cbn [value]. rewrite spaces_blank by exact W. reflexivity.
  - intros m t [N1 N2] Z D n w y W L S. destruct t as [|c t]; [contradiction|]. destruct n as [|n]; [cbn in L; lia|].
    cbn [value]. rewrite spaces_blank by exact W. assert (C : digit c) by (now inversion_clear N2). cbn [app].
    rewrite (opens_no_space c) by (unfold opens; apply digit_is in C; rewrite C; apply orb_true_r).
    unfold digit in C.
    repeat match goal with |- context [bN c =? ?k] => replace (bN c =? k) with false by (symmetry; apply N.eqb_neq; lia) end. cbv iota.
    change (c :: t ++ y) with ((c :: t) ++ y). rewrite number_complete; [|split; assumption|exact Z|exact S]. cbn [option_map fst snd]. now rewrite D.
  - intros x t H n w y W L S. destruct n as [|n]; [cbn in L; lia|]. cbn [value]. rewrite spaces_blank by exact W.
    cbn [app]. rewrite opens_no_space by reflexivity. change (bN x22 =? 34) with true. cbv iota. rewrite <- app_assoc. cbn [app].
    now rewrite (string_complete x t y H).
  - intros v V n w y W L S. destruct n as [|n]; [cbn in L; lia|]. cbn [value]. rewrite spaces_blank by exact W.
    cbn [app]. rewrite opens_no_space by reflexivity. change (bN x5b =? 34) with false. change (bN x5b =? 91) with true. cbv iota.
    rewrite <- app_assoc. cbn [app]. rewrite spaces_blank by exact V. reflexivity.
  - intros l t E IH n w y W L S. destruct n as [|n]; [cbn in L; lia|]. cbn [value]. rewrite spaces_blank by exact W.
    cbn [app]. rewrite opens_no_space by reflexivity. change (bN x5b =? 34) with false. change (bN x5b =? 91) with true. cbv iota.
    rewrite <- app_assoc. cbn [app]. cbn [length] in L. rewrite app_length in L. cbn [length] in L.
    rewrite (IH n (length (t ++ x5d :: y)) y) by (rewrite ?app_length; lia).
    destruct (entries_open l t E) as (v & c & u & V & O & ->). rewrite <- app_assoc. rewrite spaces_blank by exact V. cbn [app].
    rewrite (opens_no_space c _ O), (opens_not c 93 _ O) by auto. reflexivity.
  - intros v V n w y W L S. destruct n as [|n]; [cbn in L; lia|]. cbn [value]. rewrite spaces_blank by exact W.
    cbn [app]. rewrite opens_no_space by reflexivity. change (bN x7b =? 34) with false. change (bN x7b =? 91) with false.
    change (bN x7b =? 123) with true. cbv iota.
    rewrite <- app_assoc. cbn [app]. rewrite spaces_blank by exact V. reflexivity.
  - intros l t E IH n w y W L S. destruct n as [|n]; [cbn in L; lia|]. cbn [value]. rewrite spaces_blank by exact W.
    cbn [app]. rewrite opens_no_space by reflexivity. change (bN x7b =? 34) with false. change (bN x7b =? 91) with false.
    change (bN x7b =? 123) with true. cbv iota.
    rewrite <- app_assoc. cbn [app]. cbn [length] in L. rewrite app_length in L. cbn [length] in L.
    rewrite (IH n (length (t ++ x7d :: y)) y) by (rewrite ?app_length; lia).
    destruct (pairs_open l t E) as (v & u & V & ->). rewrite <- app_assoc. rewrite spaces_blank by exact V. cbn [app].
    rewrite opens_no_space by reflexivity. reflexivity.
  - intros j t w w' W W' _ IH n k y L K. destruct k as [|k].
    { destruct t; [|rewrite !app_length in K; cbn [length] in K; lia].
      exfalso. destruct n as [|n]; specialize (IH 0%nat [] [] (Forall_nil _) (Nat.le_refl _) I); discriminate IH. }
    rewrite !app_length in L, K. cbn [elements]. rewrite <- !app_assoc. rewrite (IH n w (w' ++ x5d :: y) W) by first [lia | apply blank_stops; [exact W'|reflexivity]].
    rewrite spaces_blank by exact W'. reflexivity.
  - intros j t w w' l u W W' _ IH _ IHl n k y L K. repeat (rewrite app_length in L, K). cbn [length] in L, K.
    destruct k as [|k]; [lia|]. cbn [elements]. repeat (rewrite <- !app_assoc; cbn [app]).
    rewrite (IH n w (w' ++ x2c :: u ++ x5d :: y) W) by first [lia | apply blank_stops; [exact W'|reflexivity]].
    rewrite spaces_blank by exact W'. change (spaces (x2c :: u ++ x5d :: y)) with (x2c :: u ++ x5d :: y).
    cbn [eat]. change (bN x2c =? 44) with true. cbv iota. rewrite (IHl n k y) by lia. reflexivity.
  - intros x j v t w1 w2 w3 w4 W1 W2 W3 W4 C _ IH n k y L K. repeat (rewrite ?app_length in L, K; cbn [length] in L, K).
    destruct k as [|k]; [lia|]. cbn [members]. unfold member. repeat (rewrite <- !app_assoc; cbn [app]).
    rewrite spaces_blank by exact W1. rewrite opens_no_space by reflexivity. cbn [eat]. change (bN x22 =? 34) with true. cbv iota.
    rewrite (string_complete x v _ C). rewrite spaces_blank by exact W2.
    change (spaces (x3a :: w3 ++ t ++ w4 ++ x7d :: y)) with (x3a :: w3 ++ t ++ w4 ++ x7d :: y). cbn [eat]. change (bN x3a =? 58) with true. cbv iota.
    rewrite (IH n w3 (w4 ++ x7d :: y) W3) by first [lia | apply blank_stops; [exact W4|reflexivity]].
    rewrite spaces_blank by exact W4. reflexivity.
  - intros x j v t w1 w2 w3 w4 l u W1 W2 W3 W4 C _ IH _ IHl n k y L K. repeat (rewrite ?app_length in L, K; cbn [length] in L, K).
    destruct k as [|k]; [lia|]. cbn [members]. unfold member. repeat (rewrite <- !app_assoc; cbn [app]).
    rewrite spaces_blank by exact W1. rewrite opens_no_space by reflexivity. cbn [eat]. change (bN x22 =? 34) with true. cbv iota.
    rewrite (string_complete x v _ C). rewrite spaces_blank by exact W2.
    change (spaces (x3a :: w3 ++ t ++ w4 ++ x2c :: u ++ x7d :: y)) with (x3a :: w3 ++ t ++ w4 ++ x2c :: u ++ x7d :: y). cbn [eat]. change (bN x3a =? 58) with true. cbv iota.
    rewrite (IH n w3 (w4 ++ x2c :: u ++ x7d :: y) W3) by first [lia | apply blank_stops; [exact W4|reflexivity]].
    rewrite spaces_blank by exact W4. change (spaces (x2c :: u ++ x7d :: y)) with (x2c :: u ++ x7d :: y).
    cbn [eat]. change (bN x2c =? 44) with true. cbv iota. rewrite (IHl n k y) by lia. reflexivity.
Qed.

Lemma grammar j t : parse t = Some j <-> document j t.
Proof.
  unfold parse, document. split.
  - destruct (value (length t) t) as [[j' y]|] eqn:E; [|discriminate]. destruct (spaces y) eqn:S; [|discriminate]. intros [= ->].
    destruct (value_sound _ _ _ _ E) as (w & u & W & U & ->). destruct (spaces_split y) as (w' & W' & E'). rewrite S, app_nil_r in E'. subst w'.
    exists w, u, y. auto.
  - intros (w & u & w' & W & W' & U & ->). destruct members_complete as (H & _). rewrite (H j u U _ w w' W).
    + replace (spaces w') with (spaces (w' ++ [])) by (now rewrite app_nil_r). rewrite spaces_blank by exact W'. reflexivity.
    + rewrite !app_length. lia.
    + rewrite <- (app_nil_r w'). apply blank_stops; [exact W'|exact I].
Qed.
