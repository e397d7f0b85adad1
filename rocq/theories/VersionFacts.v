(** * Version texts and their order. *)
From Coq Require Import List NArith Lia Bool Sorted.
From Verif Require Import Base BaseFacts OMap Utils SpecVersion MigrateFacts.
Import ListNotations.

(** ** Digits *)
Lemma is_digit_iff b : is_digit b = true <-> digit b.
Proof. unfold is_digit, digit. rewrite andb_true_iff, !N.leb_le. tauto. Qed.
Lemma digits_iff l : forallb is_digit l = true <-> Forall digit l.
Proof. rewrite forallb_forall, Forall_forall. split; intros H x Hx; apply is_digit_iff, H, Hx. Qed.
Lemma ident_char_iff b : (is_digit b || is_alpha_dash b)%bool = true <-> ident_char b.
Proof.
  unfold is_alpha_dash, ident_char. rewrite !orb_true_iff, !andb_true_iff, !N.leb_le, N.eqb_eq, is_digit_iff.
  tauto.
Qed.
Lemma ident_chars_iff l : forallb (fun b => (is_digit b || is_alpha_dash b)%bool) l = true <-> Forall ident_char l.
Proof. rewrite forallb_forall, Forall_forall. split; intros H x Hx; apply ident_char_iff, H, Hx. Qed.
Lemma numeric_dec l : l <> [] -> (forallb is_digit l = true <-> numeric l).
Proof. intros H. unfold numeric. rewrite digits_iff. tauto. Qed.

Lemma decimal_fold l acc :
  fold_left (fun a b => a * 10 + (bN b - 48)) l acc = acc * 10 ^ N.of_nat (length l) + decimal l.
Proof.
  revert acc. induction l as [|b l IH]; intros acc; cbn [fold_left length decimal].
  - cbn. lia.
  - rewrite IH, Nat2N.inj_succ, N.pow_succ_r'. lia.
Qed.
Lemma dec_value_decimal l : dec_value l = decimal l.
Proof. unfold dec_value. rewrite decimal_fold. lia. Qed.

Lemma decimal_bound l : Forall digit l -> decimal l < 10 ^ N.of_nat (length l).
Proof.
  induction 1 as [|b l Hb _ IH]; cbn [decimal length]; [cbn; lia|].
  rewrite Nat2N.inj_succ, N.pow_succ_r'. unfold digit in Hb.
  assert (bN b - 48 <= 9) by lia.
  assert ((bN b - 48) * 10 ^ N.of_nat (length l) <= 9 * 10 ^ N.of_nat (length l)) by (apply N.mul_le_mono_r; lia).
  lia.
Qed.
Lemma decimal_lower b l : digit b -> b <> x30 -> 10 ^ N.of_nat (length l) <= decimal (b :: l).
Proof.
  intros Hb Hn. cbn [decimal]. unfold digit in Hb.
  assert (bN b <> 48) by (intros E; apply Hn, bN_inj; exact E).
  assert (1 * 10 ^ N.of_nat (length l) <= (bN b - 48) * 10 ^ N.of_nat (length l)) by (apply N.mul_le_mono_r; lia).
  lia.
Qed.

(** ** Lexicographic orders *)
Lemma list_ltb_lex {X Y} {OX : OrdKey X} (key : Y -> X) (before : Y -> Y -> Prop) (ok : Y -> Prop) :
  (forall a b, ok a -> ok b -> klt (key a) (key b) = true <-> before a b) ->
  (forall a b, ok a -> ok b -> key a = key b -> a = b) ->
  forall l l', Forall ok l -> Forall ok l' -> list_ltb (map key l) (map key l') = true <-> lex before l l'.
Proof.
  intros Hk Hinj. induction l as [|a l IH]; intros [|b l'] Hl Hl'; cbn [map list_ltb].
  - split; [discriminate | intros H; inversion H].
  - split; [constructor | reflexivity].
  - split; [discriminate | intros H; inversion H].
  - inversion_clear Hl as [|? ? Ha Hl1]. inversion_clear Hl' as [|? ? Hb Hl1'].
    destruct (klt (key a) (key b)) eqn:E1.
    + split; [intros _; apply lex_first, Hk; assumption | reflexivity].
    + destruct (klt (key b) (key a)) eqn:E2.
      * split; [discriminate|]. intros H. inversion H as [|? ? ? ? H1|? ? ? H1]; subst.
        -- apply Hk in H1; [congruence | assumption..].
        -- rewrite klt_irrefl in E2. discriminate E2.
      * pose proof (klt_total _ _ E1 E2) as E. apply Hinj in E; [subst b | assumption..].
        rewrite IH by assumption. split; [apply lex_later|].
        intros H. inversion H as [|? ? ? ? H1|? ? ? H1]; subst; [|exact H1].
        apply Hk in H1; [congruence | assumption..].
Qed.

Lemma bytes_ltb_lex a b : bytes_ltb a b = true <-> lex char_before a b.
Proof.
  revert b. induction a as [|x a IH]; intros [|y b]; cbn [bytes_ltb].
  - split; [discriminate | intros H; inversion H].
  - split; [constructor | reflexivity].
  - split; [discriminate | intros H; inversion H].
  - destruct (N.ltb_spec (bN x) (bN y)) as [H1|H1].
    + split; [intros _; apply lex_first; exact H1 | reflexivity].
    + destruct (N.ltb_spec (bN y) (bN x)) as [H2|H2].
      * split; [discriminate|]. intros H. inversion H as [|? ? ? ? H3|? ? ? H3]; subst; [unfold char_before in H3; lia | lia].
      * assert (x = y) as <- by (apply bN_inj; lia). rewrite IH. split; [apply lex_later|].
        intros H. inversion H as [|? ? ? ? H3|? ? ? H3]; subst; [unfold char_before in H3; lia | exact H3].
Qed.

(** numbers of one length: text order is numeric order *)
Lemma same_length_order a b :
  Forall digit a -> Forall digit b -> length a = length b ->
  (bytes_ltb a b = true <-> decimal a < decimal b) /\ (decimal a = decimal b -> a = b).
Proof.
  intros Ha. revert b. induction Ha as [|x a Hx Ha IH]; intros [|y b] Hb Hl; try discriminate Hl.
  - cbn. split; [split; [discriminate | lia] | reflexivity].
  - inversion_clear Hb as [|? ? Hy Hb1]. injection Hl as Hl. destruct (IH b Hb1 Hl) as [I1 I2].
    cbn [bytes_ltb decimal]. rewrite Hl. unfold digit in Hx, Hy.
    pose proof (decimal_bound a Ha) as B1. pose proof (decimal_bound b Hb1) as B2. rewrite Hl in B1.
    set (p := 10 ^ N.of_nat (length b)) in *.
    destruct (N.ltb_spec (bN x) (bN y)) as [H1|H1].
    + assert (B3 : (bN x - 48) * p + p <= (bN y - 48) * p)
        by (rewrite <- N.mul_succ_l; apply N.mul_le_mono_r; lia).
      split; [split; [intros _; lia | reflexivity] | intros H; lia].
    + destruct (N.ltb_spec (bN y) (bN x)) as [H2|H2].
      * assert (B3 : (bN y - 48) * p + p <= (bN x - 48) * p)
          by (rewrite <- N.mul_succ_l; apply N.mul_le_mono_r; lia).
        split; [split; [discriminate | intros H; lia] | intros H; lia].
      * assert (x = y) as <- by (apply bN_inj; lia).
        split; [rewrite I1; split; intros; lia | intros H; f_equal; apply I2; lia].
Qed.

(** a number without leading zeros that is longer is greater *)
Lemma longer_is_greater a b :
  Forall digit a -> Forall digit b -> (forall b', b <> x30 :: b') -> (length a < length b)%nat ->
  decimal a < decimal b.
Proof.
  intros Ha Hb Hz Hl. destruct b as [|y b]; [cbn in Hl; lia|].
  inversion_clear Hb as [|? ? Hy _].
  assert (y <> x30) as Hy0 by (intros ->; exact (Hz b eq_refl)).
  pose proof (decimal_lower y b Hy Hy0). pose proof (decimal_bound a Ha).
  assert (10 ^ N.of_nat (length a) <= 10 ^ N.of_nat (length b)) by (apply N.pow_le_mono_r; cbn in Hl; lia).
  lia.
Qed.

(** ** Pre-release identifiers *)
Lemma pre_ident_order a b :
  pre_ident a -> pre_ident b -> klt (pre_key a) (pre_key b) = true <-> ident_before a b.
Proof.
  intros [[Ha0 _] Ha] [[Hb0 _] Hb]. unfold pre_key, ident_before.
  pose proof (numeric_dec a Ha0) as Na. pose proof (numeric_dec b Hb0) as Nb.
  destruct (forallb is_digit a) eqn:Ea; destruct (forallb is_digit b) eqn:Eb.
  - assert (Hna : numeric a) by (apply Na; reflexivity). assert (Hnb : numeric b) by (apply Nb; reflexivity).
    cbn [klt OrdPair OrdN OrdBytes]. unfold pair_ltb; cbn [klt fst snd OrdN OrdPair OrdBytes].
    change (0 <? 0) with false. cbv iota. unfold pair_ltb; cbn [klt fst snd OrdN OrdBytes].
    destruct Hna as [_ Da], Hnb as [_ Db].
    specialize (Ha (conj Ha0 Da)). specialize (Hb (conj Hb0 Db)).
    destruct (N.ltb_spec (N.of_nat (length a)) (N.of_nat (length b))) as [H1|H1].
    + split; [intros _; left; split; [split; assumption|]; split; [split; assumption|] | reflexivity].
      destruct Hb as [-> | Hb]; [destruct a; [congruence | cbn in H1; lia]|].
      apply longer_is_greater; auto; lia.
    + destruct (N.ltb_spec (N.of_nat (length b)) (N.of_nat (length a))) as [H2|H2].
      * split; [discriminate|]. intros H. exfalso.
        assert (decimal b < decimal a).
        { destruct Ha as [-> | Ha]; [destruct b; [congruence | cbn in H2; lia]|].
          apply longer_is_greater; auto; lia. }
        destruct H as [(_ & _ & H)|[(_ & H)|(H & _)]]; [lia | apply H; split; assumption | apply H; split; assumption].
      * destruct (same_length_order a b Da Db) as [I1 _]; [lia|]. rewrite I1. split.
        -- intros H. left. split; [split; assumption|]. split; [split; assumption | exact H].
        -- intros [(_ & _ & H)|[(_ & H)|(H & _)]]; [exact H | exfalso; apply H; split; assumption | exfalso; apply H; split; assumption].
  - split; [intros _; right; left; split; [apply Na; reflexivity | intros H; apply Nb in H; discriminate H] | reflexivity].
  - split; [discriminate|]. intros [(H & _)|[(H & _)|(_ & H & _)]].
    + apply Na in H. discriminate H.
    + apply Na in H. discriminate H.
    + exfalso. apply H, Nb. reflexivity.
  - cbn [klt OrdPair OrdN OrdBytes]. unfold pair_ltb; cbn [klt fst snd OrdN OrdPair OrdBytes].
    change (1 <? 1) with false. cbv iota. unfold pair_ltb; cbn [klt fst snd OrdN OrdBytes].
    change (0 <? 0) with false. cbv iota. rewrite bytes_ltb_lex. split.
    + intros H. right. right. split; [intros H1; apply Na in H1; discriminate H1|].
      split; [intros H1; apply Nb in H1; discriminate H1 | exact H].
    + intros [(H & _)|[(H & _)|(_ & _ & H)]].
      * apply Na in H. discriminate H.
      * apply Na in H. discriminate H.
      * exact H.
Qed.
Lemma pre_key_inj a b : pre_key a = pre_key b -> a = b.
Proof.
  unfold pre_key. destruct (forallb is_digit a), (forallb is_digit b); intros H; injection H; auto; discriminate.
Qed.

(** ** Build identifiers *)
Lemma trim_digits l : Forall digit l -> Forall digit (trim_zeros l).
Proof.
  induction 1 as [|b l Hb Hl IH]; cbn [trim_zeros]; [constructor|].
  destruct (byte_eqb b x30); [exact IH | constructor; assumption].
Qed.
Lemma trim_head l l' : trim_zeros l <> x30 :: l'.
Proof.
  induction l as [|b l IH]; cbn [trim_zeros]; [discriminate|].
  destruct (byte_eqb b x30) eqn:E; [exact IH|]. intros H. injection H as -> _.
  rewrite byte_eqb_refl in E. discriminate E.
Qed.
Lemma trim_decimal l : decimal (trim_zeros l) = decimal l.
Proof.
  induction l as [|b l IH]; cbn [trim_zeros]; [reflexivity|].
  destruct (byte_eqb b x30) eqn:E; [|reflexivity].
  apply byte_eqb_eq in E. subst b. rewrite IH. cbn [decimal]. change (bN x30 - 48) with 0. lia.
Qed.
Lemma trim_repeat l : exists n, l = repeat x30 n ++ trim_zeros l.
Proof.
  induction l as [|b l [n IH]]; cbn [trim_zeros]; [exists 0%nat; reflexivity|].
  destruct (byte_eqb b x30) eqn:E; [|exists 0%nat; reflexivity].
  apply byte_eqb_eq in E. subst b. exists (S n). cbn. rewrite IH at 1. reflexivity.
Qed.
(** numbers without leading zeros (zero being the empty text) *)
Lemma trimmed_order a b :
  Forall digit a -> Forall digit b -> (forall l, a <> x30 :: l) -> (forall l, b <> x30 :: l) ->
  (klt (N.of_nat (length a), a) (N.of_nat (length b), b) = true <-> decimal a < decimal b) /\
  (decimal a = decimal b -> a = b).
Proof.
  intros Da Db Ha Hb. cbn [klt OrdPair]. unfold pair_ltb; cbn [klt fst snd OrdN OrdBytes].
  destruct (N.ltb_spec (N.of_nat (length a)) (N.of_nat (length b))) as [H1|H1].
  - pose proof (longer_is_greater a b Da Db Hb ltac:(lia)). split; [split; auto | lia].
  - destruct (N.ltb_spec (N.of_nat (length b)) (N.of_nat (length a))) as [H2|H2].
    + pose proof (longer_is_greater b a Db Da Ha ltac:(lia)). split; [split; [discriminate | lia] | lia].
    + apply same_length_order; auto; lia.
Qed.

Lemma build_ident_order a b :
  ident a -> ident b -> klt (build_key a) (build_key b) = true <-> build_ident_before a b.
Proof.
  intros [Ha0 _] [Hb0 _]. unfold build_key, build_ident_before, ident_before.
  pose proof (numeric_dec a Ha0) as Na. pose proof (numeric_dec b Hb0) as Nb.
  destruct (forallb is_digit a) eqn:Ea; destruct (forallb is_digit b) eqn:Eb.
  - assert (Hna : numeric a) by (apply Na; reflexivity). assert (Hnb : numeric b) by (apply Nb; reflexivity).
    pose proof (trim_digits a (proj2 Hna)) as Da. pose proof (trim_digits b (proj2 Hnb)) as Db.
    destruct (trimmed_order (trim_zeros a) (trim_zeros b) Da Db (trim_head a) (trim_head b)) as [T1 T2].
    destruct (trimmed_order (trim_zeros b) (trim_zeros a) Db Da (trim_head b) (trim_head a)) as [T3 _].
    rewrite !trim_decimal in T1, T2, T3.
    transitivity (decimal a < decimal b \/ decimal a = decimal b /\ (length a < length b)%nat).
    2:{ split; [intros [H|H]; [left; left; tauto | right; tauto]|].
        intros [[(_ & _ & H)|[(_ & H)|(H & _)]]|(_ & _ & H)]; tauto. }
    cbn [klt OrdPair OrdN OrdBytes] in *. unfold pair_ltb in *. cbn [klt fst snd OrdN OrdPair OrdBytes] in *.
    change (0 <? 0) with false. cbv iota.
    unfold pair_ltb in *. cbn [klt fst snd OrdN OrdPair OrdBytes] in *.
    destruct (N.of_nat (length (trim_zeros a)) <? N.of_nat (length (trim_zeros b))).
    { split; [intros _; left; apply T1; reflexivity | reflexivity]. }
    destruct (N.of_nat (length (trim_zeros b)) <? N.of_nat (length (trim_zeros a))).
    { assert (decimal b < decimal a) by (apply T3; reflexivity). split; [discriminate | intros; lia]. }
    unfold pair_ltb. cbn [klt fst snd OrdN OrdBytes].
    destruct (bytes_ltb (trim_zeros a) (trim_zeros b)).
    { split; [intros _; left; apply T1; reflexivity | reflexivity]. }
    destruct (bytes_ltb (trim_zeros b) (trim_zeros a)) eqn:E2.
    { assert (decimal b < decimal a) by (apply T3; reflexivity). split; [discriminate | intros; lia]. }
    rewrite N.ltb_lt. split.
    + intros H. right. split; [|lia].
      destruct (N.lt_trichotomy (decimal a) (decimal b)) as [H1|[H1|H1]]; [|exact H1|].
      * apply T1 in H1. discriminate H1.
      * apply T3 in H1. discriminate H1.
    + intros [H|[H H1]]; [apply T1 in H; discriminate H | lia].
  - split; [|reflexivity].
    intros _. left. right. left. split; [apply Na; reflexivity | intros H; apply Nb in H; discriminate H].
  - split; [discriminate|]. intros [[(H & _)|[(H & _)|(_ & H & _)]]|(H & _)].
    + apply Na in H. discriminate H.
    + apply Na in H. discriminate H.
    + exfalso. apply H, Nb. reflexivity.
    + apply Na in H. discriminate H.
  - cbn [klt OrdPair OrdN OrdBytes]. unfold pair_ltb; cbn [klt fst snd OrdN OrdPair OrdBytes].
    change (1 <? 1) with false. cbv iota. unfold pair_ltb; cbn [klt fst snd OrdN OrdPair OrdBytes].
    change (0 <? 0) with false. cbv iota. unfold pair_ltb; cbn [klt fst snd OrdN OrdBytes].
    transitivity (bytes_ltb a b = true).
    { destruct (bytes_ltb a b); [tauto|]. destruct (bytes_ltb b a); split; discriminate. }
    rewrite bytes_ltb_lex. split.
    + intros H. left. right. right. split; [intros H1; apply Na in H1; discriminate H1|].
      split; [intros H1; apply Nb in H1; discriminate H1 | exact H].
    + intros [[(H & _)|[(H & _)|(_ & _ & H)]]|(H & _)].
      * apply Na in H. discriminate H.
      * apply Na in H. discriminate H.
      * exact H.
      * apply Na in H. discriminate H.
Qed.
Lemma build_key_inj a b : build_key a = build_key b -> a = b.
Proof.
  unfold build_key. destruct (forallb is_digit a) eqn:Ea, (forallb is_digit b) eqn:Eb; try discriminate.
  - intros H. injection H as _ H1 H2.
    destruct (trim_repeat a) as [n Hn], (trim_repeat b) as [m Hm].
    assert (length a = length b) as Hl by lia.
    rewrite Hn, Hm in Hl. rewrite !app_length, !repeat_length, H1 in Hl.
    rewrite Hn, Hm, H1. f_equal. f_equal. lia.
  - intros H. injection H as H. exact H.
Qed.
Lemma no_build_first (l : list str) :
  Forall ident l -> l <> [] -> list_ltb (map build_key [[]]) (map build_key l) = true.
Proof.
  intros H Hn. destruct l as [|a l]; [congruence|]. inversion_clear H as [|? ? [Ha _] _]. cbn [map list_ltb].
  replace (klt (build_key []) (build_key a)) with true; [reflexivity|].
  unfold build_key. destruct (forallb is_digit a); [|reflexivity].
  cbn [forallb trim_zeros length]. cbn [klt OrdPair]. unfold pair_ltb; cbn [klt fst snd OrdN OrdPair OrdBytes].
  change (0 <? 0) with false. cbv iota. unfold pair_ltb; cbn [klt fst snd OrdN OrdPair OrdBytes].
  destruct (trim_zeros a) as [|b t]; [|reflexivity]. cbn [length]. change (N.of_nat 0) with 0.
  change (0 <? 0) with false. cbv iota. unfold pair_ltb; cbn [klt fst snd OrdN OrdBytes bytes_ltb].
  destruct a; [congruence|]. symmetry. apply N.ltb_lt. cbn [length]. lia.
Qed.

Lemma lex_nil {X} (before : X -> X -> Prop) l : lex before [] l <-> l <> [].
Proof.
  split; [intros H; inversion H; discriminate|]. destruct l; [congruence | intros _; constructor].
Qed.
Lemma not_lex_nil {X} (before : X -> X -> Prop) l : ~ lex before l [].
Proof. intros H. inversion H. Qed.

Lemma pre_order p q :
  Forall pre_ident p -> Forall pre_ident q ->
  klt ((if match p with [] => true | _ => false end then 1 else 0), map pre_key p)
      ((if match q with [] => true | _ => false end then 1 else 0), map pre_key q) = true
  <-> pre_before p q.
Proof.
  intros Hp Hq. unfold pre_before. cbn [klt OrdPair]. unfold pair_ltb; cbn [klt fst snd OrdN OrdList].
  pose proof (list_ltb_lex pre_key ident_before pre_ident pre_ident_order (fun a b _ _ => pre_key_inj a b) p q Hp Hq) as L.
  destruct p as [|a p]; destruct q as [|b q].
  - change (1 <? 1) with false. cbv iota. cbn [map list_ltb]. split; [discriminate | intros [H _]; congruence].
  - change (1 <? 0) with false. change (0 <? 1) with true. cbv iota. split; [discriminate | intros [H _]; congruence].
  - change (0 <? 1) with true. cbv iota. split; [intros _; split; [discriminate | left; reflexivity] | reflexivity].
  - change (0 <? 0) with false. cbv iota. rewrite L. split.
    + intros H. split; [discriminate | right; exact H].
    + intros [_ [H|H]]; [discriminate H | exact H].
Qed.

Lemma build_order p q :
  Forall ident p -> Forall ident q ->
  list_ltb (map build_key match p with [] => [[]] | l => l end)
           (map build_key match q with [] => [[]] | l => l end) = true
  <-> build_before p q.
Proof.
  intros Hp Hq. unfold build_before.
  pose proof (list_ltb_lex build_key build_ident_before ident build_ident_order (fun a b _ _ => build_key_inj a b) p q Hp Hq) as L.
  destruct p as [|a p]; destruct q as [|b q].
  - split; [|intros [H _]; congruence]. cbn [map list_ltb]. rewrite klt_irrefl. discriminate.
  - rewrite no_build_first by (assumption || discriminate).
    split; [intros _; split; [discriminate | left; reflexivity] | reflexivity].
  - split; [|intros [H _]; congruence]. intros H. exfalso.
    pose proof (no_build_first (a :: p) Hp ltac:(discriminate)) as H1.
    pose proof (klt_trans (map build_key [[]]) (map build_key (a :: p)) (map build_key [[]]) H1 H) as H2.
    rewrite klt_irrefl in H2. discriminate H2.
  - rewrite L. split.
    + intros H. split; [discriminate | right; exact H].
    + intros [_ [H|H]]; [discriminate H | exact H].
Qed.

Definition well_formed (v : version) : Prop := Forall pre_ident (v_pre v) /\ Forall ident (v_build v).

Lemma newer_iff a b :
  well_formed a -> well_formed b -> version_before a b <-> newer b a.
Proof.
  intros [Pa Ba] [Pb Bb]. rewrite version_before_core. unfold newer, version_key. cbn [snd].
  rewrite <- (pre_order _ _ Pa Pb), <- (build_order _ _ Ba Bb).
  assert (E : forall T : Prop, (v_pre a = v_pre b /\ T) <->
    (((if match v_pre a with [] => true | _ => false end then 1 else 0), map pre_key (v_pre a)) =
     ((if match v_pre b with [] => true | _ => false end then 1 else 0), map pre_key (v_pre b)) /\ T)).
  { intros T. split; intros [H HT]; split; auto.
    - rewrite H. reflexivity.
    - injection H as _ H. revert H. generalize (v_pre b). clear. induction (v_pre a) as [|x l IH]; intros [|y l'] H;
        try discriminate H; [reflexivity|]. injection H as H1 H. apply pre_key_inj in H1. subst y. f_equal. apply IH, H. }
  rewrite E. clear E.
  generalize ((if match v_pre a with [] => true | _ => false end then 1 else 0), map pre_key (v_pre a)).
  generalize ((if match v_pre b with [] => true | _ => false end then 1 else 0), map pre_key (v_pre b)).
  intros kb ka. 
  set (X := list_ltb _ _ = true).
  match goal with |- _ \/ _ /\ (_ \/ _ /\ (_ \/ _ /\ ?K)) <-> _ =>
    assert (EK : K <-> klt ka kb = true \/ ka = kb /\ X) end.
  { unfold X. cbn [klt OrdPair]. unfold pair_ltb at 1. cbn [fst snd].
    change (klt (OrdKey := OrdPair) ka kb) with (pair_ltb ka kb).
    change (klt (OrdKey := OrdPair) kb ka) with (pair_ltb kb ka).
    destruct (pair_ltb ka kb) eqn:E1; [tauto|].
    destruct (pair_ltb kb ka) eqn:E2.
    - split; [discriminate|]. intros [H|[H _]]; [discriminate H|]. subst kb. congruence.
    - assert (ka = kb) as <- by (apply klt_total; assumption). cbn [klt OrdList].
      destruct (v_build a), (v_build b);
        (split; [intros H; right; split; [reflexivity | exact H] | intros [H|[_ H]]; [discriminate H | exact H]]). }
  rewrite EK. reflexivity.
Qed.

(** ** Texts *)
Lemma span_spec p l x y : span p l = (x, y) -> l = x ++ y /\ forallb p x = true /\ match y with [] => True | b :: _ => p b = false end.
Proof.
  revert x y. induction l as [|b l IH]; intros x y; cbn [span].
  - intros H. injection H as <- <-. auto.
  - destruct (p b) eqn:E.
    + destruct (span p l) as [x' y'] eqn:Es. intros H. injection H as <- <-.
      destruct (IH _ _ eq_refl) as (-> & H2 & H3). cbn. rewrite E, H2. auto.
    + intros H. injection H as <- <-. cbn. auto.
Qed.
Lemma span_app p x y :
  forallb p x = true -> match y with [] => True | b :: _ => p b = false end -> span p (x ++ y) = (x, y).
Proof.
  induction x as [|b x IH]; cbn [app forallb span].
  - intros _ H. destruct y as [|b y]; cbn; [reflexivity | rewrite H; reflexivity].
  - intros H Hy. apply andb_true_iff in H as [H1 H2]. rewrite H1, IH; auto.
Qed.

Definition not_digit_first (l : str) : Prop := match l with [] => True | b :: _ => is_digit b = false end.
Lemma numeric_identifier_iff l n r :
  numeric_identifier l = Some (n, r) <-> exists a, number_text a n /\ l = a ++ r /\ not_digit_first r.
Proof.
  unfold numeric_identifier, number_text, no_leading_zero. split.
  - destruct (span is_digit l) as [d rest] eqn:E. apply span_spec in E as (-> & Hd & Hr).
    destruct d as [|b d]; [discriminate|]. intros H.
    destruct (byte_eqb b x30 && _)%bool eqn:Z in H; [discriminate H|].
    destruct (dec_value (b :: d) <? u64_max) eqn:Hm in H; [|discriminate H]. injection H as <- <-.
    exists (b :: d). rewrite dec_value_decimal in *. apply N.ltb_lt in Hm.
    split; [|auto]. split; [split; [discriminate | apply digits_iff, Hd]|].
    split; [|split; [reflexivity | exact Hm]].
    destruct (byte_eqb b x30) eqn:Eb.
    + left. apply byte_eqb_eq in Eb. subst b. destruct d; [reflexivity | discriminate Z].
    + right. intros l' H. injection H as -> _. rewrite byte_eqb_refl in Eb. discriminate Eb.
  - intros (a & ([Hn Hd] & Hz & Hv & Hm) & -> & Hr).
    rewrite span_app; [|apply digits_iff, Hd | exact Hr]. destruct a as [|b a]; [congruence|].
    replace (byte_eqb b x30 && _)%bool with false.
    + rewrite dec_value_decimal, Hv. replace (n <? u64_max) with true by (symmetry; apply N.ltb_lt, Hm). reflexivity.
    + symmetry. apply andb_false_iff. destruct Hz as [H|H].
      * injection H as _ ->. right. reflexivity.
      * left. destruct (byte_eqb b x30) eqn:E; [|reflexivity]. apply byte_eqb_eq in E. subst b. elim (H a). reflexivity.
Qed.

Lemma strip_dot_iff l r : strip_dot l = Some r <-> l = x2e :: r.
Proof.
  unfold strip_dot. split.
  - destruct l as [|b l]; [discriminate|]. destruct (byte_eqb b x2e) eqn:E; [|discriminate].
    apply byte_eqb_eq in E. intros H. injection H as ->. subst b. reflexivity.
  - intros ->. rewrite byte_eqb_refl. reflexivity.
Qed.

Definition stops (l : str) : Prop :=
  match l with [] => True | b :: _ => (is_digit b || is_alpha_dash b)%bool = false /\ b <> x2e end.
Definition id_ok (pre : bool) (l : str) : Prop := if pre then pre_ident l else ident l.
Lemma id_ok_ident pre l : id_ok pre l -> ident l.
Proof. destruct pre; [intros [H _]; exact H | auto]. Qed.

Lemma leading_zero_test pre b l :
  ident (b :: l) ->
  (pre && forallb is_digit (b :: l) && byte_eqb b x30 && negb (match l with [] => true | _ => false end))%bool = false
  <-> id_ok pre (b :: l).
Proof.
  intros Hi. destruct pre; cbn [id_ok andb]; [|tauto].
  unfold pre_ident, no_leading_zero, numeric. destruct (forallb is_digit (b :: l)) eqn:E; cbn [andb].
  - apply digits_iff in E. destruct (byte_eqb b x30) eqn:Eb; cbn [andb].
    + apply byte_eqb_eq in Eb. subst b. destruct l as [|c l]; cbn [negb].
      * split; auto.
      * split; [discriminate|]. intros [_ H]. assert (Hn : x30 :: c :: l <> []) by discriminate.
        destruct (H (conj Hn E)) as [H1|H1]; [discriminate H1|].
        elim (H1 _ eq_refl).
    + split; [|reflexivity]. intros _. split; [exact Hi|]. intros _. right. intros l' H. injection H as -> _.
      rewrite byte_eqb_refl in Eb. discriminate Eb.
  - split; [|reflexivity]. intros _. split; [exact Hi|]. intros [_ H]. apply digits_iff in H. congruence.
Qed.

Lemma identifiers_sound f pre l ids r :
  identifiers f pre l = Some (ids, r) -> l = dotted ids ++ r /\ ids <> [] /\ Forall (id_ok pre) ids /\ stops r.
Proof.
  revert l ids r. induction f as [|f IH]; intros l ids r; cbn [identifiers]; [discriminate|].
  destruct (span _ l) as [seg rest] eqn:E. apply span_spec in E as (-> & Hs & Hr).
  destruct seg as [|b seg]; [discriminate|].
  assert (Hi : ident (b :: seg)) by (split; [discriminate | apply ident_chars_iff, Hs]).
  pose proof (leading_zero_test pre b seg Hi) as HL.
  destruct (pre && forallb is_digit (b :: seg) && byte_eqb b x30 && _)%bool; [discriminate|].
  assert (Hok : id_ok pre (b :: seg)) by (apply HL; reflexivity). clear HL.
  destruct (strip_dot rest) as [rest'|] eqn:Ed.
  - apply strip_dot_iff in Ed. subst rest. destruct (identifiers f pre rest') as [[ids' r']|] eqn:E2; [|discriminate].
    intros H. injection H as <- <-. destruct (IH _ _ _ E2) as (-> & Hn & Hf & Hst).
    split; [|split; [discriminate | split; [constructor; assumption | exact Hst]]].
    destruct ids' as [|x ids']; [congruence|].
    change (dotted ((b :: seg) :: x :: ids')) with ((b :: seg) ++ [x2e] ++ dotted (x :: ids')).
    rewrite <- !app_assoc. reflexivity.
  - intros H. injection H as <- <-. split; [reflexivity|]. split; [discriminate|]. split; [constructor; [exact Hok | constructor]|].
    destruct rest as [|c rest]; [exact I|]. split; [exact Hr|]. intros ->. cbn in Ed. discriminate Ed.
Qed.

Lemma identifiers_complete f pre ids r :
  ids <> [] -> Forall (id_ok pre) ids -> stops r -> (length ids <= f)%nat ->
  identifiers f pre (dotted ids ++ r) = Some (ids, r).
Proof.
  revert f. induction ids as [|x ids IH]; intros f Hn Hf Hr Hl; [congruence|].
  destruct f as [|f]; [cbn in Hl; lia|]. inversion_clear Hf as [|? ? Hx Hf'].
  pose proof (id_ok_ident _ _ Hx) as Hi. cbn [identifiers].
  assert (E : exists rest, dotted (x :: ids) ++ r = x ++ rest /\
              match ids with [] => rest = r | _ => rest = x2e :: dotted ids ++ r end).
  { destruct ids as [|y ids]; [exists r; split; reflexivity|].
    exists (x2e :: dotted (y :: ids) ++ r). split; [|reflexivity].
    change (dotted (x :: y :: ids)) with (x ++ [x2e] ++ dotted (y :: ids)). rewrite <- !app_assoc. reflexivity. }
  destruct E as (rest & -> & Er).
  rewrite span_app.
  2:{ apply ident_chars_iff, Hi. }
  2:{ destruct ids; subst rest; [|reflexivity]. destruct r as [|c r]; [exact I | apply Hr]. }
  destruct x as [|b x]; [destruct Hi as [Hi _]; congruence|].
  pose proof (proj2 (leading_zero_test pre b x Hi) Hx) as HL. rewrite HL.
  destruct ids as [|y ids]; subst rest.
  - destruct (strip_dot r) as [r'|] eqn:Ed; [|reflexivity]. apply strip_dot_iff in Ed. subst r. destruct Hr as [_ Hr]. congruence.
  - cbn [strip_dot]. rewrite byte_eqb_refl, IH; [reflexivity | discriminate | exact Hf' | exact Hr | cbn in *; lia].
Qed.

Lemma dotted_length ids : Forall ident ids -> (length ids <= length (dotted ids))%nat.
Proof.
  induction 1 as [|x ids [Hx _] _ IH]; [cbn; lia|].
  assert (1 <= length x)%nat by (destruct x; [congruence | cbn; lia]).
  destruct ids as [|y ids]; [cbn [dotted length]; lia|].
  change (dotted (x :: y :: ids)) with (x ++ [x2e] ++ dotted (y :: ids)). rewrite !app_length. cbn [length] in *. lia.
Qed.

Lemma part_sound pre sign l ids r :
  match l with
  | b :: l' => if byte_eqb b sign then identifiers (S (length l')) pre l' else Some ([], l)
  | [] => Some ([], []) end = Some (ids, r) ->
  l = part sign ids ++ r /\ Forall (id_ok pre) ids.
Proof.
  destruct l as [|b l]; [intros H; injection H as <- <-; split; [reflexivity | constructor]|].
  destruct (byte_eqb b sign) eqn:E.
  - intros H. apply byte_eqb_eq in E. subst b. apply identifiers_sound in H as (-> & Hn & Hf & _).
    split; [|exact Hf]. destruct ids; [congruence | reflexivity].
  - intros H. injection H as <- <-. split; [reflexivity | constructor].
Qed.
Lemma part_complete pre sign ids r :
  Forall (id_ok pre) ids -> stops r -> match r with [] => True | b :: _ => b <> sign end ->
  match part sign ids ++ r with
  | b :: l' => if byte_eqb b sign then identifiers (S (length l')) pre l' else Some ([], part sign ids ++ r)
  | [] => Some ([], []) end = Some (ids, r).
Proof.
  intros Hf Hs Hr. destruct ids as [|x ids].
  - cbn [part app]. destruct r as [|b r]; [reflexivity|].
    destruct (byte_eqb b sign) eqn:E; [apply byte_eqb_eq in E; congruence | reflexivity].
  - change (part sign (x :: ids) ++ r) with (sign :: dotted (x :: ids) ++ r). cbv iota. rewrite byte_eqb_refl.
    apply identifiers_complete; [discriminate | exact Hf | exact Hs|].
    assert (Hi : Forall ident (x :: ids)) by (eapply Forall_impl; [|exact Hf]; apply id_ok_ident).
    pose proof (dotted_length _ Hi). rewrite app_length. lia.
Qed.

Lemma parse_iff l v : version_parse l = Some v <-> spells v l.
Proof.
  unfold version_parse, spells. split.
  - intros H. destruct (numeric_identifier l) as [[ma l1]|] eqn:E1; [|discriminate H].
    destruct (strip_dot l1) as [l1'|] eqn:D1; [|discriminate H].
    destruct (numeric_identifier l1') as [[mi l2]|] eqn:E2; [|discriminate H].
    destruct (strip_dot l2) as [l2'|] eqn:D2; [|discriminate H].
    destruct (numeric_identifier l2') as [[pa l3]|] eqn:E3; [|discriminate H]. cbv zeta in H.
    match type of H with match ?m with _ => _ end = _ => destruct m as [[pre l4]|] eqn:E4; [|discriminate H] end.
    match type of H with match ?m with _ => _ end = _ => destruct m as [[bu [|]]|] eqn:E5; [|discriminate H..] end.
    injection H as <-. cbn [v_major v_minor v_patch v_pre v_build].
    apply numeric_identifier_iff in E1 as (a & Ha & -> & _). apply strip_dot_iff in D1. subst l1.
    apply numeric_identifier_iff in E2 as (b & Hb & -> & _). apply strip_dot_iff in D2. subst l2.
    apply numeric_identifier_iff in E3 as (c & Hc & -> & _).
    apply (part_sound true) in E4 as [-> H4]. apply (part_sound false) in E5 as [-> H5].
    exists a, b, c. rewrite app_nil_r. do 5 (split; [assumption|]). reflexivity.
  - intros (a & b & c & Ha & Hb & Hc & Hp & Hbu & ->).
    assert (E1 : forall r, numeric_identifier (a ++ [x2e] ++ r) = Some (v_major v, [x2e] ++ r))
      by (intros r; apply numeric_identifier_iff; exists a; split; [exact Ha | split; reflexivity]).
    assert (E2 : forall r, numeric_identifier (b ++ [x2e] ++ r) = Some (v_minor v, [x2e] ++ r))
      by (intros r; apply numeric_identifier_iff; exists b; split; [exact Hb | split; reflexivity]).
    assert (E3 : numeric_identifier (c ++ part x2d (v_pre v) ++ part x2b (v_build v))
                 = Some (v_patch v, part x2d (v_pre v) ++ part x2b (v_build v))).
    { apply numeric_identifier_iff. exists c. split; [exact Hc|]. split; [reflexivity|].
      destruct (v_pre v); [destruct (v_build v)|]; reflexivity || exact I. }
    rewrite E1. cbn [strip_dot app]. rewrite byte_eqb_refl. cbn [app] in E2. rewrite E2.
    cbn [strip_dot app]. rewrite byte_eqb_refl, E3. cbv zeta.
    rewrite (part_complete true x2d (v_pre v) (part x2b (v_build v)) Hp).
    + pose proof (part_complete false x2b (v_build v) [] Hbu I I) as E5. rewrite app_nil_r in E5. rewrite E5.
      destruct v; reflexivity.
    + destruct (v_build v); [exact I | split; [reflexivity | discriminate]].
    + destruct (v_build v); [exact I | discriminate].
Qed.

Lemma spells_well_formed v l : spells v l -> well_formed v.
Proof. intros (a & b & c & _ & _ & _ & Hp & Hb & _). split; assumption. Qed.

(** the migration guard, on texts *)
Lemma migrate_exactly stored name ver out :
  migrate stored name ver = Ok out <->
  exists st old new, stored = Some st /\ cv_contract st = name /\
    spells old (cv_version st) /\ spells new ver /\ newer new old /\ out = mkCw2 name ver.
Proof.
  rewrite migrate_iff. split; intros (st & sv & v & H1 & H2 & H3 & H4 & H5 & H6); exists st, sv, v.
  - apply parse_iff in H3, H4. do 4 (split; [assumption|]). split; [|assumption].
    apply newer_iff; eauto using spells_well_formed.
  - do 2 (split; [assumption|]). rewrite !parse_iff. do 2 (split; [assumption|]). split; [|assumption].
    apply newer_iff; eauto using spells_well_formed.
Qed.

Lemma supersedes_iff a b : supersedes b a <-> older a b.
Proof.
  unfold supersedes, older. split; intros (va & vb & H1 & H2 & H3); exists va, vb.
  - rewrite !parse_iff. split; [exact H1|]. split; [exact H2|]. apply newer_iff; eauto using spells_well_formed.
  - apply parse_iff in H1, H2. split; [exact H1|]. split; [exact H2|]. apply newer_iff; eauto using spells_well_formed.
Qed.
Lemma sorted_impl {X} (R S : X -> X -> Prop) l :
  (forall a b, R a b -> S a b) -> StronglySorted R l -> StronglySorted S l.
Proof.
  intros H. induction 1 as [|a l _ IH Hf]; constructor; [exact IH|]. eapply Forall_impl; [|exact Hf]. intros b. apply H.
Qed.
Lemma migrations_supersede st l :
  StronglySorted (fun a b => supersedes b a) (st :: migrations (Some st) l) /\
  Forall (fun c => cv_contract c = cv_contract st) (migrations (Some st) l).
Proof.
  destruct (migrations_increase st l) as [H1 H2]. split; [|exact H2].
  eapply sorted_impl; [|exact H1]. intros a b. apply supersedes_iff.
Qed.
Lemma supersedes_strict a b c :
  (supersedes b a -> supersedes c b -> supersedes c a) /\ ~ supersedes a a.
Proof. rewrite !supersedes_iff. split; [apply older_trans | apply older_irrefl]. Qed.
