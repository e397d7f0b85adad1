(** * What is written as JSON is read back. *)
From Coq Require Import List NArith Bool Lia Arith.
From Verif Require Import Base BaseFacts Hex Events Json SpecVersion SpecEvents ProtoFacts EventFacts.
Import ListNotations.

(** numbers as wide as any integer of the interface *)
Fixpoint small (j : json) : bool :=
  match j with
  | JNum n => n <? u256_max
  | JArr l => forallb small l
  | JObj l => forallb (fun p => small (snd p)) l
  | _ => true
  end.
Fixpoint height (j : json) : nat :=
  match j with
  | JArr l => S (fold_right Nat.max 0%nat (map height l))
  | JObj l => S (fold_right Nat.max 0%nat (map (fun p => height (snd p)) l))
  | _ => 1%nat
  end.

Lemma json_induct (P : json -> Prop) :
  P JNull -> (forall b, P (JBool b)) -> (forall n, P (JNum n)) -> (forall t, P (JStr t)) ->
  (forall l, Forall P l -> P (JArr l)) -> (forall l, Forall (fun p => P (snd p)) l -> P (JObj l)) ->
  forall j, P j.
Proof.
  intros H1 H2 H3 H4 H5 H6. fix IH 1. intros [ |b|n|t|l|l];
    [exact H1|exact (H2 b)|exact (H3 n)|exact (H4 t)| | ].
  - apply H5. induction l as [|j l IHl]; constructor; [apply IH|exact IHl].
  - apply H6. induction l as [|[k j] l IHl]; constructor; [apply IH|exact IHl].
Qed.

Definition stops (t : str) : Prop := match t with c :: _ => is_digit c = false | [] => True end.

(** ** Strings *)
Lemma char_read b t : string_rest (json_char b ++ t) = match string_rest t with Some (x, y) => Some (b :: x, y) | None => None end.
Proof. destruct b; reflexivity. Qed.

Lemma chars_read x t : string_rest (flat_map json_char x ++ x22 :: t) = Some (x, t).
Proof.
  induction x as [|b x IH]; [reflexivity|]. cbn [flat_map]. rewrite <- app_assoc, char_read, IH. reflexivity.
Qed.

Lemma string_text x t : json_string x ++ t = x22 :: flat_map json_char x ++ x22 :: t.
Proof. unfold json_string. rewrite <- !app_assoc. reflexivity. Qed.

(** ** Numbers *)
Lemma digits_read l : forall acc t, Forall digit l -> stops t ->
  digits acc (l ++ t) = (acc * 10 ^ N.of_nat (length l) + decimal l, t).
Proof.
  induction l as [|c l IH]; intros acc t Hl Ht.
  - cbn [app length N.of_nat decimal]. rewrite N.add_0_r, N.mul_1_r.
    destruct t as [|d t]; [reflexivity|]. cbn [digits]. cbn [stops] in Ht. now rewrite Ht.
  - inversion_clear Hl as [|? ? Hc Hl']. cbn [app digits].
    assert (E : is_digit c = true). { unfold is_digit. apply andb_true_iff. split; apply N.leb_le; apply Hc. }
    rewrite E, (IH _ _ Hl' Ht). f_equal. cbn [length decimal]. rewrite Nat2N.inj_succ, N.pow_succ_r'. lia.
Qed.

Lemma number_read n t : n < u256_max -> stops t -> number (dec n ++ t) = Some (n, t).
Proof.
  intros Hn Ht. destruct (dec_text n Hn) as ((H1 & H2) & H3 & H4).
  destruct (dec n) as [|c l] eqn:E; [contradiction|]. cbn [app number].
  inversion_clear H2 as [|? ? Hc Hl].
  destruct (N.eqb_spec (bN c) 48) as [C|C].
  - destruct H3 as [H3|H3].
    + injection H3 as -> ->. cbn [app]. cbn [decimal] in H4.
      replace n with 0 by (rewrite <- H4; reflexivity).
      destruct t as [|d t]; [reflexivity|]. cbn [stops] in Ht. now rewrite Ht.
    + exfalso. assert (c = x30). { rewrite <- (nB_bN c), C. reflexivity. } subst c. exact (H3 l eq_refl).
  - assert (D : is_digit c = true). { unfold is_digit. apply andb_true_iff. split; apply N.leb_le; apply Hc. }
    rewrite D. rewrite <- E in *. f_equal.
    replace (c :: l ++ t) with (dec n ++ t) by (rewrite E; reflexivity).
    rewrite digits_read; [|rewrite E; constructor; assumption|exact Ht]. f_equal. rewrite N.mul_0_l. exact H4.
Qed.

(** ** The first character of a value *)
Definition opens (c : byte) : bool :=
  ((bN c =? 34) || (bN c =? 91) || (bN c =? 123) || (bN c =? 110) || (bN c =? 116) || (bN c =? 102) || is_digit c)%bool.

Lemma text_opens j : small j = true -> exists c t, text j = c :: t /\ opens c = true.
Proof.
  destruct j as [ |b|n|t|l|l]; cbn [text small]; intros H.
  - eexists; eexists; split; reflexivity.
  - destruct b; eexists; eexists; split; reflexivity.
  - apply N.ltb_lt in H. destruct (dec_text n H) as ((H1 & H2) & _).
    destruct (dec n) as [|c l]; [contradiction|]. inversion_clear H2 as [|? ? Hc Hl].
    exists c, l. split; [reflexivity|]. unfold opens. replace (is_digit c) with true; [apply orb_true_r|].
    symmetry. unfold is_digit. apply andb_true_iff. split; apply N.leb_le; apply Hc.
  - eexists; eexists; split; [reflexivity|reflexivity].
  - eexists; eexists; split; reflexivity.
  - eexists; eexists; split; reflexivity.
Qed.

Lemma opens_no_space c t : opens c = true -> spaces (c :: t) = c :: t.
Proof.
  intros H. cbn [spaces]. replace (_ || _)%bool with false; [reflexivity|]. symmetry.
  destruct c; try discriminate H; reflexivity.
Qed.

Lemma opens_not c n t : opens c = true -> (n = 93 \/ n = 125 \/ n = 44) -> eat n (c :: t) = None.
Proof.
  intros H Hn. cbn [eat]. replace (bN c =? n) with false; [reflexivity|]. symmetry. apply N.eqb_neq. intros E.
  assert (C : c = nB n) by (rewrite <- E; symmetry; apply nB_bN).
  destruct Hn as [ -> | [ -> | -> ]]; rewrite C in H; discriminate H.
Qed.

(** ** Lists *)
Definition reads_json (f : str -> option (json * str)) (j : json) : Prop := forall t, stops t -> f (text j ++ t) = Some (j, t).

Lemma elements_read f l : forall k t, l <> [] -> (length l <= k)%nat -> Forall (reads_json f) l ->
  elements f k (commas (map text l) ++ x5d :: t) = Some (l, t).
Proof.
  induction l as [|j l IH]; intros k t Hne Hk HF; [contradiction|]. inversion_clear HF as [|? ? Hj Hl].
  destruct k as [|k]; [cbn [length] in Hk; lia|]. cbn [map]. rewrite commas_cons.
  destruct l as [|j' l].
  - cbn [map]. rewrite app_nil_r. cbn [elements]. rewrite Hj by reflexivity. reflexivity.
  - cbn [map]. set (rest := commas (text j' :: map text l)) in *.
    replace ((text j ++ s "," ++ rest) ++ x5d :: t) with (text j ++ x2c :: (rest ++ x5d :: t)) by (now rewrite <- !app_assoc).
    cbn [elements]. rewrite Hj by reflexivity. change (spaces (x2c :: rest ++ x5d :: t)) with (x2c :: rest ++ x5d :: t).
    cbn [eat]. change (bN x2c =? 44) with true. cbv iota. unfold rest. change (text j' :: map text l) with (map text (j' :: l)).
    rewrite IH; [reflexivity|discriminate| |exact Hl]. cbn [length] in *. lia.
Qed.

Definition pair_text (p : str * json) : str := json_string (fst p) ++ s ":" ++ text (snd p).

Lemma member_read f p t : reads_json f (snd p) -> stops t -> member f (pair_text p ++ t) = Some (p, t).
Proof.
  intros Hp Ht. destruct p as [k j]. unfold pair_text, member. cbn [fst snd] in *.
  rewrite <- !app_assoc, string_text. change (s ":" ++ text j ++ t) with (x3a :: text j ++ t).
  rewrite opens_no_space by reflexivity. cbn [eat]. change (bN x22 =? 34) with true. cbv iota.
  rewrite chars_read. change (spaces (x3a :: text j ++ t)) with (x3a :: text j ++ t). cbn [eat].
  change (bN x3a =? 58) with true. cbv iota. rewrite (Hp t Ht). reflexivity.
Qed.

Lemma members_read f l : forall k t, l <> [] -> (length l <= k)%nat -> Forall (fun p => reads_json f (snd p)) l ->
  members f k (commas (map pair_text l) ++ x7d :: t) = Some (l, t).
Proof.
  induction l as [|j l IH]; intros k t Hne Hk HF; [contradiction|]. inversion_clear HF as [|? ? Hj Hl].
  destruct k as [|k]; [cbn [length] in Hk; lia|]. cbn [map]. rewrite commas_cons.
  destruct l as [|j' l].
  - cbn [map]. rewrite app_nil_r. cbn [members]. rewrite (member_read f j _ Hj) by reflexivity. reflexivity.
  - cbn [map]. set (rest := commas (pair_text j' :: map pair_text l)) in *.
    replace ((pair_text j ++ s "," ++ rest) ++ x7d :: t) with (pair_text j ++ x2c :: (rest ++ x7d :: t)) by (now rewrite <- !app_assoc).
    cbn [members]. rewrite (member_read f j _ Hj) by reflexivity.
    change (spaces (x2c :: rest ++ x7d :: t)) with (x2c :: rest ++ x7d :: t).
    cbn [eat]. change (bN x2c =? 44) with true. cbv iota. unfold rest. change (pair_text j' :: map pair_text l) with (map pair_text (j' :: l)).
    rewrite IH; [reflexivity|discriminate| |exact Hl]. cbn [length] in *. lia.
Qed.

Lemma commas_long {X} (f : X -> str) l : (forall x, In x l -> f x <> []) -> (length l <= length (commas (map f l)) + 1)%nat.
Proof.
  induction l as [|x l IH]; intros H; [cbn; lia|]. cbn [map]. rewrite commas_cons, app_length. cbn [length].
  assert (f x <> []) by (apply H; now left). destruct (f x) as [|c u] eqn:E; [contradiction|]. cbn [length].
  specialize (IH (fun y Hy => H y (or_intror Hy))). destruct l as [|y l]; [cbn; lia|]. cbn [map]. rewrite app_length.
  cbn [map length] in IH |- *. lia.
Qed.

Lemma le_max {X} (f : X -> nat) l x : In x l -> (f x <= fold_right Nat.max 0 (map f l))%nat.
Proof. induction l as [|y l IH]; [contradiction|]. intros [->|H]; cbn [map fold_right]; [lia|]. specialize (IH H). lia. Qed.

(** ** Values *)
Lemma value_read j : small j = true -> forall n, (height j <= n)%nat -> reads_json (value n) j.
Proof.
  induction j as [ |b|m|x|l HF|l HF] using json_induct; intros Hs n Hn t Ht;
    (destruct n as [|n]; [cbn [height] in Hn; lia|]).
  - reflexivity.
  - destruct b; reflexivity.
  - cbn [text]. destruct (text_opens (JNum m) Hs) as (c & u & E & O). cbn [small] in Hs. apply N.ltb_lt in Hs.
    cbn [text] in E. cbn [value]. pose proof (number_read m t Hs Ht) as R. rewrite E in R |- *. cbn [app] in R |- *.
    rewrite (opens_no_space c _ O).
    destruct (dec_text m Hs) as ((_ & H2) & _). rewrite E in H2. inversion_clear H2 as [|? ? Hc Hl]. unfold digit in Hc.
    repeat match goal with |- context [bN c =? ?k] => replace (bN c =? k) with false by (symmetry; apply N.eqb_neq; lia) end.
    cbv iota. rewrite R. reflexivity.
  - cbn [text]. rewrite string_text. cbn [value]. rewrite opens_no_space by reflexivity.
    change (bN x22 =? 34) with true. cbv iota. now rewrite chars_read.
  - cbn [text]. change (s "[" ++ commas (map text l) ++ s "]") with (x5b :: (commas (map text l) ++ [x5d])).
    cbn [app]. rewrite <- app_assoc. cbn [app]. cbn [value]. rewrite opens_no_space by reflexivity.
    change (bN x5b =? 34) with false. change (bN x5b =? 91) with true. cbv iota.
    cbn [small] in Hs. rewrite forallb_forall in Hs.
    destruct l as [|j l]; [reflexivity|].
    destruct (text_opens j (Hs j (or_introl eq_refl))) as (c & u & E & O).
    assert (Hh : exists w, commas (map text (j :: l)) = c :: w).
    { cbn [map]. rewrite commas_cons, E. cbn [app]. eauto. }
    destruct Hh as (w & Hw).
    replace (eat 93 (spaces (commas (map text (j :: l)) ++ x5d :: t))) with (@None str).
    2:{ symmetry. rewrite Hw. cbn [app]. rewrite (opens_no_space c _ O). apply (opens_not c 93 _ O). auto. }
    rewrite elements_read; [reflexivity|discriminate| |].
    + rewrite app_length. assert (L := commas_long text (j :: l)).
      assert (Hne : forall x, In x (j :: l) -> text x <> []).
      { intros x Hx. destruct (text_opens x (Hs x Hx)) as (cc & uu & Ex & _). rewrite Ex. discriminate. }
      specialize (L Hne). cbn [length] in L |- *. lia.
    + rewrite Forall_forall in HF |- *. intros x Hx. apply (HF x Hx (Hs x Hx)).
      cbn [height] in Hn. pose proof (le_max height (j :: l) x Hx). lia.
  - cbn [text]. change (fun p : str * json => json_string (fst p) ++ s ":" ++ text (snd p)) with pair_text.
    change (s "{" ++ commas (map pair_text l) ++ s "}") with (x7b :: (commas (map pair_text l) ++ [x7d])).
    cbn [app]. rewrite <- app_assoc. cbn [app]. cbn [value]. rewrite opens_no_space by reflexivity.
    change (bN x7b =? 34) with false. change (bN x7b =? 91) with false. change (bN x7b =? 123) with true. cbv iota.
    cbn [small] in Hs. rewrite forallb_forall in Hs.
    destruct l as [|j l]; [reflexivity|].
    assert (Hp : forall p, exists w, pair_text p = x22 :: w).
    { intros p. unfold pair_text. rewrite string_text. eauto. }
    assert (Hh : exists w, commas (map pair_text (j :: l)) = x22 :: w).
    { cbn [map]. rewrite commas_cons. destruct (Hp j) as (w & ->). cbn [app]. eauto. }
    destruct Hh as (w & Hw).
    replace (eat 125 (spaces (commas (map pair_text (j :: l)) ++ x7d :: t))) with (@None str).
    2:{ symmetry. rewrite Hw. cbn [app]. rewrite opens_no_space by reflexivity. reflexivity. }
    rewrite members_read; [reflexivity|discriminate| |].
    + rewrite app_length. assert (L := commas_long pair_text (j :: l)).
      assert (Hne : forall x, In x (j :: l) -> pair_text x <> []).
      { intros x Hx. destruct (Hp x) as (ww & ->). discriminate. }
      specialize (L Hne). cbn [length] in L |- *. lia.
    + rewrite Forall_forall in HF |- *. intros x Hx. apply (HF x Hx (Hs x Hx)).
      cbn [height] in Hn. pose proof (le_max (fun p : str * json => height (snd p)) (j :: l) x Hx). cbv beta in H. lia.
Qed.

Lemma max_commas {X} (h : X -> nat) (f : X -> str) l : (forall x, In x l -> (h x <= length (f x))%nat) ->
  (fold_right Nat.max 0 (map h l) <= length (commas (map f l)))%nat.
Proof.
  induction l as [|x l IH]; intros H; [cbn; lia|]. cbn [map fold_right]. rewrite commas_cons, app_length.
  specialize (IH (fun y Hy => H y (or_intror Hy))). specialize (H x (or_introl eq_refl)).
  destruct l as [|y l]; [cbn; lia|]. cbn [map] in IH |- *. rewrite app_length. lia.
Qed.

Lemma height_text j : small j = true -> (height j <= length (text j))%nat.
Proof.
  induction j as [ |b|m|x|l HF|l HF] using json_induct; intros Hs.
  - cbn; lia.
  - destruct b; cbn; lia.
  - destruct (text_opens (JNum m) Hs) as (c & u & E & _). rewrite E. cbn [height length]. lia.
  - cbn [height text]. unfold json_string. rewrite !app_length. cbn [length]. lia.
  - cbn [height text small] in *. rewrite !app_length. rewrite forallb_forall in Hs. rewrite Forall_forall in HF.
    pose proof (max_commas height text l (fun x Hx => HF x Hx (Hs x Hx))). change (length (s "[")) with 1%nat. lia.
  - cbn [height text small] in *. rewrite !app_length. rewrite forallb_forall in Hs. rewrite Forall_forall in HF.
    change (fun p : str * json => json_string (fst p) ++ s ":" ++ text (snd p)) with pair_text.
    assert (HH : forall x, In x l -> (height (snd x) <= length (pair_text x))%nat).
    { intros x Hx. specialize (HF x Hx (Hs x Hx)). unfold pair_text. rewrite !app_length. lia. }
    pose proof (max_commas (fun p : str * json => height (snd p)) pair_text l HH). change (length (s "{")) with 1%nat. lia.
Qed.

Lemma parse_text j : small j = true -> parse (text j) = Some j.
Proof.
  intros Hs. unfold parse. pose proof (value_read j Hs (length (text j)) (height_text j Hs) [] I) as R.
  rewrite app_nil_r in R. rewrite R. reflexivity.
Qed.

Lemma text_inj j j' : small j = true -> small j' = true -> text j = text j' -> j = j'.
Proof. intros H H' E. apply Some_inj. rewrite <- (parse_text j H), <- (parse_text j' H'), E. reflexivity. Qed.
