(** * What is written as a type is read as the same value of that type. *)
From Coq Require Import List NArith Bool Lia Arith.
From Verif Require Import Base BaseFacts OMap Coins Hex HexFacts Json SpecJson JsonFacts Chain Ownable Contracts Wire SpecVersion ProtoFacts SpecQuery.
Import ListNotations.

(** ** Types *)
Record good {A} (c : codec A) : Prop := mkGood {
  g_back : forall a, fits c a = true -> read c (write c a) = Some a;
  g_small : forall a, fits c a = true -> small (write c a) = true;
  g_there : forall a, fits c a = true -> write c a <> JNull;
  g_fits : forall j a, read c j = Some a -> fits c a = true;
  g_alike : forall j a, fits c a = true -> alike j (write c a) -> read c j = Some a }.

Lemma alike_leaf_inv j j' : match j' with JObj _ | JArr _ => False | _ => True end -> alike j j' -> j = j'.
Proof. intros L H. inversion H; subst; [reflexivity|contradiction L|contradiction L]. Qed.
(** the last of the five, for what is neither an array nor an object *)
Ltac leaf_alike := let E := fresh in intros ? ? ? E; apply alike_leaf_inv in E; [|exact I]; rewrite E.

Lemma good_string : good string_c.
Proof. split; try reflexivity; try discriminate. leaf_alike. reflexivity. Qed.
Lemma good_bool : good bool_c.
Proof. split; try reflexivity; try discriminate. leaf_alike. reflexivity. Qed.
Lemma good_int ok : (forall n, ok n = true -> n < u256_max) -> good (int_c ok).
Proof.
  intros H. split; cbn [int_c read write fits].
  - intros n ->. reflexivity.
  - intros n Hn. cbn [small]. apply N.ltb_lt. now apply H.
  - discriminate.
  - intros [ |b|n|t|l|l] a; try discriminate. destruct (ok n) eqn:E; [|discriminate]. intros Ha. injection Ha as <-. exact E.
  - intros j a O E. apply alike_leaf_inv in E; [|exact I]. subst j. now rewrite O.
Qed.
Lemma u8_small n : u8_ok n = true -> n < u256_max.
Proof. intros H. apply N.ltb_lt in H. eapply N.lt_trans; [exact H|reflexivity]. Qed.
Lemma u32_small n : u32_ok n = true -> n < u256_max.
Proof. intros H. apply N.ltb_lt in H. eapply N.lt_trans; [exact H|reflexivity]. Qed.
Lemma u128_small n : u128_ok n = true -> n < u256_max.
Proof. intros H. apply N.ltb_lt in H. eapply N.lt_trans; [exact H|reflexivity]. Qed.
Lemma u256_small n : u256_ok n = true -> n < u256_max.
Proof. intros H. now apply N.ltb_lt in H. Qed.
Lemma good_u8 : good u8_c. Proof. apply good_int, u8_small. Qed.
Lemma good_u32 : good u32_c. Proof. apply good_int, u32_small. Qed.

Lemma parse_dec_dec n : n < u256_max -> parse_dec (Base.dec n) = Some n.
Proof.
  intros Hn. destruct (dec_text n Hn) as ((H1 & H2) & _ & H4).
  destruct (Base.dec n) as [|c l] eqn:E; [contradiction|]. rewrite <- E in *. unfold parse_dec.
  assert (Hc : digit c). { rewrite E in H2. now inversion_clear H2. }
  replace (match Base.dec n with c0 :: t' => if bN c0 =? 43 then t' else Base.dec n | [] => [] end) with (Base.dec n).
  2:{ rewrite E. replace (bN c =? 43) with false; [reflexivity|]. symmetry. apply N.eqb_neq. unfold digit in Hc. lia. }
  pose proof (digits_read (Base.dec n) 0 [] H2 I) as D. rewrite app_nil_r in D. rewrite D, N.mul_0_l, H4.
  rewrite E. reflexivity.
Qed.
Lemma good_big ok : (forall n, ok n = true -> n < u256_max) -> good (big_c ok).
Proof.
  intros H. split; cbn [big_c read write fits].
  - intros n Hn. rewrite (parse_dec_dec n (H n Hn)), Hn. reflexivity.
  - reflexivity.
  - discriminate.
  - intros [ |b|n|t|l|l] a; try discriminate. destruct (parse_dec t) as [n|]; [|discriminate].
    destruct (ok n) eqn:E; [|discriminate]. intros Ha. injection Ha as <-. exact E.
  - intros j n Hn E. apply alike_leaf_inv in E; [|exact I]. subst j. rewrite (parse_dec_dec n (H n Hn)), Hn. reflexivity.
Qed.
Lemma good_u128 : good u128_c. Proof. apply good_big, u128_small. Qed.
Lemma good_u256 : good u256_c. Proof. apply good_big, u256_small. Qed.
Lemma good_hex : good hex_c.
Proof.
  split; cbn [hex_c read write fits]; try reflexivity; try discriminate.
  - intros a _. now rewrite hex_decode_encode.
  - leaf_alike. now rewrite hex_decode_encode.
Qed.
Lemma good_list {A} (c : codec A) : good c -> good (list_c c).
Proof.
  intros G. split; cbn [list_c read write fits].
  - intros l. induction l as [|a l IH]; [reflexivity|]. cbn [forallb map all_read]. intros H. apply andb_true_iff in H as [Ha Hl].
    rewrite (g_back c G a Ha), (IH Hl). reflexivity.
  - intros l H. cbn [small]. rewrite forallb_forall in *. intros j Hj. apply in_map_iff in Hj as (a & <- & Ha).
    apply (g_small c G), H, Ha.
  - discriminate.
  - intros [ |b|n|t|l|l] a; try discriminate. revert a. induction l as [|j l IH]; intros a; cbn [all_read].
    + intros Ha. injection Ha as <-. reflexivity.
    + destruct (read c j) as [x|] eqn:E; [|discriminate]. destruct (all_read (read c) l) as [r|]; [|discriminate].
      intros Ha. injection Ha as <-. cbn [forallb]. rewrite (g_fits c G _ _ E), (IH r eq_refl). reflexivity.
  - intros j l F E. inversion E as [? L|l1 l2 E1|]; [contradiction L|]. subst. clear E. revert l1 F E1. induction l as [|a l IH]; intros l1 F E1.
    + inversion E1. reflexivity.
    + cbn [map] in E1. inversion E1 as [|x y l2 l3 X Y]. subst. cbn [forallb] in F. apply andb_true_iff in F as [Fa Fl].
      cbn [all_read]. rewrite (g_alike c G x a Fa X), (IH l2 Fl Y). reflexivity.
Qed.
Lemma good_pair {A B} (c : codec A) (d : codec B) : good c -> good d -> good (pair_c c d).
Proof.
  intros G D. split; cbn [pair_c read write fits].
  - intros [a b] H. cbn [fst snd] in *. apply andb_true_iff in H as [Ha Hb].
    rewrite (g_back c G a Ha), (g_back d D b Hb). reflexivity.
  - intros [a b] H. cbn [fst snd] in *. apply andb_true_iff in H as [Ha Hb]. cbn [small forallb].
    rewrite (g_small c G a Ha), (g_small d D b Hb). reflexivity.
  - discriminate.
  - intros [ |b|n|t|l|l] a; try discriminate. destruct l as [|x [|y [|z l]]]; try discriminate.
    destruct (read c x) as [u|] eqn:E; [|discriminate]. destruct (read d y) as [v|] eqn:F; [|discriminate].
    intros Ha. injection Ha as <-. cbn [fst snd]. rewrite (g_fits c G _ _ E), (g_fits d D _ _ F). reflexivity.
  - intros j [a b] F E. cbn [fst snd] in *. apply andb_true_iff in F as [Fa Fb]. inversion E as [? L|l1 l2 E1|]; [contradiction L|]. subst.
    inversion E1 as [|x y l2 l3 X Y]. subst. inversion Y as [|x' y' l4 l5 X' Y']. subst. inversion Y'. subst.
    rewrite (g_alike c G x a Fa X), (g_alike d D x' b Fb X'). reflexivity.
Qed.
Lemma good_empty : good empty_c.
Proof.
  split; cbn [empty_c read write fits]; try reflexivity; try discriminate; [now intros []|].
  intros j [] _ E. inversion E as [? L|l1 l2 E1|]; [contradiction L|]. subst. now inversion E1.
Qed.
Lemma good_never : good never_c.
Proof. split; cbn [never_c read write fits]; try discriminate. Qed.
Lemma good_as {A B} (f : A -> B) (g : B -> A) (c : codec A) :
  good c -> (forall b, f (g b) = b) -> (forall a, g (f a) = a) -> good (as_c f g c).
Proof.
  intros G H H'. split; cbn [as_c read write fits].
  - intros b Hb. rewrite (g_back c G _ Hb). cbn [option_map]. now rewrite H.
  - intros b Hb. apply (g_small c G _ Hb).
  - intros b Hb. apply (g_there c G _ Hb).
  - intros j b. destruct (read c j) as [a|] eqn:E; [|discriminate]. cbn [option_map]. intros Hb. injection Hb as <-.
    rewrite H'. apply (g_fits c G _ _ E).
  - intros j b F E. rewrite (g_alike c G j _ F E). cbn [option_map]. now rewrite H.
Qed.

(** ** Structs *)
Record good_shape {A} (r : shape A) : Prop := mkGoodShape {
  s_names : forall a, map fst (puts r a) = names r;
  s_back : forall a g, sfits r a = true -> (forall k j, In (k, j) (puts r a) -> g k = Some j) -> gets r g = Some a;
  s_small : forall a, sfits r a = true -> forallb (fun p => small (snd p)) (puts r a) = true;
  s_fits : forall g a, gets r g = Some a -> sfits r a = true;
  s_alike : forall a g, sfits r a = true ->
    (forall k j', In (k, j') (puts r a) -> match g k with Some j => alike j j' | None => j' = JNull end) -> gets r g = Some a }.

Lemma shape_none : good_shape none.
Proof. split; try reflexivity; now intros []. Qed.
Lemma shape_field {A B} k (c : codec A) (r : shape B) : good c -> good_shape r -> good_shape (field k c r).
Proof.
  intros G S. split; cbn [field names puts gets sfits].
  - intros [a b]. cbn [map fst snd]. f_equal. apply (s_names r S).
  - intros [a b] g H K. cbn [fst snd] in *. apply andb_true_iff in H as [Ha Hb].
    rewrite (K k _ (or_introl eq_refl)), (g_back c G a Ha), (s_back r S b g Hb); [reflexivity|].
    intros k' j Hj. apply K. now right.
  - intros [a b] H. cbn [fst snd forallb] in *. apply andb_true_iff in H as [Ha Hb].
    now rewrite (g_small c G a Ha), (s_small r S b Hb).
  - intros g [a b]. destruct (g k) as [j|]; [|discriminate]. destruct (read c j) as [x|] eqn:E; [|discriminate].
    destruct (gets r g) as [y|] eqn:F; [|discriminate]. intros H. injection H as <- <-. cbn [fst snd].
    now rewrite (g_fits c G _ _ E), (s_fits r S _ _ F).
  - intros [a b] g H K. cbn [fst snd] in *. apply andb_true_iff in H as [Ha Hb].
    rewrite (s_alike r S b g Hb) by (intros k' j' Hj; apply K; now right).
    specialize (K k _ (or_introl eq_refl)). destruct (g k) as [j|]; [|elim (g_there c G a Ha K)]. now rewrite (g_alike c G j a Ha K).
Qed.
Lemma shape_optional {A B} k (c : codec A) (r : shape B) : good c -> good_shape r -> good_shape (optional k c r).
Proof.
  intros G S. split; cbn [optional names puts gets sfits].
  - intros [a b]. cbn [map fst snd]. f_equal. apply (s_names r S).
  - intros [a b] g H K. cbn [fst snd] in *. apply andb_true_iff in H as [Ha Hb].
    assert (Kr : gets r g = Some b).
    { apply (s_back r S b g Hb). intros k' j Hj. apply K. now right. }
    rewrite (K k _ (or_introl eq_refl)), Kr. destruct a as [a|]; [|reflexivity].
    pose proof (g_there c G a Ha) as T. pose proof (g_back c G a Ha) as R.
    destruct (write c a) eqn:E; [now elim T|..]; rewrite R; reflexivity.
  - intros [a b] H. cbn [fst snd forallb] in *. apply andb_true_iff in H as [Ha Hb].
    rewrite (s_small r S b Hb). destruct a as [a|]; [now rewrite (g_small c G a Ha)|reflexivity].
  - intros g [a b].
    destruct (match g k with None | Some JNull => Some None | Some j => option_map Some (read c j) end) as [x|] eqn:E;
      [|discriminate].
    destruct (gets r g) as [y|] eqn:F; [|discriminate]. intros H. injection H as <- <-. cbn [fst snd].
    rewrite (s_fits r S _ _ F), andb_true_r. destruct x as [x|]; [|reflexivity].
    destruct (g k) as [j|]; [|discriminate].
    assert (R : read c j = Some x). { destruct j; try discriminate E; destruct (read c _); cbn in E; congruence. }
    apply (g_fits c G _ _ R).
  - intros [a b] g H K. cbn [fst snd] in *. apply andb_true_iff in H as [Ha Hb].
    rewrite (s_alike r S b g Hb) by (intros k' j' Hj; apply K; now right).
    specialize (K k _ (or_introl eq_refl)). destruct (g k) as [j|].
    + destruct a as [a|]; [|apply alike_leaf_inv in K; [now subst j|exact I]]. pose proof (g_alike c G j a Ha K) as R.
      destruct j; try (rewrite R; reflexivity). exfalso. apply (g_there c G a Ha). inversion K. reflexivity.
    + destruct a as [a|]; [elim (g_there c G a Ha K)|reflexivity].
Qed.

Lemma distinct_assoc (l : list (str * json)) : distinct (map fst l) = true -> forall k j, In (k, j) l -> assoc k l = Some j.
Proof.
  induction l as [|[k0 j0] l IH]; [contradiction|]. cbn [map fst distinct]. intros H. apply andb_true_iff in H as [H1 H2].
  intros k j [E|E].
  - injection E as -> ->. cbn [assoc]. now rewrite bytes_eqb_refl.
  - cbn [assoc]. destruct (bytes_eqb k k0) eqn:F; [|now apply IH]. apply bytes_eqb_eq in F. subst k0.
    apply negb_true_iff in H1. assert (M : mem_bytes k (map fst l) = true); [|congruence].
    clear -E. induction l as [|[a b] l IH]; [contradiction|]. cbn [map fst mem_bytes].
    destruct E as [E|E]; [injection E as -> ->; now rewrite bytes_eqb_refl|]. rewrite (IH E). apply orb_true_r.
Qed.
Lemma mem_self (l : list str) x : In x l -> mem_bytes x l = true.
Proof.
  induction l as [|y l IH]; [contradiction|]. cbn [mem_bytes]. intros [->|H]; [now rewrite bytes_eqb_refl|].
  rewrite (IH H). apply orb_true_r.
Qed.
Lemma filter_all {A} (f : A -> bool) l : forallb f l = true -> filter f l = l.
Proof. induction l as [|x l IH]; [reflexivity|]. cbn [forallb filter]. intros H. apply andb_true_iff in H as [-> H]. f_equal. now apply IH. Qed.

Lemma nodup_distinct l : NoDup l -> distinct l = true.
Proof.
  induction 1 as [|k l N _ IH]; [reflexivity|]. cbn [distinct]. rewrite IH, andb_true_r. apply negb_true_iff.
  destruct (mem_bytes k l) eqn:E; [|reflexivity]. exfalso. apply N. clear -E. induction l as [|x l IH]; [discriminate E|].
  cbn [mem_bytes] in E. apply orb_true_iff in E as [E|E]; [apply bytes_eqb_eq in E; subst x; now left|right; exact (IH E)].
Qed.
Lemma assoc_none k (l : list (str * json)) : assoc k l = None -> ~ In k (map fst l).
Proof.
  induction l as [|[k' j] l IH]; cbn [assoc map fst]; intros H; [intros []|]. destruct (bytes_eqb k k') eqn:E; [discriminate H|].
  intros [<-|F]; [now rewrite bytes_eqb_refl in E|exact (IH H F)].
Qed.
Lemma assoc_has k (j : json) l : assoc k l = Some j -> In (k, j) l.
Proof.
  induction l as [|[k' j'] l IH]; cbn [assoc]; intros H; [discriminate H|]. destruct (bytes_eqb k k') eqn:E.
  - apply bytes_eqb_eq in E. subst k'. injection H as ->. now left.
  - right. exact (IH H).
Qed.
Lemma good_struct {A} strict (r : shape A) : good_shape r -> distinct (names r) = true -> good (struct_of strict r).
Proof.
  intros S D. split; cbn [struct_of read write fits].
  - intros a Ha. rewrite (s_names r S a).
    assert (M : forallb (fun k => mem_bytes k (names r)) (names r) = true).
    { apply forallb_forall. intros x. apply mem_self. }
    rewrite M, (filter_all _ _ M), D. rewrite orb_true_r. cbn [andb].
    apply (s_back r S a _ Ha). apply distinct_assoc. now rewrite (s_names r S a).
  - intros a Ha. apply (s_small r S a Ha).
  - discriminate.
  - intros [ |b|n|t|l|l] a; try discriminate. destruct (_ && _)%bool; [|discriminate]. apply (s_fits r S).
  - intros j a Ha E. inversion E as [? L| |l l' N M1 M2]; [contradiction L|]. subst.
    assert (M : forallb (fun k => mem_bytes k (names r)) (map fst l) = true).
    { apply forallb_forall. intros k Hk. apply mem_self. rewrite <- (s_names r S a). apply in_map_iff in Hk as ([k0 j] & <- & Hin).
      destruct (M1 k0 j Hin) as (j' & Hj' & _). apply in_map_iff. exists (k0, j'). auto. }
    rewrite M, (filter_all _ _ M), (nodup_distinct _ N), orb_true_r. cbn [andb]. apply (s_alike r S a _ Ha). intros k j' Hj'.
    destruct (assoc k l) as [j|] eqn:F.
    + apply assoc_has in F. destruct (M1 k j F) as (j2 & H2 & Al).
      assert (D' : distinct (map fst (puts r a)) = true) by (now rewrite (s_names r S a)).
      pose proof (distinct_assoc _ D' k j' Hj') as P1. pose proof (distinct_assoc _ D' k j2 H2) as P2. rewrite P1 in P2. injection P2 as ->. exact Al.
    + apply assoc_none in F. destruct (M2 k j' Hj') as [F'|F']; [elim (F F')|exact F'].
Qed.

(** ** Enums *)
Definition puts_some {A} (c : case A) (a : A) : bool := match put c a with Some _ => true | None => false end.
Record lawful {A} (ok : A -> bool) (c : case A) : Prop := mkLawful {
  l_back : forall a b, put c a = Some b -> ok a = true -> get c b = Some a;
  l_small : forall a b, put c a = Some b -> ok a = true -> small b = true;
  l_ok : forall j a, get c j = Some a -> ok a = true;
  l_put : forall j a, get c j = Some a -> puts_some c a = true;
  l_there : forall a b, put c a = Some b -> ok a = true -> b <> JNull;
  l_alike : forall j a b, put c a = Some b -> ok a = true -> alike j b -> get c j = Some a }.

Lemma lawful_on {X A} (ok : A -> bool) t (c : codec X) (f : X -> A) (g : A -> option X) :
  good c -> (forall x, fits c x = true -> g (f x) = Some x) -> (forall a x, g a = Some x -> a = f x) ->
  (forall a x, g a = Some x -> ok a = true -> fits c x = true) -> (forall x, fits c x = true -> ok (f x) = true) ->
  lawful ok (on t c f g).
Proof.
  intros G H1 H2 H3 H4. split; cbn [on put get puts_some].
  - intros a b. destruct (g a) as [x|] eqn:E; [|discriminate]. cbn [option_map]. intros B Ha. injection B as <-.
    rewrite (g_back c G x (H3 a x E Ha)). cbn [option_map]. f_equal. symmetry. now apply H2.
  - intros a b. destruct (g a) as [x|] eqn:E; [|discriminate]. cbn [option_map]. intros B Ha. injection B as <-.
    apply (g_small c G x (H3 a x E Ha)).
  - intros j a. destruct (read c j) as [x|] eqn:E; [|discriminate]. cbn [option_map]. intros B. injection B as <-.
    apply H4, (g_fits c G _ _ E).
  - intros j a. destruct (read c j) as [x|] eqn:E; [|discriminate]. cbn [option_map]. intros B. injection B as <-.
    unfold puts_some. cbn [on put]. rewrite (H1 x (g_fits c G _ _ E)). reflexivity.
  - intros a b. destruct (g a) as [x|] eqn:E; [|discriminate]. cbn [option_map]. intros B Ha. injection B as <-.
    apply (g_there c G x (H3 a x E Ha)).
  - intros j a b. destruct (g a) as [x|] eqn:E; [|discriminate]. cbn [option_map]. intros B Ha. injection B as <-. intros Al.
    rewrite (g_alike c G j x (H3 a x E Ha) Al). cbn [option_map]. f_equal. symmetry. now apply H2.
Qed.

Lemma write_case_pick {A} (l : list (case A)) a : existsb (fun c => puts_some c a) l = true ->
  exists c b, In c l /\ put c a = Some b /\ write_case l a = JObj [(tag c, b)].
Proof.
  induction l as [|c l IH]; [discriminate|]. cbn [existsb write_case]. unfold puts_some at 1.
  destruct (put c a) as [b|] eqn:E.
  - intros _. exists c, b. split; [now left|]. now split.
  - cbn [orb]. intros H. destruct (IH H) as (c' & b & H1 & H2 & H3). exists c', b. split; [now right|]. now split.
Qed.
Lemma read_case_pick {A} (l : list (case A)) c b : distinct (map tag l) = true -> In c l -> read_case l (tag c) b = get c b.
Proof.
  induction l as [|d l IH]; [contradiction|]. cbn [map distinct read_case]. intros D H. apply andb_true_iff in D as [D1 D2].
  destruct H as [->|H]; [now rewrite bytes_eqb_refl|]. destruct (bytes_eqb (tag c) (tag d)) eqn:E; [|now apply IH].
  apply bytes_eqb_eq in E. apply negb_true_iff in D1. rewrite <- E in D1. rewrite mem_self in D1; [discriminate|].
  apply in_map, H.
Qed.
Lemma read_case_some {A} (l : list (case A)) t b a : read_case l t b = Some a -> exists c, In c l /\ t = tag c /\ get c b = Some a.
Proof.
  induction l as [|d l IH]; [discriminate|]. cbn [read_case]. destruct (bytes_eqb t (tag d)) eqn:E.
  - intros H. apply bytes_eqb_eq in E. exists d. split; [now left|]. now split.
  - intros H. destruct (IH H) as (c & H1 & H2 & H3). exists c. split; [now right|]. now split.
Qed.

Lemma good_enum {A} (ok : A -> bool) (l : list (case A)) :
  Forall (lawful ok) l -> distinct (map tag l) = true -> good (enum ok l).
Proof.
  intros L D. rewrite Forall_forall in L. split; cbn [enum read write fits].
  - intros a H. apply andb_true_iff in H as [H1 H2]. destruct (write_case_pick l a H1) as (c & b & Hc & Hb & ->).
    rewrite (read_case_pick l c b D Hc). apply (l_back ok c (L c Hc) a b Hb H2).
  - intros a H. apply andb_true_iff in H as [H1 H2]. destruct (write_case_pick l a H1) as (c & b & Hc & Hb & ->).
    cbn [small forallb snd]. rewrite (l_small ok c (L c Hc) a b Hb H2). reflexivity.
  - intros a H. apply andb_true_iff in H as [H1 _]. destruct (write_case_pick l a H1) as (c & b & _ & _ & ->). discriminate.
  - intros [ |b|n|t|r|r] a; try discriminate. destruct r as [|[t b] [|? ?]]; try discriminate. intros H.
    destruct (read_case_some l t b a H) as (c & Hc & _ & Hg). apply andb_true_iff. split.
    + apply existsb_exists. exists c. split; [exact Hc|]. apply (l_put ok c (L c Hc) b a Hg).
    + apply (l_ok ok c (L c Hc) b a Hg).
  - intros j a F E. apply andb_true_iff in F as [F1 F2]. destruct (write_case_pick l a F1) as (c & b & Hc & Hb & W). rewrite W in E.
    inversion E as [? X| |l1 l2 N M1 M2]; [contradiction X|]. subst.
    assert (K : exists j', l1 = [(tag c, j')] /\ alike j' b).
    { destruct l1 as [|[k j] l1].
      - destruct (M2 (tag c) b (or_introl eq_refl)) as [[]|X]. elim (l_there ok c (L c Hc) a b Hb F2 X).
      - exists j. destruct (M1 k j (or_introl eq_refl)) as (j' & [X|[]] & Al). injection X as <- <-. split; [|exact Al]. f_equal.
        destruct l1 as [|[k j1] l1]; [reflexivity|]. exfalso. destruct (M1 k j1 (or_intror (or_introl eq_refl))) as (j' & [X|[]] & _).
        injection X as <- _. cbn [map fst] in N. inversion_clear N as [|? ? N1 _]. apply N1. now left. }
    destruct K as (j' & -> & Al). rewrite (read_case_pick l c j' D Hc). apply (l_alike ok c (L c Hc) j' a b Hb F2 Al).
Qed.

Lemma lawful_under {A} (ok : A -> bool) t (l : list (case A)) :
  Forall (lawful ok) l -> distinct (map tag l) = true -> lawful ok (under ok t l).
Proof.
  intros L D. apply lawful_on.
  - now apply good_enum.
  - intros x H. cbn [enum fits] in H. apply andb_true_iff in H as [-> _]. reflexivity.
  - intros a x. destruct (existsb _ l); [|discriminate]. intros E. now injection E.
  - intros a x. destruct (existsb _ l) eqn:E; [|discriminate]. intros X Ha. injection X as <-.
    cbn [enum fits]. rewrite E, Ha. reflexivity.
  - intros x H. cbn [enum fits] in H. now apply andb_true_iff in H as [_ ->].
Qed.

Lemma forallb_yes {A} (l : list A) : forallb (fun _ => true) l = true.
Proof. now induction l. Qed.

(** proves that a type built from the pieces above is good *)
Ltac codec_good :=
  repeat first
    [ exact good_string | exact good_bool | exact good_u8 | exact good_u32 | exact good_u128 | exact good_u256
    | exact good_hex | exact good_empty | exact good_never | exact shape_none
    | apply good_list | apply good_pair | apply shape_field | apply shape_optional
    | (apply good_struct; [|vm_compute; reflexivity]) ].
(** what the pieces say about widths *)
Ltac open_fits :=
  cbn [fits sfits struct struct_of field optional none list_c pair_c as_c string_c bool_c hex_c u8_c u32_c u128_c u256_c
       int_c big_c empty_c never_c fst snd route_set_c dispatch_c custom_hook_c clear_hook_c gas_config_c
       coin_c meta_message_c emsg_ok rs_domain rs_route d_dest d_recipient d_body d_hook d_metadata
       ch_dest ch_recipient ch_hook gc_domain gc_rate gc_price c_denom c_amount] in *.
Ltac widths :=
  repeat match goal with
  | H : (_ && _)%bool = true |- _ => apply andb_true_iff in H as [? ?]
  | |- (_ && _)%bool = true => apply andb_true_iff; split
  | |- forallb (fun _ => true) _ = true => apply forallb_yes
  | |- (match ?o with Some _ => _ | None => _ end) = true => destruct o
  | H : forallb _ ?l = true |- forallb _ ?l = true =>
      let x := fresh in let Hx := fresh in
      rewrite forallb_forall in H |- *; intros x Hx; specialize (H x Hx); cbv beta in H |- *
  end; try reflexivity; try assumption.
(** the values of the product types in the context *)
Ltac parts := repeat match goal with x : (_ * _)%type |- _ => destruct x | x : unit |- _ => destruct x end.
Ltac each := repeat first [apply Forall_nil | apply Forall_cons].
Ltac case_lawful :=
  apply lawful_on;
  [ codec_good
  | intros x Hx; open_fits; parts; try reflexivity
  | intros a x; destruct a; intros Hx; try discriminate Hx; injection Hx as <-; reflexivity
  | intros a x; destruct a; intros Hx Ha; try discriminate Hx; injection Hx as <-; open_fits; widths
  | intros x Hx; parts; open_fits; widths ].
Ltac enum_good := apply good_enum; [each; case_lawful | vm_compute; reflexivity].

Lemma good_coin : good coin_c.
Proof. apply good_as; [codec_good|now intros []|now intros (a & b & [])]. Qed.
Lemma good_ownable : good ownable_c.
Proof. enum_good. Qed.
Lemma good_pausable : good pausable_c.
Proof. enum_good. Qed.
Lemma good_connection : good connection_c.
Proof. enum_good. Qed.
Lemma good_route h : good (route_c h).
Proof. destruct h; [exact good_hex|exact good_string]. Qed.
Lemma good_route_set h : good (route_set_c h).
Proof.
  apply good_as; [|now intros []|now intros (a & b & [])]. pose proof (good_route h). codec_good; assumption.
Qed.
Lemma route_fits h r : fits (route_set_c h) r = u32_ok (rs_domain r).
Proof. destruct r as [d [r|]], h; open_fits; cbn [route_c]; open_fits; rewrite ?andb_true_r; reflexivity. Qed.
Lemma routes_fits h l : forallb (fits (route_set_c h)) l = forallb (fun r => u32_ok (rs_domain r)) l.
Proof. induction l as [|r l IH]; [reflexivity|]. cbn [forallb]. now rewrite route_fits, IH. Qed.
Lemma good_router h : good (router_c h).
Proof.
  pose proof (good_route_set h) as G. apply good_enum; [|vm_compute; reflexivity]. each; apply lawful_on.
  - codec_good. exact G.
  - intros (r & []) _. reflexivity.
  - intros [r|l] x Hx; try discriminate Hx; injection Hx as <-; reflexivity.
  - intros [r|l] x Hx Ha; try discriminate Hx; injection Hx as <-. cbn [router_fits] in Ha.
    cbn [struct struct_of fits sfits field none fst snd]. now rewrite route_fits, Ha.
  - intros (r & []) Hx. cbn [struct struct_of fits sfits field none fst snd] in Hx. rewrite route_fits, andb_true_r in Hx. exact Hx.
  - codec_good. exact G.
  - intros (r & []) _. reflexivity.
  - intros [r|l] x Hx; try discriminate Hx; injection Hx as <-; reflexivity.
  - intros [r|l] x Hx Ha; try discriminate Hx; injection Hx as <-. cbn [router_fits] in Ha.
    cbn [struct struct_of fits sfits field none fst snd list_c]. now rewrite routes_fits, Ha.
  - intros (r & []) Hx. cbn [struct struct_of fits sfits field none fst snd list_c] in Hx.
    rewrite routes_fits, andb_true_r in Hx. exact Hx.
Qed.
Lemma good_dispatch : good dispatch_c.
Proof. apply good_as; [codec_good|now intros []|now intros (a & b & c & d & e & [])]. Qed.
Lemma good_custom_hook : good custom_hook_c.
Proof. apply good_as; [codec_good|now intros []|now intros (a & b & c & [])]. Qed.
Lemma good_clear_hook : good clear_hook_c.
Proof. apply good_as; [codec_good|now intros []|now intros (a & b & [])]. Qed.
Lemma good_gas_config : good gas_config_c.
Proof. apply good_as; [codec_good|now intros []|now intros (a & b & c & [])]. Qed.

(** ** Every message *)
Ltac open_codecs :=
  codec_good; first [exact good_coin | exact good_ownable | exact good_pausable | exact good_connection | exact good_dispatch
    | exact good_custom_hook | exact good_clear_hook | exact good_gas_config | apply good_router | idtac].

Lemma enum_yes {A} (l : list (case A)) a :
  fits (enum (fun _ => true) l) a = existsb (fun c => match put c a with Some _ => true | None => false end) l.
Proof. cbn [enum fits]. apply andb_true_r. Qed.
Lemma ownable_fits m : fits ownable_c m = true.
Proof. now destruct m. Qed.
Lemma pausable_fits m : fits pausable_c m = true.
Proof. now destruct m. Qed.
Lemma connection_fits m : fits connection_c m = true.
Proof. now destruct m. Qed.
Lemma router_fits_c h m : fits (router_c h) m = router_fits m.
Proof. now destruct m. Qed.

Lemma law_ownable : lawful emsg_ok e_ownable.
Proof.
  apply lawful_on; [exact good_ownable|reflexivity|..].
  - intros a x; destruct a; intros Hx; try discriminate Hx; injection Hx as <-; reflexivity.
  - intros a x _ _. apply ownable_fits.
  - reflexivity.
Qed.
Lemma law_pausable : lawful emsg_ok e_pausable.
Proof.
  apply lawful_on; [exact good_pausable|reflexivity|..].
  - intros a x; destruct a; intros Hx; try discriminate Hx; injection Hx as <-; reflexivity.
  - intros a x _ _. apply pausable_fits.
  - reflexivity.
Qed.
Lemma law_connection : lawful emsg_ok e_connection.
Proof.
  apply lawful_on; [exact good_connection|reflexivity|..].
  - intros a x; destruct a; intros Hx; try discriminate Hx; injection Hx as <-; reflexivity.
  - intros a x _ _. apply connection_fits.
  - reflexivity.
Qed.
Lemma law_router h : lawful emsg_ok (e_router h).
Proof.
  apply lawful_on; [apply good_router|reflexivity|..].
  - intros a x; destruct a; intros Hx; try discriminate Hx; injection Hx as <-; reflexivity.
  - intros a x; destruct a; intros Hx Ha; try discriminate Hx; injection Hx as <-. rewrite router_fits_c. exact Ha.
  - intros x Hx. rewrite router_fits_c in Hx. exact Hx.
Qed.
Lemma law_post_dispatch : lawful emsg_ok e_post_dispatch.
Proof. case_lawful. Qed.
Lemma law_handle : lawful emsg_ok e_handle.
Proof. case_lawful. Qed.

Ltac table := each;
  first [exact law_ownable | exact law_pausable | exact law_connection | apply law_router | exact law_post_dispatch | exact law_handle | idtac].
Ltac law1 :=
  apply lawful_on;
  [ open_codecs
  | intros x Hx; open_fits; parts; try reflexivity
  | intros a x; destruct a; intros Hx; try discriminate Hx; injection Hx as <-; reflexivity
  | intros a x; destruct a; intros Hx Ha; try discriminate Hx; injection Hx as <-; open_fits; widths
  | intros x Hx; parts; open_fits; widths ].

Definition lawful_all (l : list (case emsg)) : Prop := Forall (lawful emsg_ok) l.
Lemma law_mailbox : lawful_all mailbox_cases. Proof. table; law1. Qed.
Lemma law_va : lawful_all va_cases. Proof. table; law1. Qed.
Lemma law_multisig : lawful_all multisig_cases. Proof. table; law1. Qed.
Lemma law_agg_ism : lawful_all agg_ism_cases. Proof. table; law1. Qed.
Lemma law_routing_ism : lawful_all routing_ism_cases. Proof. table; law1. Qed.
Lemma law_agg_hook : lawful_all agg_hook_cases. Proof. table; law1. Qed.
Lemma law_custom_hook : lawful_all custom_hook_cases. Proof. table; law1. Qed.
Lemma law_fallback_hook : lawful_all fallback_hook_cases. Proof. table; law1. Qed.
Lemma law_fee : lawful_all fee_cases. Proof. table; law1. Qed.
Lemma law_fee_hook : lawful_all fee_hook_cases.
Proof. table. apply lawful_under; [exact law_fee|reflexivity]. Qed.
Lemma law_oracle : lawful_all oracle_cases.
Proof.
  table; [|law1|law1]. apply lawful_on; [exact good_ownable|reflexivity|..].
  - intros a x; destruct a; intros Hx; try discriminate Hx; injection Hx as <-; reflexivity.
  - intros a x _ _. apply ownable_fits.
  - reflexivity.
Qed.
Lemma law_igp : lawful_all igp_cases. Proof. table; law1. Qed.
Lemma law_warp : lawful_all warp_cases. Proof. table; law1. Qed.
Lemma law_cw20 : lawful_all cw20_cases.
Proof.
  table; law1; match goal with o : option unit |- _ => destruct o; [|reflexivity] end;
    cbn [andb] in Hx; rewrite andb_false_r in Hx; discriminate Hx.
Qed.

Lemma law_exec p : lawful_all (exec_cases p).
Proof.
  destruct p; [exact law_mailbox|exact law_va|exact law_multisig|exact law_agg_ism|exact law_routing_ism|table|table
    |exact law_agg_hook|table|table|exact law_custom_hook|exact law_fallback_hook|exact law_fee_hook|exact law_oracle
    |exact law_igp|exact law_warp|exact law_warp|exact law_cw20].
Qed.
Lemma tags_exec p : distinct (map tag (exec_cases p)) = true.
Proof. destruct p; vm_compute; reflexivity. Qed.
Lemma good_exec p : good (exec_c p).
Proof. apply good_enum; [apply law_exec|apply tags_exec]. Qed.

(** the variants of each program's enum are the messages it understands *)
Lemma fits_exec st m : fits (exec_c (program_of st)) m = (understands st m && emsg_ok m)%bool.
Proof. unfold exec_c, enum, fits. f_equal. destruct st; destruct m; reflexivity. Qed.

Lemma exec_back st m : understands st m = true -> emsg_ok m = true ->
  read_exec (program_of st) (write_exec (program_of st) m) = Some m.
Proof.
  intros U O. assert (F : fits (exec_c (program_of st)) m = true) by (rewrite fits_exec, U, O; reflexivity).
  pose proof (good_exec (program_of st)) as G. unfold read_exec, write_exec.
  rewrite parse_text by (apply (g_small _ G), F). apply (g_back _ G), F.
Qed.
Lemma exec_only st t m : read_exec (program_of st) t = Some m -> understands st m = true /\ emsg_ok m = true.
Proof.
  unfold read_exec. destruct (parse t) as [j|]; [|discriminate]. intros H.
  apply (g_fits _ (good_exec (program_of st))) in H. rewrite fits_exec in H. now apply andb_true_iff in H.
Qed.
