(** * JSON texts and UTF-8: proofs. *)
From Coq Require Import List NArith Bool Lia Arith.
From Verif Require Import Base BaseFacts Hex Bech32 Events SpecVersion SpecEvents SpecCodec EventFacts CaseFacts
  Json SpecJson JsonFacts JsonGrammar Proto SpecProto ProtoFacts Utf8 SpecUtf8.
Import ListNotations.

(** ** A text can be cut before any byte that does not continue a character *)
Definition continues (b : byte) : bool := between 128 191 b.
Lemma between_not lo hi b : between lo hi b = true -> 128 <= lo -> hi <= 191 -> continues b = true.
Proof. unfold continues, between. rewrite !andb_true_iff, !N.leb_le. lia. Qed.

Lemma valid_cut n : forall p b q, (length p <= n)%nat -> continues b = false ->
  valid_utf8 (p ++ b :: q) = (valid_utf8 p && valid_utf8 (b :: q))%bool.
Proof.
  induction n as [|n IH]; intros p b q Hn Hb.
  { destruct p as [|a p]; [reflexivity|cbn [length] in Hn; lia]. }
  destruct p as [|a p]; [reflexivity|]. cbn [length] in Hn.
  assert (K : forall lo hi, 128 <= lo -> hi <= 191 -> between lo hi b = false).
  { intros lo hi H1 H2. destruct (between lo hi b) eqn:E; [|reflexivity]. rewrite (between_not _ _ _ E H1 H2) in Hb. discriminate Hb. }
  change ((a :: p) ++ b :: q) with (a :: (p ++ b :: q)).
  destruct (between 0 127 a) eqn:A.
  { cbn [valid_utf8]. rewrite A. apply IH; [lia|exact Hb]. }
  destruct p as [|a1 p].
  { cbn [app valid_utf8]. rewrite A. destruct (between 194 223 a); [rewrite (K 128 191) by lia; reflexivity|].
    destruct q as [|c q]; [reflexivity|]. destruct (between 224 239 a).
    { destruct (bN a =? 224); [rewrite (K 160 191) by lia; reflexivity|]. destruct (bN a =? 237); rewrite K by lia; reflexivity. }
    destruct q as [|d q]; [reflexivity|]. destruct (between 240 244 a); [|reflexivity].
    destruct (bN a =? 240); [rewrite (K 144 191) by lia; reflexivity|]. destruct (bN a =? 244); rewrite K by lia; reflexivity. }
  cbn [length] in Hn. change ((a1 :: p) ++ b :: q) with (a1 :: (p ++ b :: q)).
  destruct (between 194 223 a) eqn:A2.
  { cbn [valid_utf8]. rewrite A, A2. rewrite (IH p b q ltac:(lia) Hb). now rewrite !andb_assoc. }
  destruct p as [|a2 p].
  { cbn [app valid_utf8]. rewrite A, A2. destruct (between 224 239 a); [rewrite (K 128 191) by lia; now rewrite andb_false_r|].
    destruct q as [|d q]; [reflexivity|]. destruct (between 240 244 a); [|reflexivity].
    rewrite (K 128 191) by lia. now rewrite andb_false_r. }
  cbn [length] in Hn. change ((a2 :: p) ++ b :: q) with (a2 :: (p ++ b :: q)).
  destruct (between 224 239 a) eqn:A3.
  { cbn [valid_utf8]. rewrite A, A2, A3. rewrite (IH p b q ltac:(lia) Hb). now rewrite !andb_assoc. }
  destruct p as [|a3 p].
  { cbn [app valid_utf8]. rewrite A, A2, A3. destruct (between 240 244 a); [|reflexivity].
    rewrite (K 128 191) by lia. now rewrite andb_false_r. }
  cbn [length] in Hn. change ((a3 :: p) ++ b :: q) with (a3 :: (p ++ b :: q)).
  cbn [valid_utf8]. rewrite A, A2, A3. destruct (between 240 244 a); [|reflexivity].
  rewrite (IH p b q ltac:(lia) Hb). now rewrite !andb_assoc.
Qed.
Lemma utf8_cut p b q : bN b < 128 \/ 192 <= bN b -> (utf8 (p ++ b :: q) <-> utf8 p /\ utf8 (b :: q)).
Proof.
  intros H. rewrite <- !utf8_iff, <- andb_true_iff, (valid_cut (length p)); [reflexivity|lia|].
  unfold continues, between. apply andb_false_iff. rewrite !N.leb_gt. lia.
Qed.
Lemma utf8_ascii b q : bN b < 128 -> (utf8 (b :: q) <-> utf8 q).
Proof.
  intros H. rewrite <- !utf8_iff. cbn [valid_utf8].
  assert (B : between 0 127 b = true) by (unfold between; apply andb_true_iff; rewrite !N.leb_le; lia). rewrite B. reflexivity.
Qed.
Lemma utf8_nil_iff : utf8 [] <-> True.
Proof. split; [trivial|constructor]. Qed.
(** ... and at any one-byte character *)
Lemma utf8_at p b q : bN b < 128 -> (utf8 (p ++ b :: q) <-> utf8 p /\ utf8 q).
Proof. intros H. rewrite utf8_cut, (utf8_ascii b q H) by (left; exact H). reflexivity. Qed.
Definition ascii (l : str) : Prop := Forall (fun b => bN b < 128) l.
Lemma utf8_ascii_app l q : ascii l -> (utf8 (l ++ q) <-> utf8 q).
Proof. induction 1 as [|b l B _ IH]; [reflexivity|]. cbn [app]. now rewrite utf8_ascii. Qed.
Lemma utf8_app_ascii p l : ascii l -> (utf8 (p ++ l) <-> utf8 p).
Proof.
  intros H. destruct H as [|b l B F]; [now rewrite app_nil_r|]. rewrite utf8_at by exact B.
  rewrite <- (app_nil_r l), (utf8_ascii_app l [] F), utf8_nil_iff. tauto.
Qed.
Lemma utf8_mid p l q : l <> [] -> ascii l -> (utf8 (p ++ l ++ q) <-> utf8 p /\ utf8 q).
Proof.
  intros N H. destruct H as [|b l B F]; [contradiction|]. cbn [app]. rewrite utf8_at by exact B. now rewrite utf8_ascii_app.
Qed.

(** ** Characters *)
Lemma encodes_char n u : encodes n u -> exists b v, u = b :: v /\ (bN b < 128 \/ 192 <= bN b) /\ utf8_char n u /\ scalar n.
Proof.
  unfold encodes, scalar. destruct u as [|a [|b [|c [|d [|e u]]]]]; cbn [map]; try contradiction.
  - intros [A ->]. exists a, []. split; [reflexivity|]. split; [lia|]. split; [now constructor|lia].
  - intros (A & B & E & F). exists a, [b]. split; [reflexivity|]. split; [lia|]. split; [|lia].
    assert (Q : n / 64 = bN a - 192) by (symmetry; apply (N.div_unique n 64 _ (bN b - 128)); lia).
    assert (R : n mod 64 = bN b - 128) by (symmetry; apply (N.mod_unique n 64 (bN a - 192)); lia).
    constructor; rewrite ?Q, ?R; lia.
  - intros (A & B & C & E & F & G). exists a, [b; c]. split; [reflexivity|]. split; [lia|]. split; [|lia].
    assert (Q : n / 64 = (bN a - 224) * 64 + (bN b - 128)) by (symmetry; apply (N.div_unique n 64 _ (bN c - 128)); lia).
    assert (R : n mod 64 = bN c - 128) by (symmetry; apply (N.mod_unique n 64 ((bN a - 224) * 64 + (bN b - 128))); lia).
    assert (Q1 : ((bN a - 224) * 64 + (bN b - 128)) / 64 = bN a - 224) by (symmetry; apply (N.div_unique _ 64 _ (bN b - 128)); lia).
    assert (Q2 : ((bN a - 224) * 64 + (bN b - 128)) mod 64 = bN b - 128) by (symmetry; apply (N.mod_unique _ 64 (bN a - 224)); lia).
    constructor; [replace (n / 4096) with (n / 64 / 64) by (now rewrite N.div_div by lia)| | |]; rewrite ?Q, ?R, ?Q1, ?Q2; lia.
  - intros (A & B & C & D & E & F). exists a, [b; c; d]. split; [reflexivity|]. split; [lia|]. split; [|lia].
    assert (Q : n / 64 = (bN a - 240) * 4096 + (bN b - 128) * 64 + (bN c - 128)) by (symmetry; apply (N.div_unique n 64 _ (bN d - 128)); lia).
    assert (R : n mod 64 = bN d - 128) by (symmetry; apply (N.mod_unique n 64 ((bN a - 240) * 4096 + (bN b - 128) * 64 + (bN c - 128))); lia).
    assert (Q1 : ((bN a - 240) * 4096 + (bN b - 128) * 64 + (bN c - 128)) / 64 = (bN a - 240) * 64 + (bN b - 128))
      by (symmetry; apply (N.div_unique _ 64 _ (bN c - 128)); lia).
    assert (R1 : ((bN a - 240) * 4096 + (bN b - 128) * 64 + (bN c - 128)) mod 64 = bN c - 128)
      by (symmetry; apply (N.mod_unique _ 64 ((bN a - 240) * 64 + (bN b - 128))); lia).
    assert (Q2 : ((bN a - 240) * 64 + (bN b - 128)) / 64 = bN a - 240) by (symmetry; apply (N.div_unique _ 64 _ (bN b - 128)); lia).
    assert (R2 : ((bN a - 240) * 64 + (bN b - 128)) mod 64 = bN b - 128) by (symmetry; apply (N.mod_unique _ 64 (bN a - 240)); lia).
    constructor; [replace (n / 262144) with (n / 64 / 64 / 64) by (now rewrite !N.div_div by lia)
                 |replace (n / 4096) with (n / 64 / 64) by (now rewrite N.div_div by lia)| | |]; rewrite ?Q, ?R, ?Q1, ?R1, ?Q2, ?R2; lia.
Qed.
(** a whole character first: the rest decides *)
Lemma valid_char n u q : utf8_char n u -> scalar n -> (utf8 (u ++ q) <-> utf8 q).
Proof.
  intros C S. split; [|intros H; exact (utf8_cons n u q S C H)].
  rewrite <- !utf8_iff. unfold scalar in S. intros H.
  destruct C as [a A|a b c A B R|a b d c A B D R|a b d e c A B D E R]; cbn [app valid_utf8] in H.
  - assert (X : between 0 127 a = true) by (unfold between; apply andb_true_iff; rewrite !N.leb_le; lia). now rewrite X in H.
  - pose proof (N.div_mod' c 64). pose proof (N.mod_lt c 64 ltac:(lia)).
    assert (X : between 0 127 a = false) by (unfold between; apply andb_false_iff; rewrite !N.leb_gt; lia). rewrite X in H.
    assert (Y : between 194 223 a = true) by (unfold between; apply andb_true_iff; rewrite !N.leb_le; lia). rewrite Y in H.
    now apply andb_true_iff in H.
  - assert (A' : 224 <= bN a < 240).
    { rewrite A. assert (c / 4096 < 16) by (apply N.div_lt_upper_bound; lia). lia. }
    assert (X : between 0 127 a = false) by (unfold between; apply andb_false_iff; rewrite !N.leb_gt; lia). rewrite X in H.
    assert (Y : between 194 223 a = false) by (unfold between; apply andb_false_iff; rewrite !N.leb_gt; lia). rewrite Y in H.
    assert (Z : between 224 239 a = true) by (unfold between; apply andb_true_iff; rewrite !N.leb_le; lia). rewrite Z in H.
    now apply andb_true_iff in H.
  - assert (A' : 240 <= bN a < 245).
    { rewrite A. assert (c / 262144 < 5) by (apply N.div_lt_upper_bound; lia). lia. }
    assert (X : between 0 127 a = false) by (unfold between; apply andb_false_iff; rewrite !N.leb_gt; lia). rewrite X in H.
    assert (Y : between 194 223 a = false) by (unfold between; apply andb_false_iff; rewrite !N.leb_gt; lia). rewrite Y in H.
    assert (Z : between 224 239 a = false) by (unfold between; apply andb_false_iff; rewrite !N.leb_gt; lia). rewrite Z in H.
    assert (W : between 240 244 a = true) by (unfold between; apply andb_true_iff; rewrite !N.leb_le; lia). rewrite W in H.
    now apply andb_true_iff in H.
Qed.
Lemma utf8_encoded n u p q : encodes n u -> (utf8 (p ++ u ++ q) <-> utf8 p /\ utf8 q).
Proof.
  intros H. destruct (encodes_char n u H) as (b & v & E & L & C & S).
  rewrite <- (valid_char n u q C S). rewrite E. cbn [app]. apply utf8_cut. exact L.
Qed.

(** ** Texts *)
Lemma lowers_ascii d l : Forall2 lowers d (hex_of l) -> ascii d.
Proof.
  intros H. apply hex_exact in H. revert l H. induction d as [d IH] using (well_founded_induction (Wf_nat.well_founded_ltof _ (@length byte))).
  intros l H. destruct d as [|a [|b d]]; [constructor|discriminate H|]. cbn [hex_decode] in H.
  assert (V : forall c x, hex_value c = Some x -> bN c < 128).
  { intros c x. unfold hex_value. destruct c; vm_compute; (reflexivity || discriminate). }
  destruct (hex_value a) as [x|] eqn:E1; [|discriminate H]. destruct (hex_value b) as [y|] eqn:E2; [|discriminate H].
  apply bind_Ok_inv in H as (l' & H1 & _). constructor; [exact (V _ _ E1)|]. constructor; [exact (V _ _ E2)|].
  apply (IH d) with (l := l'); [unfold Wf_nat.ltof; cbn [length]; lia|exact H1].
Qed.
Lemma chars_utf8 x t : chars x t -> forall p, utf8 (p ++ t) <-> utf8 (p ++ x).
Proof.
  induction 1 as [|c x t C1 C2 _ IH|e c x t E _ IH|h l d u x t D U _ IH|h l d h' l' d' n u x t D D' S U _ IH]; intros p.
  - reflexivity.
  - specialize (IH (p ++ [c])). rewrite <- !app_assoc in IH. exact IH.
  - assert (A : bN e < 128 /\ bN c < 128).
    { unfold escapes in E. cbn [In] in E. repeat (destruct E as [E|E]; [injection E as <- <-; vm_compute; auto|]). destruct E. }
    change (x5c :: e :: t) with ([x5c; e] ++ t). rewrite utf8_mid; [|discriminate|repeat constructor; apply A].
    rewrite utf8_at by apply A. rewrite (IH []). reflexivity.
  - assert (A := lowers_ascii _ _ D). change (x5c :: x75 :: d ++ t) with ((x5c :: x75 :: d) ++ t).
    rewrite utf8_mid; [|discriminate|constructor; [reflexivity|constructor; [reflexivity|exact A]]].
    rewrite (utf8_encoded _ u p x U), (IH []). reflexivity.
  - assert (A := lowers_ascii _ _ D). assert (A' := lowers_ascii _ _ D').
    replace (x5c :: x75 :: d ++ x5c :: x75 :: d' ++ t) with ((x5c :: x75 :: d ++ x5c :: x75 :: d') ++ t)
      by (cbn [app]; rewrite <- app_assoc; reflexivity).
    rewrite utf8_mid; [|discriminate|].
    + rewrite (utf8_encoded _ u p x U), (IH []). reflexivity.
    + constructor; [reflexivity|]. constructor; [reflexivity|]. apply Forall_app. split; [exact A|].
      constructor; [reflexivity|]. constructor; [reflexivity|exact A'].
Qed.
Lemma blank_ascii w : blank w -> ascii w.
Proof. intros H. eapply Forall_impl; [|exact H]. intros c [<-|[<-|[<-|[<-|[]]]]]; reflexivity. Qed.
Lemma numeric_ascii t : numeric t -> ascii t.
Proof. intros [_ H]. eapply Forall_impl; [|exact H]. intros c. unfold digit. lia. Qed.

Scheme spells_mut := Minimality for spells Sort Prop
with entries_mut := Minimality for entries Sort Prop
with pairs_mut := Minimality for pairs Sort Prop.
Combined Scheme grammar_ind from spells_mut, entries_mut, pairs_mut.

Lemma utf8_bracket a p z : bN a < 128 -> bN z < 128 -> (utf8 (a :: p ++ [z]) <-> utf8 p).
Proof. intros A Z. rewrite utf8_ascii, utf8_at by assumption. rewrite utf8_nil_iff. tauto. Qed.
Lemma utf8_padded w t w' : blank w -> blank w' -> (utf8 (w ++ t ++ w') <-> utf8 t).
Proof. intros W W'. rewrite utf8_ascii_app by (now apply blank_ascii). apply utf8_app_ascii. now apply blank_ascii. Qed.
Lemma spells_utf8 :
  (forall j t, spells j t -> (utf8 t <-> strings_utf8 j)) /\
  (forall l t, entries l t -> (utf8 t <-> strings_utf8 (JArr l))) /\
  (forall l t, pairs l t -> (utf8 t <-> strings_utf8 (JObj l))).
Proof.
  assert (Q : bN x22 < 128) by reflexivity.
  apply grammar_ind.
  - rewrite <- utf8_iff. cbn. split; trivial.
  - rewrite <- utf8_iff. cbn. split; trivial.
  - rewrite <- utf8_iff. cbn. split; trivial.
  - intros n t H _ _. rewrite <- (app_nil_r t), (utf8_ascii_app t [] (numeric_ascii t H)), utf8_nil_iff. reflexivity.
  - intros x t H. rewrite utf8_bracket by exact Q. exact (chars_utf8 x t H []).
  - intros w W. rewrite utf8_bracket by reflexivity.
    rewrite <- (app_nil_r w), (utf8_ascii_app w [] (blank_ascii w W)), utf8_nil_iff. reflexivity.
  - intros l t _ IH. rewrite utf8_bracket by reflexivity. exact IH.
  - intros w W. rewrite utf8_bracket by reflexivity.
    rewrite <- (app_nil_r w), (utf8_ascii_app w [] (blank_ascii w W)), utf8_nil_iff. reflexivity.
  - intros l t _ IH. rewrite utf8_bracket by reflexivity. exact IH.
  - intros j t w w' W W' _ IH. rewrite utf8_padded by assumption. rewrite IH. cbn [strings_utf8 fold_right fst snd]. tauto.
  - intros j t w w' l u W W' _ IH _ IH'.
    replace (w ++ t ++ w' ++ x2c :: u) with ((w ++ t ++ w') ++ x2c :: u) by (rewrite <- !app_assoc; reflexivity).
    rewrite utf8_at by reflexivity. rewrite utf8_padded by assumption. rewrite IH, IH'. reflexivity.
  - intros k j n t w1 w2 w3 w4 W1 W2 W3 W4 K _ IH.
    rewrite utf8_ascii_app by (now apply blank_ascii). rewrite utf8_ascii by exact Q. rewrite utf8_at by exact Q.
    rewrite utf8_ascii_app by (now apply blank_ascii). rewrite utf8_ascii by reflexivity. rewrite utf8_padded by assumption.
    rewrite (chars_utf8 k n K []), IH. cbn [strings_utf8 fold_right fst snd app]. tauto.
  - intros k j n t w1 w2 w3 w4 l u W1 W2 W3 W4 K _ IH _ IH'.
    rewrite utf8_ascii_app by (now apply blank_ascii). rewrite utf8_ascii by exact Q. rewrite utf8_at by exact Q.
    rewrite utf8_ascii_app by (now apply blank_ascii). rewrite utf8_ascii by reflexivity.
    replace (w3 ++ t ++ w4 ++ x2c :: u) with ((w3 ++ t ++ w4) ++ x2c :: u) by (rewrite <- !app_assoc; reflexivity).
    rewrite utf8_at by reflexivity. rewrite utf8_padded by assumption.
    rewrite (chars_utf8 k n K []), IH, IH'. cbn [strings_utf8 fold_right fst snd app]. tauto.
Qed.

Lemma parse_utf8 t j : parse t = Some j -> (utf8 t <-> strings_utf8 j).
Proof.
  intros H. apply grammar in H as (w & u & w' & W & W' & S & ->). rewrite utf8_padded by assumption. now apply spells_utf8.
Qed.

(** ** The reader that checks *)
Fixpoint strings_ok_iff (j : json) : strings_ok j = true <-> strings_utf8 j.
Proof.
  destruct j as [ |b|n|t|l|l]; cbn [strings_ok strings_utf8]; [tauto|tauto|tauto|apply utf8_iff| |].
  - induction l as [|j l IH]; cbn [forallb fold_right]; [tauto|]. rewrite andb_true_iff, (strings_ok_iff j), IH. reflexivity.
  - induction l as [|[k j] l IH]; cbn [forallb fold_right fst snd]; [tauto|].
    rewrite !andb_true_iff, (strings_ok_iff j), IH, utf8_iff, and_assoc. reflexivity.
Qed.
Lemma checked_reader t j : parse_checked t = Some j <-> utf8 t /\ parse t = Some j.
Proof.
  unfold parse_checked. destruct (parse t) as [j'|] eqn:P.
  - rewrite (parse_utf8 t j' P), <- strings_ok_iff. destruct (strings_ok j'); split; [auto|tauto|discriminate|].
    intros [H _]. discriminate H.
  - split; [discriminate|]. intros [_ H]. discriminate H.
Qed.
