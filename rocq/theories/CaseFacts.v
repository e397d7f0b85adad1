(** * Capitals: how the texts of addresses and of bytes treat them. *)
From Coq Require Import List NArith Lia Bool.
From Verif Require Import Base BaseFacts Hex HexFacts Bech32 Spec SpecCodec LayoutFacts SpecEvents EventFacts.
Import ListNotations.

Lemma small_iff b : is_lower b = true <-> small b.
Proof. unfold is_lower, small. rewrite andb_true_iff, !N.leb_le. tauto. Qed.

Lemma lowers_iff a b : lowers a b <-> b = to_lower a.
Proof.
  unfold lowers, to_lower. destruct (is_upper a) eqn:E.
  - apply is_upper_iff in E as E'. split.
    + intros [[_ H]|[H _]]; [|contradiction]. rewrite <- H, nB_bN. reflexivity.
    + intros ->. left. split; [exact E'|]. apply bN_nB. unfold capital in E'. lia.
  - assert (E' : ~ capital a) by (intros H; apply is_upper_iff in H; congruence).
    split; [intros [[H _]|[_ H]]; [contradiction | exact H] | intros ->; right; split; [exact E' | reflexivity]].
Qed.
Lemma lowers_map a b : Forall2 lowers a b <-> b = map to_lower a.
Proof.
  split.
  - induction 1 as [|x y a b H _ IH]; [reflexivity|]. cbn [map]. apply lowers_iff in H. now subst.
  - intros ->. induction a as [|x a IH]; constructor; [now apply lowers_iff | exact IH].
Qed.

Lemma lower_sep b : byte_eqb (to_lower b) "1"%byte = byte_eqb b "1"%byte.
Proof. destruct b; reflexivity. Qed.
Lemma lower_print b : ((33 <=? bN (to_lower b)) && (bN (to_lower b) <=? 126))%bool = ((33 <=? bN b) && (bN b <=? 126))%bool.
Proof. destruct b; reflexivity. Qed.
Lemma lower_high b : (bN (to_lower b) <? 128) = (bN b <? 128).
Proof. destruct b; reflexivity. Qed.
Lemma lower_upper b : is_upper (to_lower b) = false.
Proof. destruct b; reflexivity. Qed.
Lemma lower_lower b : is_lower (to_lower b) = (is_lower b || is_upper b)%bool.
Proof. destruct b; reflexivity. Qed.
Lemma lower_twice b : to_lower (to_lower b) = to_lower b.
Proof. destruct b; reflexivity. Qed.
Lemma lower_rev b : char_rev (to_lower b) = char_rev b.
Proof. unfold char_rev. now rewrite lower_twice. Qed.
Lemma both_false b : is_lower b = true -> is_upper b = false.
Proof. destruct b; (reflexivity || discriminate). Qed.

Lemma rsplit_lower l :
  rsplit (map to_lower l) =
  match rsplit l with Some (h, d) => Some (map to_lower h, map to_lower d) | None => None end.
Proof.
  induction l as [|b l IH]; [reflexivity|]. cbn [map rsplit]. rewrite IH, lower_sep.
  destruct (rsplit l) as [[h d]|]; [reflexivity|]. destruct (byte_eqb b "1"%byte); reflexivity.
Qed.

Lemma lower_none l : existsb is_upper l = false -> map to_lower l = l.
Proof.
  induction l as [|b l IH]; [reflexivity|]. cbn [existsb map]. intros H. apply orb_false_iff in H as [H1 H2].
  rewrite (IH H2). unfold to_lower. now rewrite H1.
Qed.

Definition swapped (c : bcase) : bcase := match c with CNone => CNone | _ => CLower end.

Lemma check_hrp_lower h :
  existsb is_lower h = false ->
  check_hrp (map to_lower h) = (c <- check_hrp h ;; Ok (swapped c)).
Proof.
  intros Hl. unfold check_hrp. rewrite map_length.
  destruct (Nat.eqb (length h) 0 || negb (Nat.leb (length h) 83))%bool; [reflexivity|].
  assert (Hp : forallb (fun b => (33 <=? bN b) && (bN b <=? 126))%bool (map to_lower h)
             = forallb (fun b => (33 <=? bN b) && (bN b <=? 126))%bool h).
  { clear Hl. induction h as [|b h IH]; [reflexivity|]. cbn [map forallb]. now rewrite IH, lower_print. }
  rewrite Hp. destruct (negb _); [reflexivity|].
  assert (Hu : existsb is_upper (map to_lower h) = false).
  { clear. induction h as [|b h IH]; [reflexivity|]. cbn [map existsb]. now rewrite IH, lower_upper. }
  assert (Hs : existsb is_lower (map to_lower h) = existsb is_upper h).
  { clear - Hl. induction h as [|b h IH]; [reflexivity|]. cbn [map existsb] in *. apply orb_false_iff in Hl as [H1 H2].
    now rewrite (IH H2), lower_lower, H1. }
  rewrite Hu, Hs, Hl. destruct (existsb is_upper h); reflexivity.
Qed.

Lemma decode_chars_lower l : forall c,
  existsb is_lower l = false -> c <> CLower ->
  decode_chars (swapped c) (map to_lower l) = decode_chars c l.
Proof.
  induction l as [|b l IH]; intros c H Hc; [reflexivity|]. cbn [existsb map decode_chars] in *.
  apply orb_false_iff in H as [H1 H2]. rewrite lower_high, lower_lower, lower_rev, lower_upper, H1. cbn [orb].
  destruct (negb (bN b <? 128)); [reflexivity|].
  destruct (is_upper b).
  - destruct c; [|congruence|]; cbn [swapped bind]; destruct (char_rev b); try reflexivity;
      rewrite <- (IH CUpper H2) by discriminate; reflexivity.
  - cbn [bind]. destruct (char_rev b); [|reflexivity]. now rewrite (IH c H2 Hc).
Qed.

Lemma check_case h c :
  check_hrp h = Ok c ->
  c = match existsb is_upper h, existsb is_lower h with
      | true, _ => CUpper | false, true => CLower | false, false => CNone end /\
  (existsb is_upper h && existsb is_lower h)%bool = false.
Proof.
  unfold check_hrp. destruct (Nat.eqb _ _ || _)%bool; [discriminate|]. destruct (negb _); [discriminate|].
  destruct (existsb is_upper h), (existsb is_lower h); intros H; try discriminate H;
    apply Ok_inj in H; subst c; split; reflexivity.
Qed.

Lemma no_small l : Forall (fun b => ~ small b) l -> existsb is_lower l = false.
Proof.
  induction 1 as [|b l Hb _ IH]; [reflexivity|]. cbn [existsb]. rewrite IH, orb_false_r.
  destruct (is_lower b) eqn:E; [|reflexivity]. apply small_iff in E. contradiction.
Qed.

Lemma capitals_read text low :
  Forall (fun b => ~ small b) text -> Forall2 lowers text low ->
  bech32_decode text = bech32_decode low.
Proof.
  intros Hs Hl. apply lowers_map in Hl. subst low. unfold bech32_decode, b32_decode.
  rewrite rsplit_lower. destruct (rsplit text) as [[h d]|] eqn:Er; [|reflexivity].
  apply rsplit_inv in Er. subst text. apply Forall_app in Hs as [Hh Hd]. inversion_clear Hd as [|? ? _ Hd1].
  apply no_small in Hh, Hd1. rewrite check_hrp_lower by exact Hh.
  destruct (check_hrp h) as [c| |] eqn:Ec; [|reflexivity..]. cbn [bind].
  apply check_case in Ec as [Ec _]. rewrite Hh in Ec.
  assert (Hc : c <> CLower) by (rewrite Ec; destruct (existsb is_upper h); discriminate).
  rewrite decode_chars_lower by assumption.
  assert (En : hrp_norm (swapped c) (map to_lower h) = hrp_norm c h).
  { rewrite Ec. destruct (existsb is_upper h) eqn:Eu; cbn [swapped hrp_norm]; [reflexivity|]. now apply lower_none. }
  rewrite En. reflexivity.
Qed.

Lemma decode_chars_case l : forall c ds,
  decode_chars c l = Ok ds ->
  match c with
  | CUpper => existsb is_lower l = false
  | CLower => existsb is_upper l = false
  | CNone => (existsb is_upper l && existsb is_lower l)%bool = false
  end.
Proof.
  induction l as [|b l IH]; intros c ds; cbn [decode_chars existsb]; [destruct c; reflexivity|].
  destruct (negb (bN b <? 128)); [discriminate|]. intros H.
  apply bind_Ok_inv in H as (c' & H1 & H). destruct (char_rev b); [|discriminate H].
  apply bind_Ok_inv in H as (rest & H2 & _). apply IH in H2.
  destruct (is_lower b) eqn:El.
  - rewrite (both_false b El). destruct c; try discriminate H1; apply Ok_inj in H1 as <-; cbn [orb]; rewrite H2; reflexivity.
  - destruct (is_upper b); [destruct c; try discriminate H1|]; apply Ok_inj in H1 as <-; cbn [orb]; rewrite ?H2; try reflexivity.
    destruct c; exact H2.
Qed.

Lemma exists_upper l : Exists capital l -> existsb is_upper l = true.
Proof. intros H. apply Exists_exists in H as (b & Hb & Hc). apply existsb_exists. exists b. split; [exact Hb | now apply is_upper_iff]. Qed.
Lemma exists_small l : Exists small l -> existsb is_lower l = true.
Proof. intros H. apply Exists_exists in H as (b & Hb & Hc). apply existsb_exists. exists b. split; [exact Hb | now apply small_iff]. Qed.

Lemma mixed_refused text data : Exists capital text -> Exists small text -> bech32_decode text <> Ok data.
Proof.
  intros Hu Hs. apply exists_upper in Hu. apply exists_small in Hs. intros H.
  unfold bech32_decode, b32_decode in H.
  destruct (rsplit text) as [[h d]|] eqn:Er; [|discriminate H]. apply rsplit_inv in Er. subst text.
  rewrite existsb_app in Hu, Hs. cbn [existsb is_upper is_lower] in Hu, Hs.
  change (is_upper "1"%byte) with false in Hu. change (is_lower "1"%byte) with false in Hs. cbn [orb] in Hu, Hs.
  apply bind_Ok_inv in H as ([hh u5s] & H1 & _). apply bind_Ok_inv in H1 as (c & Hc & H1).
  apply bind_Ok_inv in H1 as (ds & Hds & _). apply check_case in Hc as [Ec Hc]. apply decode_chars_case in Hds.
  destruct (existsb is_upper h), (existsb is_lower h); try discriminate Hc; subst c; cbn [orb] in Hu, Hs;
    rewrite ?Hu, ?Hs in Hds; discriminate Hds.
Qed.

(** ** Bytes as hexadecimal text *)
Lemma hex_value_lower a x : hex_value a = Some x <-> x < 16 /\ to_lower a = hex_digit x.
Proof.
  split.
  - intros H.
    assert (G : match hex_value a with Some v => ((v <? 16) && byte_eqb (to_lower a) (hex_digit v))%bool | None => true end = true)
      by (clear; destruct a; reflexivity).
    rewrite H in G. apply andb_true_iff in G as [G1 G2]. apply N.ltb_lt in G1. apply byte_eqb_eq in G2. split; assumption.
  - intros [Hx H]. apply hex_digit_value in Hx. rewrite <- H in Hx.
    assert (G : hex_value (to_lower a) = hex_value a \/ hex_value (to_lower a) = None) by (clear; destruct a; left; reflexivity).
    destruct G as [G|G]; congruence.
Qed.

Lemma hex_exact text : forall data, hex_decode text = Ok data <-> Forall2 lowers text (hex_of data).
Proof.
  intros data. rewrite lowers_map, <- hex_of_encode. revert data.
  assert (G : forall n t, (length t <= n)%nat -> forall data, hex_decode t = Ok data <-> hex_encode data = map to_lower t).
  { induction n as [|n IH]; intros t Ht data.
    - destruct t; [|cbn in Ht; lia]. cbn [hex_decode map]. split; [intros H; apply Ok_inj in H as <-; reflexivity|].
      destruct data; [reflexivity | discriminate].
    - destruct t as [|a [|b t]].
      + cbn [hex_decode map]. split; [intros H; apply Ok_inj in H as <-; reflexivity|].
        destruct data; [reflexivity | discriminate].
      + cbn [hex_decode map]. split; [discriminate|]. destruct data; discriminate.
      + cbn [hex_decode map]. cbn [length] in Ht. split.
        * destruct (hex_value a) as [x|] eqn:Ea; [|discriminate]. destruct (hex_value b) as [y|] eqn:Eb; [|discriminate].
          intros H. apply bind_Ok_inv in H as (r & Hr & H). apply Ok_inj in H as <-.
          apply hex_value_lower in Ea as [Hx Ea], Eb as [Hy Eb]. apply IH in Hr; [|lia].
          cbn [hex_encode]. rewrite bN_nB by lia. rewrite Ea, Eb, <- Hr.
          replace ((x * 16 + y) / 16) with x by (symmetry; rewrite N.div_add_l, N.div_small by lia; lia).
          replace ((x * 16 + y) mod 16) with y; [reflexivity|].
          rewrite N.add_comm, N.mod_add, N.mod_small by lia. reflexivity.
        * destruct data as [|c data]; [discriminate|]. cbn [hex_encode]. intros H. injection H as H1 H2 H3.
          pose proof (bN_lt c) as Hb.
          assert (Ea : hex_value a = Some (bN c / 16)) by (apply hex_value_lower; split; [apply N.div_lt_upper_bound; lia | congruence]).
          assert (Eb : hex_value b = Some (bN c mod 16)) by (apply hex_value_lower; split; [apply N.mod_lt; lia | congruence]).
          rewrite Ea, Eb. apply IH in H3; [|lia]. rewrite H3. cbn [bind]. do 2 f_equal.
          rewrite N.mul_comm, <- N.div_mod'. apply nB_bN. }
  intros data. apply (G (length text)). lia.
Qed.
