(** * Hex text: round trip and order. *)
From Coq Require Import List NArith Lia Bool.
From Verif Require Import Base BaseFacts Hex.
Import ListNotations.

Lemma hex_digit_value n : n < 16 -> hex_value (hex_digit n) = Some n.
Proof.
  intros H. assert (Hn : In n [0;1;2;3;4;5;6;7;8;9;10;11;12;13;14;15]) by (cbn; lia).
  cbn in Hn. repeat (destruct Hn as [<-|Hn]; [reflexivity|]). destruct Hn.
Qed.

Lemma hex_digit_lt a b : a < 16 -> b < 16 -> a < b -> bN (hex_digit a) < bN (hex_digit b).
Proof.
  intros Ha Hb Hab. unfold hex_digit.
  destruct (a <? 10) eqn:E1, (b <? 10) eqn:E2; rewrite !bN_nB by lia; lia.
Qed.

Lemma hex_decode_encode l : hex_decode (hex_encode l) = Ok l.
Proof.
  induction l as [|b l IH]; cbn [hex_encode hex_decode]; [reflexivity|].
  pose proof (bN_lt b) as Hb.
  rewrite !hex_digit_value by (first [apply N.mod_lt; lia | apply N.div_lt_upper_bound; lia]).
  rewrite IH. cbn [bind]. do 2 f_equal.
  rewrite N.mul_comm, <- N.div_mod' . apply nB_bN.
Qed.

Lemma hex_encode_inj a b : hex_encode a = hex_encode b -> a = b.
Proof.
  intros H. apply (f_equal hex_decode) in H. rewrite !hex_decode_encode in H. now apply Ok_inj in H.
Qed.

Lemma hex_encode_ltb a b : bytes_ltb a b = true -> bytes_ltb (hex_encode a) (hex_encode b) = true.
Proof.
  revert b. induction a as [|x a IH]; intros [|y b]; cbn [hex_encode bytes_ltb]; try discriminate; auto.
  pose proof (bN_lt x) as Hx. pose proof (bN_lt y) as Hy.
  assert (H1 : bN x / 16 < 16) by (apply N.div_lt_upper_bound; lia).
  assert (H2 : bN y / 16 < 16) by (apply N.div_lt_upper_bound; lia).
  assert (H3 : bN x mod 16 < 16) by (apply N.mod_lt; lia).
  assert (H4 : bN y mod 16 < 16) by (apply N.mod_lt; lia).
  assert (Ex : bN x = 16 * (bN x / 16) + bN x mod 16) by (apply N.div_mod'; lia).
  assert (Ey : bN y = 16 * (bN y / 16) + bN y mod 16) by (apply N.div_mod'; lia).
  set (hx := bN x / 16) in *. set (lx := bN x mod 16) in *.
  set (hy := bN y / 16) in *. set (ly := bN y mod 16) in *.
  destruct (bN x <? bN y) eqn:E.
  - intros _. apply N.ltb_lt in E.
    destruct (N.lt_trichotomy hx hy) as [Hh|[Hh|Hh]].
    + pose proof (hex_digit_lt hx hy H1 H2 Hh) as Hd. apply N.ltb_lt in Hd. now rewrite Hd.
    + rewrite Hh. rewrite N.ltb_irrefl.
      assert (Hl : lx < ly) by (clearbody hx lx hy ly; lia).
      pose proof (hex_digit_lt lx ly H3 H4 Hl) as Hd. apply N.ltb_lt in Hd. now rewrite Hd.
    + clearbody hx lx hy ly. lia.
  - destruct (bN y <? bN x) eqn:E2; [discriminate|]. intros H.
    apply N.ltb_ge in E, E2.
    assert (hx = hy /\ lx = ly) as [-> ->] by (clearbody hx lx hy ly; lia).
    rewrite !N.ltb_irrefl. auto.
Qed.
