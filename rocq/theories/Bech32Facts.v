(** * Bech32: decoding inverts encoding. *)
From Coq Require Import List NArith Lia Bool Arith.
From Verif Require Import Base BaseFacts Bech32 Metadata.
Import ListNotations.

(** ** Bits *)
Lemma bits_length k n : length (bits k n) = k.
Proof. induction k; simpl; auto. Qed.

Lemma of_bits_aux l acc :
  fold_left (fun acc (b : bool) => 2 * acc + (if b then 1 else 0)) l acc
  = acc * 2 ^ N.of_nat (length l) + of_bits l.
Proof.
  unfold of_bits. revert acc. induction l as [|b l IH]; intros acc.
  - cbn. lia.
  - cbn [fold_left length]. rewrite IH, (IH (2 * 0 + _)).
    rewrite Nat2N.inj_succ, N.pow_succ_r'. destruct b; lia.
Qed.

Lemma of_bits_cons b l :
  of_bits (b :: l) = (if b then 1 else 0) * 2 ^ N.of_nat (length l) + of_bits l.
Proof. unfold of_bits at 1. cbn [fold_left]. rewrite of_bits_aux. destruct b; lia. Qed.

Lemma of_bits_lt l : of_bits l < 2 ^ N.of_nat (length l).
Proof.
  induction l as [|b l IH].
  - cbn. lia.
  - rewrite of_bits_cons. cbn [length]. rewrite Nat2N.inj_succ, N.pow_succ_r'.
    destruct b; lia.
Qed.

Lemma bits_ext k a b :
  (forall i, i < N.of_nat k -> N.testbit a i = N.testbit b i) -> bits k a = bits k b.
Proof.
  induction k as [|k IH]; intros H; [reflexivity|].
  cbn [bits]. f_equal.
  - apply H. lia.
  - apply IH. intros i Hi. apply H. lia.
Qed.

Lemma bits_of_bits l : bits (length l) (of_bits l) = l.
Proof.
  induction l as [|b l IH]; [reflexivity|].
  cbn [length bits]. rewrite of_bits_cons.
  pose proof (of_bits_lt l) as Hlt.
  assert (Hz : 2 ^ N.of_nat (length l) <> 0) by (apply N.pow_nonzero; lia).
  f_equal.
  - rewrite N.testbit_eqb.
    rewrite N.div_add_l by exact Hz.
    rewrite (N.div_small (of_bits l)) by exact Hlt. rewrite N.add_0_r.
    destruct b; reflexivity.
  - transitivity (bits (length l) (of_bits l)); [|exact IH]. apply bits_ext. intros i Hi.
    rewrite <- (N.mod_pow2_bits_low _ (N.of_nat (length l)) i) by exact Hi.
    rewrite N.add_comm, N.mod_add by exact Hz.
    now rewrite N.mod_pow2_bits_low.
Qed.

Lemma bits_of_bits_len k l : length l = k -> bits k (of_bits l) = l.
Proof. intros <-. apply bits_of_bits. Qed.

Lemma of_bits_bits k n : n < 2 ^ N.of_nat k -> of_bits (bits k n) = n.
Proof.
  revert n. induction k as [|k IH]; intros n Hn.
  - cbn in *. lia.
  - cbn [bits]. rewrite of_bits_cons, bits_length.
    rewrite Nat2N.inj_succ, N.pow_succ_r' in Hn.
    assert (Hz : 2 ^ N.of_nat k <> 0) by (apply N.pow_nonzero; lia).
    set (p := 2 ^ N.of_nat k) in *.
    assert (E : bits k n = bits k (n mod p)).
    { apply bits_ext. intros i Hi. unfold p. now rewrite N.mod_pow2_bits_low. }
    rewrite E, IH by (apply N.mod_lt; exact Hz).
    rewrite N.testbit_eqb. fold p.
    pose proof (N.div_mod n p Hz) as D.
    assert (Hq : n / p < 2) by (apply N.div_lt_upper_bound; lia).
    assert (Hm : (n / p) mod 2 = n / p) by (apply N.mod_small; exact Hq).
    rewrite Hm. clear Hm E Hn. generalize dependent (n mod p). intros r D.
    generalize dependent (n / p). intros q D Hq. subst n.
    destruct (q =? 1) eqn:E1; [apply N.eqb_eq in E1|apply N.eqb_neq in E1].
    + subst q. lia.
    + assert (q = 0) by lia. subst q. lia.
Qed.

Lemma bits_of_bytes_length raw : length (bits_of_bytes raw) = (8 * length raw)%nat.
Proof.
  unfold bits_of_bytes. induction raw as [|b raw IH]; [reflexivity|].
  cbn [flat_map length]. rewrite app_length, IH, bits_length. lia.
Qed.

(** ** Regrouping *)
Lemma group_pad_bits fuel l :
  (length l <= fuel)%nat ->
  exists p, (p < 5)%nat /\ bits_of_u5 (group_pad fuel 5 l) = l ++ repeat false p.
Proof.
  revert l. induction fuel as [|fuel IH]; intros l Hl.
  - destruct l; [|simpl in Hl; lia]. exists 0%nat. split; [lia|reflexivity].
  - destruct l as [|b l]; [exists 0%nat; split; [lia|reflexivity]|].
    set (L := b :: l) in *. cbn [group_pad]. unfold L at 1. cbv iota.
    fold L.
    assert (HL : (1 <= length L)%nat) by (unfold L; simpl; lia).
    destruct (IH (skipn 5 L)) as (p & Hp & E).
    { rewrite skipn_length. lia. }
    unfold bits_of_u5 in *. cbn [flat_map]. rewrite E.
    rewrite bits_of_bits_len.
    2:{ rewrite app_length, repeat_length, firstn_length. lia. }
    destruct (Nat.le_gt_cases 5 (length L)) as [H5|H5].
    + exists p. split; [exact Hp|].
      replace (5 - length (firstn 5 L))%nat with 0%nat by (rewrite firstn_length; lia).
      cbn [repeat]. rewrite app_nil_r, app_assoc, firstn_skipn. reflexivity.
    + exists (5 - length L)%nat. split; [lia|].
      rewrite firstn_all2 by lia. rewrite skipn_all2 in E |- * by lia.
      destruct p as [|p].
      * cbn [repeat app]. now rewrite app_nil_r.
      * exfalso. destruct fuel; simpl in E; discriminate.
Qed.

Lemma group_strict_bits fuel raw p :
  (length (bits_of_bytes raw) < fuel)%nat -> (p < 5)%nat ->
  group_strict fuel (bits_of_bytes raw ++ repeat false p) = Ok raw.
Proof.
  revert raw. induction fuel as [|fuel IH]; intros raw Hf Hp; [lia|].
  destruct raw as [|b raw].
  - cbn [bits_of_bytes flat_map app group_strict].
    rewrite repeat_length.
    assert (E1 : Nat.leb 8 p = false) by (apply Nat.leb_gt; lia).
    assert (E2 : Nat.leb 5 p = false) by (apply Nat.leb_gt; lia).
    rewrite E1, E2. cbn [orb].
    assert (E3 : existsb (fun b => b) (repeat false p) = false).
    { clear. induction p; simpl; auto. }
    now rewrite E3.
  - cbn [group_strict]. unfold bits_of_bytes in *. cbn [flat_map] in *.
    rewrite app_length, bits_length in Hf. rewrite <- app_assoc.
    assert (E1 : Nat.leb 8 (length (bits 8 (bN b) ++ flat_map (fun b => bits 8 (bN b)) raw ++ repeat false p)) = true).
    { apply Nat.leb_le. rewrite app_length, bits_length. lia. }
    rewrite E1.
    rewrite skipn_app_exact, firstn_app_exact by apply bits_length.
    rewrite IH by lia. cbn [bind].
    rewrite of_bits_bits by apply bN_lt. now rewrite nB_bN.
Qed.

Lemma from_to_base32 raw : from_base32 (to_base32 raw) = Ok raw.
Proof.
  unfold from_base32, to_base32.
  destruct (group_pad_bits (length (bits_of_bytes raw)) (bits_of_bytes raw) (Nat.le_refl _))
    as (p & Hp & E).
  rewrite E. apply group_strict_bits; [|exact Hp].
  rewrite app_length. lia.
Qed.

Lemma group_pad_lt fuel l : Forall (fun v => v < 32) (group_pad fuel 5 l).
Proof.
  revert l. induction fuel as [|fuel IH]; intros l; [constructor|].
  destruct l as [|b l]; [constructor|]. cbn [group_pad]. constructor; [|apply IH].
  set (g := firstn 5 (b :: l)).
  pose proof (of_bits_lt (g ++ repeat false (5 - length g))) as H.
  rewrite app_length, repeat_length in H.
  assert (length g <= 5)%nat by (unfold g; rewrite firstn_length; lia).
  replace (length g + (5 - length g))%nat with 5%nat in H by lia. exact H.
Qed.

Lemma to_base32_lt raw : Forall (fun v => v < 32) (to_base32 raw).
Proof. apply group_pad_lt. Qed.

(** ** The checksum is linear *)
Lemma bit_lxor (c d : bool) g :
  (if xorb c d then g else 0) = N.lxor (if c then g else 0) (if d then g else 0).
Proof.
  destruct c, d; simpl; rewrite ?N.lxor_nilpotent, ?N.lxor_0_r, ?N.lxor_0_l; reflexivity.
Qed.

Lemma lxor_swap4 a b c d :
  N.lxor (N.lxor a b) (N.lxor c d) = N.lxor (N.lxor a c) (N.lxor b d).
Proof.
  apply N.bits_inj. intros i. rewrite !N.lxor_spec.
  destruct (N.testbit a i), (N.testbit b i), (N.testbit c i), (N.testbit d i); reflexivity.
Qed.

Lemma lxor_swap10 a1 a2 a3 a4 a5 b1 b2 b3 b4 b5 :
  N.lxor (N.lxor a1 b1) (N.lxor (N.lxor a2 b2) (N.lxor (N.lxor a3 b3)
    (N.lxor (N.lxor a4 b4) (N.lxor a5 b5))))
  = N.lxor (N.lxor a1 (N.lxor a2 (N.lxor a3 (N.lxor a4 a5))))
           (N.lxor b1 (N.lxor b2 (N.lxor b3 (N.lxor b4 b5)))).
Proof.
  rewrite (lxor_swap4 a1 (N.lxor a2 _) b1). f_equal.
  rewrite (lxor_swap4 a2 (N.lxor a3 _) b2). f_equal.
  rewrite (lxor_swap4 a3 (N.lxor a4 _) b3). f_equal.
  apply lxor_swap4.
Qed.

Lemma gen_lxor a b : gen (N.lxor a b) = N.lxor (gen a) (gen b).
Proof. unfold gen. rewrite !N.lxor_spec, !bit_lxor. apply lxor_swap10. Qed.

Lemma land_lxor_l a b c : N.land (N.lxor a b) c = N.lxor (N.land a c) (N.land b c).
Proof.
  apply N.bits_inj. intros i. rewrite !N.land_spec, !N.lxor_spec, !N.land_spec.
  destruct (N.testbit a i), (N.testbit b i), (N.testbit c i); reflexivity.
Qed.

Lemma poly_shift_lxor a b : poly_shift (N.lxor a b) = N.lxor (poly_shift a) (poly_shift b).
Proof.
  unfold poly_shift. rewrite N.shiftr_lxor, gen_lxor, land_lxor_l, N.shiftl_lxor.
  apply lxor_swap4.
Qed.

Lemma poly_shift_small x : x < 2 ^ 25 -> poly_shift x = N.shiftl x 5.
Proof.
  intros H. unfold poly_shift.
  replace 0x1ffffff with (N.ones 25) by reflexivity.
  rewrite N.land_ones, N.mod_small by exact H.
  rewrite N.shiftr_div_pow2, N.div_small by exact H.
  change (gen 0) with 0. apply N.lxor_0_r.
Qed.

Lemma gen_lt b : gen b < 2 ^ 30.
Proof.
  assert (H : N.land (gen b) (N.ones 30) = gen b).
  { unfold gen.
    destruct (N.testbit b 0), (N.testbit b 1), (N.testbit b 2), (N.testbit b 3), (N.testbit b 4);
      reflexivity. }
  rewrite <- H, N.land_ones. apply N.mod_lt. discriminate.
Qed.

Lemma lxor_lt a b k : a < 2 ^ k -> b < 2 ^ k -> N.lxor a b < 2 ^ k.
Proof.
  intros Ha Hb.
  assert (H : N.land (N.lxor a b) (N.ones k) = N.lxor a b).
  { rewrite land_lxor_l, !N.land_ones, !N.mod_small by assumption. reflexivity. }
  rewrite <- H, N.land_ones. apply N.mod_lt. apply N.pow_nonzero. discriminate.
Qed.

Lemma poly_shift_lt c : poly_shift c < 2 ^ 30.
Proof.
  unfold poly_shift. apply lxor_lt; [|apply gen_lt].
  rewrite N.shiftl_mul_pow2.
  replace 0x1ffffff with (N.ones 25) by reflexivity.
  rewrite N.land_ones.
  assert (c mod 2 ^ 25 < 2 ^ 25) by (apply N.mod_lt; discriminate).
  change (2 ^ 30) with (2 ^ 25 * 2 ^ 5). nia.
Qed.

(** appending the next 5-bit digit of [m] *)
Lemma next_digit m k :
  N.lxor (N.shiftl (N.shiftr m (k + 5)) 5) (N.land (N.shiftr m k) 31) = N.shiftr m k.
Proof.
  apply N.bits_inj. intros i.
  rewrite N.lxor_spec, N.land_spec, N.shiftr_spec'.
  replace 31 with (N.ones 5) by reflexivity.
  destruct (N.lt_ge_cases i 5) as [H|H].
  - rewrite N.shiftl_spec_low by exact H. rewrite N.ones_spec_low by exact H.
    now rewrite andb_true_r, xorb_false_l.
  - rewrite N.shiftl_spec_high' by exact H. rewrite N.ones_spec_high by exact H.
    rewrite N.shiftr_spec', andb_false_r, xorb_false_r. f_equal. lia.
Qed.

Lemma step_digit S m k :
  N.shiftr m (k + 5) < 2 ^ 25 ->
  poly_step (N.lxor S (N.shiftr m (k + 5))) (N.land (N.shiftr m k) 31)
  = N.lxor (poly_shift S) (N.shiftr m k).
Proof.
  intros H. unfold poly_step. rewrite poly_shift_lxor, (poly_shift_small _ H).
  rewrite N.lxor_assoc. f_equal. apply next_digit.
Qed.

Lemma shiftr_lt m a b : m < 2 ^ (a + b) -> N.shiftr m a < 2 ^ b.
Proof.
  intros H. rewrite N.shiftr_div_pow2. apply N.div_lt_upper_bound.
  - apply N.pow_nonzero. discriminate.
  - now rewrite <- N.pow_add_r.
Qed.

Lemma poly_digits S m :
  m < 2 ^ 30 ->
  fold_left poly_step (map (fun k => N.land (N.shiftr m k) 31) [25; 20; 15; 10; 5; 0]) S
  = N.lxor (fold_left poly_step [0;0;0;0;0;0] S) m.
Proof.
  intros Hm.
  assert (H30 : N.shiftr m 30 = 0).
  { rewrite N.shiftr_div_pow2. now apply N.div_small. }
  cbn [map fold_left].
  replace (poly_step S (N.land (N.shiftr m 25) 31))
    with (N.lxor (poly_shift S) (N.shiftr m 25)).
  2:{ rewrite <- (step_digit S m 25).
      - change (25 + 5) with 30. rewrite H30, N.lxor_0_r. reflexivity.
      - change (25 + 5) with 30. rewrite H30. reflexivity. }
  change 25 with (20 + 5) at 1. rewrite step_digit by (apply shiftr_lt; apply (N.lt_le_trans _ _ _ Hm); discriminate).
  change 20 with (15 + 5) at 1. rewrite step_digit by (apply shiftr_lt; apply (N.lt_le_trans _ _ _ Hm); discriminate).
  change 15 with (10 + 5) at 1. rewrite step_digit by (apply shiftr_lt; apply (N.lt_le_trans _ _ _ Hm); discriminate).
  change 10 with (5 + 5) at 1. rewrite step_digit by (apply shiftr_lt; apply (N.lt_le_trans _ _ _ Hm); discriminate).
  change 5 with (0 + 5) at 1. rewrite step_digit by (apply shiftr_lt; apply (N.lt_le_trans _ _ _ Hm); discriminate).
  rewrite N.shiftr_0_r. unfold poly_step. now rewrite !N.lxor_0_r.
Qed.

Lemma polymod_app a b : polymod (a ++ b) = fold_left poly_step b (polymod a).
Proof. unfold polymod. apply fold_left_app. Qed.

Lemma checksum_valid hrp data :
  polymod (hrp_expand hrp ++ data ++ checksum hrp data) = bech32_const.
Proof.
  unfold checksum. rewrite !app_assoc, polymod_app.
  rewrite poly_digits.
  - rewrite <- polymod_app, <- N.lxor_assoc, N.lxor_nilpotent, N.lxor_0_l. reflexivity.
  - rewrite polymod_app. cbn [fold_left].
    apply lxor_lt; [|reflexivity]. unfold poly_step at 1. rewrite N.lxor_0_r. apply poly_shift_lt.
Qed.

Lemma checksum_length hrp data : length (checksum hrp data) = 6%nat.
Proof. unfold checksum. now rewrite map_length. Qed.

Lemma checksum_lt hrp data : Forall (fun v => v < 32) (checksum hrp data).
Proof.
  unfold checksum. apply Forall_forall. intros v Hv.
  apply in_map_iff in Hv as (k & <- & _).
  replace 31 with (N.ones 5) by reflexivity. rewrite N.land_ones. apply N.mod_lt. discriminate.
Qed.

(** ** Characters *)
Definition sym (v : N) : byte := nth (N.to_nat v) charset x00.

Definition sym_ok (v : N) : bool :=
  match char_rev (sym v) with
  | Some w => (w =? v) && (bN (sym v) <? 128) && negb (is_upper (sym v))
              && negb (byte_eqb (sym v) "1"%byte)
  | None => false
  end.

Lemma sym_ok_all : forallb sym_ok (map N.of_nat (seq 0 32)) = true.
Proof. vm_compute. reflexivity. Qed.

Lemma sym_spec v : v < 32 ->
  char_rev (sym v) = Some v /\ (bN (sym v) <? 128) = true /\
  is_upper (sym v) = false /\ byte_eqb (sym v) "1"%byte = false.
Proof.
  intros H. pose proof sym_ok_all as A. rewrite forallb_forall in A.
  assert (Hin : In v (map N.of_nat (seq 0 32))).
  { apply in_map_iff. exists (N.to_nat v). split; [apply N2Nat.id|]. apply in_seq. lia. }
  specialize (A v Hin). unfold sym_ok in A.
  destruct (char_rev (sym v)) as [w|]; [|discriminate].
  repeat (apply andb_true_iff in A as [A ?]).
  apply N.eqb_eq in A as ->.
  repeat match goal with H : negb _ = true |- _ => apply negb_true_iff in H end.
  auto.
Qed.

Lemma decode_chars_syms c l :
  c <> CUpper -> Forall (fun v => v < 32) l -> decode_chars c (map sym l) = Ok l.
Proof.
  intros Hc HF. revert c Hc. induction HF as [|v l Hv HF IH]; intros c Hc; [reflexivity|].
  cbn [map decode_chars].
  destruct (sym_spec v Hv) as (H1 & H2 & H3 & H4).
  rewrite H2. cbn [negb]. rewrite H1, H3.
  destruct (is_lower (sym v)).
  - destruct c; try congruence; cbn [bind]; rewrite IH by discriminate; reflexivity.
  - destruct c; try congruence; cbn [bind]; rewrite IH by discriminate; reflexivity.
Qed.

Lemma rsplit_no1 l : Forall (fun b => byte_eqb b "1"%byte = false) l -> rsplit l = None.
Proof.
  induction 1 as [|b l Hb HF IH]; [reflexivity|]. cbn [rsplit]. now rewrite IH, Hb.
Qed.

Lemma rsplit_sep h d :
  Forall (fun b => byte_eqb b "1"%byte = false) d ->
  rsplit (h ++ "1"%byte :: d) = Some (h, d).
Proof.
  intros Hd. induction h as [|b h IH].
  - cbn [app rsplit]. now rewrite (rsplit_no1 d Hd).
  - cbn [app rsplit]. now rewrite IH.
Qed.

(** ** Encoding then decoding *)
Definition hrp_ok (hrp : str) : Prop :=
  check_hrp hrp = Ok CLower \/ check_hrp hrp = Ok CNone.

Lemma b32_encode_ok hrp data :
  hrp_ok hrp ->
  b32_encode hrp data = Ok (hrp ++ "1"%byte :: map sym (data ++ checksum hrp data)).
Proof. intros [H|H]; unfold b32_encode; rewrite H; reflexivity. Qed.

Lemma b32_decode_encode hrp data e :
  hrp_ok hrp -> Forall (fun v => v < 32) data ->
  b32_encode hrp data = Ok e -> b32_decode e = Ok (hrp, data).
Proof.
  intros Hh Hd He. rewrite b32_encode_ok in He by exact Hh. apply Ok_inj in He as <-.
  assert (HF : Forall (fun v => v < 32) (data ++ checksum hrp data)).
  { apply Forall_app. split; [exact Hd|apply checksum_lt]. }
  unfold b32_decode. rewrite rsplit_sep.
  2:{ apply Forall_map. eapply Forall_impl; [|exact HF]. intros v Hv.
      now apply sym_spec in Hv as (_ & _ & _ & H). }
  assert (Hc : exists c, check_hrp hrp = Ok c /\ c <> CUpper).
  { destruct Hh as [H|H]; rewrite H; eexists; (split; [reflexivity|discriminate]). }
  destruct Hc as (c & Hc & Hcu). rewrite Hc. cbn [bind].
  rewrite decode_chars_syms by assumption. cbn [bind].
  assert (El : Nat.leb 6 (length (data ++ checksum hrp data)) = true).
  { apply Nat.leb_le. rewrite app_length, checksum_length. lia. }
  rewrite El. cbn [negb].
  assert (En : hrp_norm c hrp = hrp) by (destruct c; [congruence|reflexivity|reflexivity]).
  rewrite En, checksum_valid. cbn [N.eqb orb].
  rewrite app_length, checksum_length.
  replace (length data + 6 - 6)%nat with (length data) by lia.
  rewrite firstn_app_exact by reflexivity. reflexivity.
Qed.

Lemma b32_roundtrip hrp raw e :
  hrp_ok hrp -> b32_encode hrp (to_base32 raw) = Ok e -> bech32_decode e = Ok raw.
Proof.
  intros Hh He. unfold bech32_decode.
  rewrite (b32_decode_encode hrp (to_base32 raw)) by auto using to_base32_lt.
  cbn [bind]. apply from_to_base32.
Qed.

(** The account an address text stands for: 32 bytes with twelve leading zero
    bytes mean the 20-byte account. *)
Definition account (raw : bytes) : bytes :=
  if (Nat.eqb (length raw) 32 && bytes_eqb (firstn 12 raw) (zeros 12))%bool
  then skipn 12 raw else raw.

Lemma of_be_zero l : of_be l = 0 <-> l = zeros (length l).
Proof.
  induction l as [|b l IH].
  - split; reflexivity.
  - rewrite of_be_cons. cbn [length]. change (zeros (S (length l))) with (x00 :: zeros (length l)).
    assert (Hz : 256 ^ N.of_nat (length l) <> 0) by (apply N.pow_nonzero; discriminate).
    split.
    + intros H. assert (H1 : bN b = 0) by nia. assert (H2 : of_be l = 0) by nia.
      apply IH in H2. f_equal; [|exact H2]. apply bN_inj. exact H1.
    + intros H. injection H as -> Hl. apply IH in Hl. rewrite Hl. change (bN x00) with 0. lia.
Qed.

Lemma bech32_encode_spec hrp raw :
  (length raw = 32%nat \/ length raw = 20%nat) ->
  bech32_encode hrp raw = b32_encode hrp (to_base32 (account raw)).
Proof.
  intros H. unfold bech32_encode, account.
  assert (E : (negb (Nat.eqb (length raw) 32) && negb (Nat.eqb (length raw) 20))%bool = false).
  { destruct H as [-> | ->]; reflexivity. }
  rewrite E.
  destruct (Nat.eqb (length raw) 32) eqn:E32; cbn [andb]; [|reflexivity].
  apply Nat.eqb_eq in E32.
  assert (L12 : length (firstn 12 raw) = 12%nat) by (rewrite firstn_length; lia).
  destruct (of_be (firstn 12 raw) =? 0) eqn:Ez.
  - apply N.eqb_eq, of_be_zero in Ez. rewrite L12 in Ez. rewrite Ez, bytes_eqb_refl. reflexivity.
  - apply N.eqb_neq in Ez.
    destruct (bytes_eqb (firstn 12 raw) (zeros 12)) eqn:Eb; [|reflexivity].
    apply bytes_eqb_eq in Eb. exfalso. apply Ez. apply of_be_zero. now rewrite L12.
Qed.

Lemma bech32_encode_total hrp raw :
  hrp_ok hrp -> (length raw = 32%nat \/ length raw = 20%nat) ->
  exists e, bech32_encode hrp raw = Ok e.
Proof.
  intros Hh Hl. rewrite bech32_encode_spec by exact Hl. rewrite b32_encode_ok by exact Hh. eauto.
Qed.

Lemma bech32_encode_len hrp raw e :
  bech32_encode hrp raw = Ok e -> length raw = 32%nat \/ length raw = 20%nat.
Proof.
  unfold bech32_encode. destruct (Nat.eqb (length raw) 32) eqn:E1.
  - apply Nat.eqb_eq in E1. auto.
  - destruct (Nat.eqb (length raw) 20) eqn:E2; [apply Nat.eqb_eq in E2; auto|].
    cbn. discriminate.
Qed.

Lemma bech32_decode_encode hrp raw e :
  hrp_ok hrp -> bech32_encode hrp raw = Ok e -> bech32_decode e = Ok (account raw).
Proof.
  intros Hh He. pose proof (bech32_encode_len _ _ _ He) as Hl.
  rewrite bech32_encode_spec in He by exact Hl. eapply b32_roundtrip; eauto.
Qed.

Lemma account_len raw :
  (length raw = 32%nat \/ length raw = 20%nat) -> (length (account raw) <= 32)%nat.
Proof.
  intros H. unfold account. destruct (_ && _)%bool; rewrite ?skipn_length; lia.
Qed.

Lemma pad_account raw :
  (length raw = 32%nat \/ length raw = 20%nat) -> pad32 (account raw) = pad32 raw.
Proof.
  intros H. unfold account.
  destruct (Nat.eqb (length raw) 32) eqn:E; cbn [andb]; [|reflexivity].
  apply Nat.eqb_eq in E.
  destruct (bytes_eqb (firstn 12 raw) (zeros 12)) eqn:Eb; [|reflexivity].
  apply bytes_eqb_eq in Eb.
  rewrite (pad32_32 raw) by exact E.
  rewrite pad32_ok by (rewrite skipn_length; lia).
  rewrite skipn_length, E. change (32 - (32 - 12))%nat with 12%nat.
  rewrite <- Eb. now rewrite firstn_skipn.
Qed.

Lemma bech32_h256_encode hrp raw e :
  hrp_ok hrp -> bech32_encode hrp raw = Ok e -> bech32_to_h256 e = pad32 raw.
Proof.
  intros Hh He. pose proof (bech32_encode_len _ _ _ He) as Hl.
  unfold bech32_to_h256. rewrite (bech32_decode_encode hrp raw e Hh He). cbn [bind].
  now apply pad_account.
Qed.

(** Two 32-byte recipients never share an address text. *)
Lemma bech32_encode_inj hrp a b e :
  hrp_ok hrp -> length a = 32%nat -> length b = 32%nat ->
  bech32_encode hrp a = Ok e -> bech32_encode hrp b = Ok e -> a = b.
Proof.
  intros Hh Ha Hb Ea Eb.
  apply bech32_h256_encode in Ea; [|exact Hh]. apply bech32_h256_encode in Eb; [|exact Hh].
  rewrite Ea in Eb. rewrite !pad32_32 in Eb by assumption. now apply Ok_inj in Eb.
Qed.

(** Lower-case ASCII prefixes are valid. *)
Lemma hrp_ok_lower hrp :
  (1 <= length hrp <= 83)%nat -> forallb is_lower hrp = true -> hrp_ok hrp.
Proof.
  intros Hl Hf. left. unfold check_hrp.
  assert (E1 : Nat.eqb (length hrp) 0 = false) by (apply Nat.eqb_neq; lia).
  assert (E2 : Nat.leb (length hrp) 83 = true) by (apply Nat.leb_le; lia).
  rewrite E1, E2. cbn [negb orb].
  rewrite forallb_forall in Hf.
  assert (E3 : forallb (fun b => (33 <=? bN b) && (bN b <=? 126))%bool hrp = true).
  { apply forallb_forall. intros b Hb. apply Hf in Hb. unfold is_lower in Hb. lia. }
  rewrite E3. cbn [negb].
  assert (E4 : existsb is_upper hrp = false).
  { apply not_true_is_false. intros C. apply existsb_exists in C as (b & Hb & Hu).
    apply Hf in Hb. unfold is_lower, is_upper in *. lia. }
  rewrite E4.
  destruct hrp as [|b hrp]; [simpl in Hl; lia|].
  assert (E5 : existsb is_lower (b :: hrp) = true).
  { cbn [existsb]. rewrite (Hf b) by (left; reflexivity). reflexivity. }
  now rewrite E5.
Qed.

(** ** Refund addresses of gas metadata *)
Definition sixteen_zeros (raw : bytes) : Prop := firstn 16 raw = zeros 16.

Lemma forallb_zeros (l : bytes) : forallb (fun b => byte_eqb b x00) l = true <-> l = zeros (length l).
Proof.
  induction l as [|b l IH]; [split; reflexivity|].
  cbn [forallb length]. change (zeros (S (length l))) with (x00 :: zeros (length l)).
  rewrite andb_true_iff, byte_eqb_eq, IH. split.
  - intros [-> E]. now f_equal.
  - intros E. injection E as -> E. auto.
Qed.

Lemma igp_refund_spec v hrp dflt :
  hrp_ok hrp -> ~ sixteen_zeros (ig_refund v) ->
  (length (ig_refund v) = 20%nat \/ length (ig_refund v) = 32%nat) ->
  exists e, igp_refund_address v hrp dflt = Ok e /\
            bech32_encode hrp (ig_refund v) = Ok e /\
            bech32_decode e = Ok (account (ig_refund v)).
Proof.
  intros Hh Hz Hl. unfold igp_refund_address.
  assert (E : (negb (Nat.eqb (length (ig_refund v)) 20) && negb (Nat.eqb (length (ig_refund v)) 32))%bool = false)
    by (destruct Hl as [-> | ->]; reflexivity).
  rewrite E.
  assert (Ez : forallb (fun b => byte_eqb b x00) (firstn 16 (ig_refund v)) = false).
  { apply not_true_is_false. intros C. apply forallb_zeros in C. apply Hz. unfold sixteen_zeros.
    rewrite C. f_equal. rewrite firstn_length. lia. }
  rewrite Ez.
  destruct (bech32_encode_total hrp (ig_refund v) Hh) as [e He]; [tauto|].
  exists e. rewrite He. split; [reflexivity|]. split; [reflexivity|].
  now apply (bech32_decode_encode hrp).
Qed.

Lemma igp_refund_default v hrp dflt :
  length (ig_refund v) <> 20%nat -> length (ig_refund v) <> 32%nat ->
  igp_refund_address v hrp dflt = Ok dflt.
Proof.
  intros H1 H2. unfold igp_refund_address.
  apply Nat.eqb_neq in H1. apply Nat.eqb_neq in H2. now rewrite H1, H2.
Qed.

(** With sixteen leading zeros the call aborts. *)
Lemma igp_refund_panic v hrp dflt :
  sixteen_zeros (ig_refund v) ->
  (length (ig_refund v) = 20%nat \/ length (ig_refund v) = 32%nat) ->
  igp_refund_address v hrp dflt = Panic.
Proof.
  intros Hz Hl. unfold igp_refund_address.
  assert (E : (negb (Nat.eqb (length (ig_refund v)) 20) && negb (Nat.eqb (length (ig_refund v)) 32))%bool = false)
    by (destruct Hl as [-> | ->]; reflexivity).
  rewrite E. unfold sixteen_zeros in Hz. rewrite Hz. cbn [zeros repeat forallb andb].
  assert (E0 : byte_eqb x00 x00 = true) by reflexivity. rewrite !E0. cbn [andb].
  unfold bech32_encode. rewrite skipn_length.
  destruct Hl as [-> | ->]; reflexivity.
Qed.
