(** * Formats, byte by byte. *)
From Coq Require Import List NArith Lia Bool Btauto Arith.
From Verif Require Import Base BaseFacts OMap Message Metadata Bech32 CodecFacts Bech32Facts SpecCodec.
Import ListNotations.

Lemma value_of_be l : value l = of_be l.
Proof. induction l as [|b l IH]; cbn [value]; [reflexivity|]. rewrite of_be_cons, IH. reflexivity. Qed.

Lemma field_app a b c k w : length a = k -> length b = w -> field (a ++ b ++ c) k w = b.
Proof. intros <- <-. unfold field. rewrite skipn_app_exact, firstn_app_exact; reflexivity. Qed.
Lemma field_app0 b c w : length b = w -> field (b ++ c) 0 w = b.
Proof. intros <-. unfold field. cbn [skipn]. rewrite firstn_app_exact; reflexivity. Qed.
Lemma value_be k n : n < 256 ^ N.of_nat k -> value (be k n) = n.
Proof. intros H. rewrite value_of_be. apply of_be_be_small, H. Qed.

Ltac offs := rewrite ?app_length, ?be_length, ?be4_length, ?be32_length in *; lia.

Lemma message_laid_out m : msg_wf m -> message_layout (msg_encode m) m.
Proof.
  intros (H1 & H2 & H3 & H4 & H5 & H6). unfold message_layout, msg_encode, number_at, be4.
  unfold u8_max, u32_max in *.
  set (a := be 1 (m_version m)). set (b := be 4 (m_nonce m)). set (c := be 4 (m_origin m)).
  set (e := be 4 (m_dest m)).
  assert (La : length a = 1%nat) by apply be_length. assert (Lb : length b = 4%nat) by apply be_length.
  assert (Lc : length c = 4%nat) by apply be_length. assert (Le : length e = 4%nat) by apply be_length.
  split; [rewrite !app_length; lia|].
  split; [rewrite field_app0 by exact La; apply value_be; exact H1|].
  split; [rewrite field_app by (exact La || exact Lb); apply value_be; exact H2|].
  split; [rewrite (app_assoc a), field_app by (exact Lc || (rewrite ?app_length; lia)); apply value_be; exact H3|].
  split; [rewrite (app_assoc a), (app_assoc (a ++ b)), field_app by (exact H5 || (rewrite ?app_length; lia)); reflexivity|].
  split; [rewrite (app_assoc a), (app_assoc (a ++ b)), (app_assoc ((a ++ b) ++ c)), field_app
            by (exact Le || (rewrite ?app_length; lia)); apply value_be; exact H4|].
  split; [rewrite (app_assoc a), (app_assoc (a ++ b)), (app_assoc ((a ++ b) ++ c)), (app_assoc (((a ++ b) ++ c) ++ _)), field_app
            by (exact H6 || (rewrite ?app_length; lia)); reflexivity|].
  rewrite (app_assoc a), (app_assoc (a ++ b)), (app_assoc ((a ++ b) ++ c)), (app_assoc (((a ++ b) ++ c) ++ _)), (app_assoc ((((a ++ b) ++ c) ++ _) ++ _)).
  apply skipn_app_exact. rewrite !app_length. lia.
Qed.
Lemma message_read v m : msg_decode v = Ok m -> message_layout v m.
Proof. intros H. apply msg_decode_Ok_inv in H as (_ & Hw & <-). apply message_laid_out, Hw. Qed.

Lemma transfer_laid_out w :
  length (w_recipient w) = 32%nat -> w_amount w < 2 ^ 256 -> transfer_layout (warp_encode w) w.
Proof.
  intros H1 H2. unfold transfer_layout, warp_encode, number_at, be32.
  set (b := be 32 (w_amount w)). assert (Lb : length b = 32%nat) by apply be_length.
  split; [rewrite !app_length; lia|]. split; [apply field_app0, H1|].
  split; [rewrite field_app by assumption; apply value_be; exact H2|].
  rewrite app_assoc. apply skipn_app_exact. rewrite app_length. lia.
Qed.
Lemma transfer_read v w : warp_decode v = Ok w -> transfer_layout v w.
Proof. intros H. apply warp_decode_Ok_inv in H as (_ & [H1 H2] & <-). apply transfer_laid_out; assumption. Qed.

Lemma root_metadata_laid_out x :
  length (mr_origin_mailbox x) = 32%nat -> mr_checkpoint_index x < 2 ^ 32 ->
  length (mr_message_id x) = 32%nat -> N.of_nat (length (mr_proof x)) = 1024 ->
  root_metadata_layout (mr_encode x) x.
Proof.
  intros H1 H2 H3 H4. unfold root_metadata_layout, mr_encode, number_at, be4.
  set (b := be 4 (mr_checkpoint_index x)). assert (Lb : length b = 4%nat) by apply be_length.
  assert (H5 : length (mr_proof x) = 1024%nat) by lia. clear H4.
  split; [rewrite !app_length; lia|]. split; [apply field_app0, H1|].
  split; [rewrite field_app by assumption; apply value_be; exact H2|].
  split; [rewrite (app_assoc _ b), field_app by (exact H3 || (rewrite ?app_length; lia)); reflexivity|].
  split; [rewrite (app_assoc _ b), (app_assoc (_ ++ b)), field_app by (exact H5 || (rewrite ?app_length; lia)); reflexivity|].
  rewrite (app_assoc _ b), (app_assoc (_ ++ b)), (app_assoc ((_ ++ b) ++ _)).
  apply skipn_app_exact. rewrite !app_length. lia.
Qed.

Lemma gas_metadata_laid_out x : ig_gas_limit x < 2 ^ 256 -> gas_metadata_layout (igp_encode x) x.
Proof.
  intros H. unfold gas_metadata_layout, igp_encode, number_at, be32.
  set (b := be 32 (ig_gas_limit x)). assert (Lb : length b = 32%nat) by apply be_length.
  split; [rewrite !app_length; lia|]. split; [rewrite field_app0 by exact Lb; apply value_be; exact H|].
  apply skipn_app_exact, Lb.
Qed.

(** ** Aggregate metadata *)
Lemma agg_offsets_nth l st i :
  (i < length l)%nat ->
  nth i (agg_offsets st l) (0, 0)
  = (st + N.of_nat (length (concat (firstn i l))), st + N.of_nat (length (concat (firstn (S i) l)))).
Proof.
  revert st i. induction l as [|m l IH]; intros st i H; [cbn in H; lia|]. cbn [agg_offsets].
  destruct i as [|i].
  - cbn [nth firstn concat]. rewrite app_nil_r. cbn [length]. f_equal. lia.
  - cbn [nth]. rewrite IH by (cbn in H; lia).
    rewrite (firstn_cons (S i)), (firstn_cons i). cbn [concat]. rewrite !app_length. f_equal; lia.
Qed.

Lemma concat_firstn_S {X} (l : list (list X)) i :
  (i < length l)%nat -> concat (firstn (S i) l) = concat (firstn i l) ++ nth i l [].
Proof.
  revert i. induction l as [|m l IH]; intros i H; [cbn in H; lia|]. destruct i as [|i].
  - cbn. apply app_nil_r.
  - rewrite (firstn_cons (S i)), (firstn_cons i). cbn [concat nth]. rewrite IH by (cbn in H; lia). apply app_assoc.
Qed.

Lemma aggregate_laid_out (m : agg_meta) :
  N.of_nat (length (agg_encode m)) < 2 ^ 32 -> aggregate_layout (agg_encode m) (map snd m).
Proof.
  unfold aggregate_layout, agg_encode. cbv zeta. rewrite <- (map_length snd m). generalize (map snd m). clear m. intros l Hs.
  set (pos := agg_offsets (N.of_nat (length l * 8)) l) in *.
  assert (Lp : length pos = length l) by apply agg_offsets_length.
  set (f := fun p : N * N => be4 (fst p) ++ be4 (snd p)) in *.
  exists (fun i => (8 * length l + length (concat (firstn i l)))%nat).
  assert (L8 : forall p : list (N * N), length (concat (map f p)) = (length p * 8)%nat) by apply concat_pos_length.
  split; [cbn [firstn concat length]; lia|].
  split; [rewrite firstn_all, app_length, L8, Lp; lia|].
  intros i Hi. rewrite concat_firstn_S by exact Hi.
  split; [rewrite app_length; lia|].
  assert (Hbound : (length l * 8 + length (concat (firstn (S i) l)) <= length (concat (map f pos) ++ concat l))%nat).
  { rewrite app_length, L8, Lp.
    assert (E : concat l = concat (firstn (S i) l) ++ concat (skipn (S i) l))
      by (rewrite <- concat_app, firstn_skipn; reflexivity).
    rewrite E, app_length. lia. }
  destruct (nth_split pos (0, 0) (n := i)) as (p1 & p2 & Hp & Hl1); [lia|].
  pose proof (agg_offsets_nth l (N.of_nat (length l * 8)) i Hi) as Hn. fold pos in Hn. rewrite Hn in Hp. clear Hn.
  rewrite concat_firstn_S in Hp, Hbound by exact Hi.
  rewrite (app_length (concat (firstn i l))) in Hp, Hbound. rewrite (app_length (concat (firstn i l))).
  set (s0 := (length (concat (firstn i l)))%nat) in *.
  assert (Ev : concat (map f pos) ++ concat l =
    concat (map f p1) ++ be4 (N.of_nat (length l * 8) + N.of_nat s0) ++
      be4 (N.of_nat (length l * 8) + N.of_nat (s0 + length (nth i l []))) ++ concat (map f p2) ++ concat l).
  { rewrite Hp, map_app, concat_app. cbn [map concat]. unfold f at 2. cbn [fst snd]. rewrite <- !app_assoc. reflexivity. }
  split; [|split].
  - rewrite Ev. unfold number_at. rewrite field_app by (rewrite ?L8, ?be4_length; lia).
    unfold be4. rewrite value_be; [lia|]. change (256 ^ N.of_nat 4) with (2 ^ 32). lia.
  - rewrite Ev. unfold number_at. rewrite (app_assoc (concat (map f p1))).
    rewrite field_app by (rewrite ?app_length, ?L8, ?be4_length; lia).
    unfold be4. rewrite value_be; [lia|]. change (256 ^ N.of_nat 4) with (2 ^ 32). lia.
  - assert (El : concat l = concat (firstn i l) ++ nth i l [] ++ concat (skipn (S i) l)).
    { rewrite <- (firstn_skipn (S i) l) at 1. rewrite concat_app, concat_firstn_S by exact Hi. now rewrite <- app_assoc. }
    rewrite El at 1. rewrite app_assoc. apply field_app; [|reflexivity].
    rewrite app_length, L8, Lp. fold s0. lia.
Qed.

(** ** BIP-173 *)
Lemma bip_step_poly c v : bip_step c v = poly_step c v.
Proof.
  unfold bip_step, poly_step, poly_shift, gen, generators. cbv zeta. cbn [fold_left fst snd].
  assert (Hb : forall k, N.odd (c / 2 ^ 25 / 2 ^ k) = N.testbit (N.shiftr c 25) k).
  { intros k. rewrite N.testbit_odd, !N.shiftr_div_pow2. reflexivity. }
  rewrite !Hb.
  replace (c mod 2 ^ 25 * 32) with (N.shiftl (N.land c 0x1ffffff) 5).
  2:{ change 0x1ffffff with (N.ones 25). rewrite N.land_ones, N.shiftl_mul_pow2. reflexivity. }
  generalize (N.shiftl (N.land c 33554431) 5). intros x. generalize (N.shiftr c 25). intros b.
  apply N.bits_inj. intros n.
  destruct (N.testbit b 0), (N.testbit b 1), (N.testbit b 2), (N.testbit b 3), (N.testbit b 4);
    rewrite ?N.lxor_spec, ?N.bits_0; btauto.
Qed.
Lemma bip_polymod_eq l : bip_polymod l = polymod l.
Proof.
  unfold bip_polymod, polymod. generalize 1. induction l as [|v l IH]; intros c; cbn [fold_left]; [reflexivity|].
  rewrite bip_step_poly. apply IH.
Qed.
Lemma bip_expand_eq hrp : bip_expand hrp = hrp_expand hrp.
Proof.
  unfold bip_expand, hrp_expand. f_equal; [|f_equal]; apply map_ext; intros b.
  - rewrite N.shiftr_div_pow2. reflexivity.
  - change 31 with (N.ones 5). rewrite N.land_ones. reflexivity.
Qed.
Lemma symbol_sym : symbol = sym. Proof. reflexivity. Qed.

(** bits as numbers *)
Lemma of_bits_app a b : of_bits (a ++ b) = of_bits a * 2 ^ N.of_nat (length b) + of_bits b.
Proof.
  induction a as [|x a IH]; cbn [app]; [reflexivity|]. rewrite !of_bits_cons, IH, app_length, Nat2N.inj_add, N.pow_add_r.
  lia.
Qed.
Lemma of_bits_zeros p : of_bits (repeat false p) = 0.
Proof. induction p as [|p IH]; cbn [repeat]; [reflexivity|]. rewrite of_bits_cons, IH. lia. Qed.
Lemma of_bits_bytes l : of_bits (bits_of_bytes l) = value l.
Proof.
  induction l as [|b l IH]; [reflexivity|]. unfold bits_of_bytes in *. cbn [flat_map value].
  rewrite of_bits_app, IH, of_bits_bits by apply bN_lt. f_equal. f_equal.
  fold (bits_of_bytes l). rewrite bits_of_bytes_length, Nat2N.inj_mul, N.pow_mul_r. reflexivity.
Qed.
Lemma bits_of_u5_length l : length (bits_of_u5 l) = (5 * length l)%nat.
Proof.
  induction l as [|d l IH]; [reflexivity|]. unfold bits_of_u5 in *. cbn [flat_map length].
  rewrite app_length, bits_length, IH. lia.
Qed.
Lemma of_bits_u5 l : Forall (fun d => d < 32) l -> of_bits (bits_of_u5 l) = radix32 l.
Proof.
  induction 1 as [|d l Hd _ IH]; [reflexivity|]. unfold bits_of_u5 in *. cbn [flat_map radix32].
  rewrite of_bits_app, IH, of_bits_bits by exact Hd. f_equal. f_equal.
  fold (bits_of_u5 l). rewrite bits_of_u5_length, Nat2N.inj_mul, N.pow_mul_r. reflexivity.
Qed.
Lemma of_bits_inj a b : length a = length b -> of_bits a = of_bits b -> a = b.
Proof. intros Hl H. rewrite <- (bits_of_bits a), <- (bits_of_bits b), Hl, H. reflexivity. Qed.

Lemma regrouped_bits data digits :
  regrouped data digits <->
  Forall (fun d => d < 32) digits /\
  exists p, (p < 5)%nat /\ bits_of_u5 digits = bits_of_bytes data ++ repeat false p.
Proof.
  unfold regrouped. split; intros [Hd (p & Hp & H)]; (split; [exact Hd|]); exists p; (split; [exact Hp|]).
  - destruct H as [Hl Hv]. apply of_bits_inj.
    + rewrite app_length, bits_of_u5_length, bits_of_bytes_length, repeat_length. lia.
    + rewrite of_bits_u5 by exact Hd. rewrite of_bits_app, of_bits_bytes, of_bits_zeros, repeat_length. lia.
  - split.
    + apply (f_equal (@length bool)) in H.
      rewrite app_length, bits_of_u5_length, bits_of_bytes_length, repeat_length in H. lia.
    + rewrite <- of_bits_u5 by exact Hd. rewrite H, of_bits_app, of_bits_bytes, of_bits_zeros, repeat_length. lia.
Qed.
Lemma regrouped_to_base32 data : regrouped data (to_base32 data).
Proof.
  apply regrouped_bits. split; [apply to_base32_lt|]. unfold to_base32.
  apply group_pad_bits. lia.
Qed.

Lemma address_is_bech32 hrp raw e :
  hrp_ok hrp -> bech32_encode hrp raw = Ok e -> bech32_text 1 hrp (account raw) e.
Proof.
  intros Hh He. pose proof (bech32_encode_len _ _ _ He) as Hl.
  rewrite bech32_encode_spec in He by exact Hl. rewrite b32_encode_ok in He by exact Hh. apply Ok_inj in He as <-.
  exists (to_base32 (account raw)), (checksum hrp (to_base32 (account raw))).
  split; [apply regrouped_to_base32|]. split; [apply checksum_length|]. split; [apply checksum_lt|].
  split; [rewrite bip_polymod_eq, bip_expand_eq; apply checksum_valid | reflexivity].
Qed.

(** decoding *)
Lemma all_false l : existsb (fun b : bool => b) l = false -> l = repeat false (length l).
Proof.
  induction l as [|b l IH]; cbn; [reflexivity|]. intros H. apply orb_false_iff in H as [-> H].
  f_equal. apply IH, H.
Qed.
Lemma group_strict_inv fuel l raw :
  (length l < fuel)%nat -> group_strict fuel l = Ok raw ->
  exists p, (p < 5)%nat /\ l = bits_of_bytes raw ++ repeat false p.
Proof.
  revert l raw. induction fuel as [|f IH]; intros l raw Hf H; [lia|]. cbn [group_strict] in H.
  destruct (Nat.leb 8 (length l)) eqn:E8.
  - apply Nat.leb_le in E8. apply bind_Ok_inv in H as (rest & H1 & H). apply Ok_inj in H as <-.
    apply IH in H1 as (p & Hp & E); [|rewrite skipn_length; lia]. exists p. split; [exact Hp|].
    unfold bits_of_bytes in *. cbn [flat_map].
    assert (L8 : length (firstn 8 l) = 8%nat) by (rewrite firstn_length; lia).
    rewrite bN_nB by (pose proof (of_bits_lt (firstn 8 l)) as H8; rewrite L8 in H8; exact H8).
    rewrite bits_of_bits_len by exact L8. rewrite <- app_assoc, <- E. symmetry. apply firstn_skipn.
  - destruct (Nat.leb 5 (length l) || existsb (fun b => b) l)%bool eqn:E5; [discriminate H|]. apply Ok_inj in H as <-.
    apply orb_false_iff in E5 as [E5 Ez]. apply Nat.leb_gt in E5. exists (length l). split; [exact E5|].
    cbn [bits_of_bytes flat_map app]. apply all_false, Ez.
Qed.
Lemma from_base32_iff digits data :
  Forall (fun d => d < 32) digits -> from_base32 digits = Ok data <-> regrouped data digits.
Proof.
  intros Hd. rewrite regrouped_bits. unfold from_base32. split.
  - intros H. split; [exact Hd|]. apply group_strict_inv in H; [exact H | lia].
  - intros [_ (p & Hp & ->)]. apply group_strict_bits; [rewrite app_length; lia | exact Hp].
Qed.

Lemma is_upper_iff b : is_upper b = true <-> capital b.
Proof. unfold is_upper, capital. rewrite andb_true_iff, !N.leb_le. tauto. Qed.
Lemma no_upper l : Forall (fun b => ~ capital b) l -> existsb is_upper l = false.
Proof.
  induction 1 as [|b l Hb _ IH]; cbn; [reflexivity|]. rewrite IH, orb_false_r.
  destruct (is_upper b) eqn:E; [|reflexivity]. apply is_upper_iff in E. contradiction.
Qed.
Lemma check_hrp_iff hrp :
  Forall (fun b => ~ capital b) hrp ->
  (exists c, check_hrp hrp = Ok c) <-> prefix_ok hrp.
Proof.
  intros Hu. unfold check_hrp, prefix_ok. rewrite (no_upper _ Hu).
  assert (Hp : forallb (fun b => (33 <=? bN b) && (bN b <=? 126))%bool hrp = true <-> Forall (fun b => 33 <= bN b <= 126) hrp).
  { rewrite forallb_forall, Forall_forall. split; intros H x Hx; specialize (H x Hx).
    - apply andb_true_iff in H as [H1 H2]. split; apply N.leb_le; assumption.
    - apply andb_true_iff. split; apply N.leb_le; apply H. }
  destruct (Nat.eqb (length hrp) 0 || negb (Nat.leb (length hrp) 83))%bool eqn:E1.
  - split; [intros [c H]; discriminate H|]. intros [H _]. exfalso.
    apply orb_true_iff in E1 as [E1|E1].
    + apply Nat.eqb_eq in E1. lia.
    + apply negb_true_iff, Nat.leb_gt in E1. lia.
  - apply orb_false_iff in E1 as [E1 E2]. apply Nat.eqb_neq in E1. apply negb_false_iff, Nat.leb_le in E2.
    rewrite <- Hp. destruct (forallb _ hrp); cbn [negb].
    + split; [intros _; split; [lia | reflexivity]|]. intros _. destruct (existsb is_lower hrp); eexists; reflexivity.
    + split; [intros [c H]; discriminate H | intros [_ H]; discriminate H].
Qed.
Lemma check_hrp_case hrp c :
  Forall (fun b => ~ capital b) hrp -> check_hrp hrp = Ok c -> c <> CUpper.
Proof.
  intros Hu H. unfold check_hrp in H. rewrite (no_upper _ Hu) in H.
  match type of H with (if ?x then _ else _) = _ => destruct x; [discriminate H|] end.
  match type of H with (if ?x then _ else _) = _ => destruct x; [discriminate H|] end.
  destruct (existsb is_lower hrp); apply Ok_inj in H; subst c; discriminate.
Qed.

Lemma rsplit_inv l h d : rsplit l = Some (h, d) -> l = h ++ "1"%byte :: d.
Proof.
  revert h d. induction l as [|b l IH]; intros h d; cbn [rsplit]; [discriminate|].
  destruct (rsplit l) as [[h' d']|].
  - intros H. injection H as <- <-. cbn [app]. f_equal. apply IH. reflexivity.
  - destruct (byte_eqb b "1"%byte) eqn:E; [|discriminate]. intros H. injection H as <- <-.
    apply byte_eqb_eq in E. subst b. reflexivity.
Qed.

Lemma find_index_inv b l i v :
  find_index b l i = Some v -> i <= v /\ v < i + N.of_nat (length l) /\ nth (N.to_nat (v - i)) l x00 = b.
Proof.
  revert i. induction l as [|c l IH]; intros i; cbn [find_index]; [discriminate|].
  destruct (byte_eqb b c) eqn:E.
  - intros H. injection H as <-. apply byte_eqb_eq in E. subst c. rewrite N.sub_diag. cbn [length nth N.to_nat].
    split; [lia|]. split; [lia | reflexivity].
  - intros H. apply IH in H as (H1 & H2 & H3). cbn [length]. split; [lia|]. split; [lia|].
    replace (N.to_nat (v - i)) with (S (N.to_nat (v - (i + 1)))) by lia. exact H3.
Qed.
Lemma char_rev_inv b v : ~ capital b -> char_rev b = Some v -> v < 32 /\ b = sym v.
Proof.
  intros Hc H. unfold char_rev, to_lower in H.
  destruct (is_upper b) eqn:E; [apply is_upper_iff in E; contradiction|].
  apply find_index_inv in H as (_ & H2 & H3). rewrite N.sub_0_r in H3. split; [exact H2|]. symmetry. exact H3.
Qed.
Lemma decode_chars_inv c l ds :
  c <> CUpper -> Forall (fun b => ~ capital b) l -> decode_chars c l = Ok ds ->
  l = map sym ds /\ Forall (fun d => d < 32) ds.
Proof.
  intros Hc Hl. revert c ds Hc. induction Hl as [|b l Hb _ IH]; intros c ds Hc; cbn [decode_chars].
  - intros H. apply Ok_inj in H as <-. split; [reflexivity | constructor].
  - destruct (negb (bN b <? 128)); [discriminate|]. intros H.
    apply bind_Ok_inv in H as (c' & H1 & H).
    destruct (char_rev b) as [v|] eqn:E; [|discriminate H].
    apply bind_Ok_inv in H as (rest & H2 & H). apply Ok_inj in H as <-.
    assert (Hc' : c' <> CUpper).
    { destruct (is_lower b); [destruct c; try discriminate H1; apply Ok_inj in H1 as <-; discriminate|].
      destruct (is_upper b) eqn:Eu; [apply is_upper_iff in Eu; contradiction|].
      apply Ok_inj in H1 as <-. exact Hc. }
    destruct (IH c' rest Hc' H2) as [-> Hr]. destruct (char_rev_inv b v Hb E) as [Hv ->].
    split; [reflexivity | constructor; assumption].
Qed.

Lemma address_read text data :
  Forall (fun b => ~ capital b) text ->
  (bech32_decode text = Ok data <->
   exists hrp constant, (constant = 1 \/ constant = 0x2bc830a3) /\ prefix_ok hrp /\
     bech32_text constant hrp data text).
Proof.
  intros Hu. unfold bech32_decode, b32_decode. split.
  - destruct (rsplit text) as [[h d]|] eqn:Er; [|discriminate]. apply rsplit_inv in Er. subst text.
    apply Forall_app in Hu as [Hh Hd]. inversion_clear Hd as [|? ? _ Hd1].
    intros H. apply bind_Ok_inv in H as ([hh u5s] & H1 & H).
    apply bind_Ok_inv in H1 as (c & Hc & H1).
    pose proof (check_hrp_case h c Hh Hc) as Hcu.
    apply bind_Ok_inv in H1 as (ds & Hds & H1). apply (decode_chars_inv c d ds Hcu Hd1) in Hds as [-> Hds].
    assert (En : hrp_norm c h = h) by (destruct c; [congruence | reflexivity..]). rewrite En in H1.
    destruct (negb (Nat.leb 6 (length ds))) eqn:E6; [discriminate H1|]. apply negb_false_iff, Nat.leb_le in E6.
    destruct ((polymod (hrp_expand h ++ ds) =? bech32_const) || _)%bool eqn:Ep; [|discriminate H1].
    apply Ok_inj in H1. injection H1 as _ <-.
    exists h, (polymod (hrp_expand h ++ ds)). split; [|split].
    + apply orb_true_iff in Ep as [Ep|Ep]; apply N.eqb_eq in Ep; rewrite Ep; [left | right]; reflexivity.
    + apply check_hrp_iff; [exact Hh | eauto].
    + exists (firstn (length ds - 6) ds), (skipn (length ds - 6) ds). rewrite firstn_skipn.
      assert (Hf : Forall (fun d => d < 32) (firstn (length ds - 6) ds) /\ Forall (fun d => d < 32) (skipn (length ds - 6) ds)).
      { apply Forall_app. rewrite firstn_skipn. exact Hds. }
      destruct Hf as [Hf1 Hf2]. apply from_base32_iff in H; [|exact Hf1].
      split; [exact H|]. split; [rewrite skipn_length; lia|]. split; [exact Hf2|].
      split; [rewrite bip_polymod_eq, bip_expand_eq; reflexivity | reflexivity].
  - intros (hrp & k & Hk & Hp & digits & check & Hr & Lc & Hc & Hs & ->).
    change (s "1") with ["1"%byte] in *. cbn [app] in Hu |- *.
    apply Forall_app in Hu as [Hh _].
    assert (Hall : Forall (fun d => d < 32) (digits ++ check)) by (apply Forall_app; split; [apply Hr | exact Hc]).
    rewrite rsplit_sep.
    2:{ apply Forall_map. eapply Forall_impl; [|exact Hall]. intros v Hv. now apply sym_spec in Hv as (_ & _ & _ & H). }
    apply check_hrp_iff in Hp as [c Ec]; [|exact Hh]. rewrite Ec. cbn [bind].
    pose proof (check_hrp_case hrp c Hh Ec) as Hcu. rewrite symbol_sym, decode_chars_syms by assumption. cbn [bind].
    assert (En : hrp_norm c hrp = hrp) by (destruct c; [congruence | reflexivity..]). rewrite En.
    replace (Nat.leb 6 (length (digits ++ check))) with true by (symmetry; apply Nat.leb_le; rewrite app_length; lia).
    cbn [negb]. rewrite bip_polymod_eq, bip_expand_eq in Hs. rewrite Hs.
    replace ((k =? bech32_const) || (k =? bech32m_const))%bool with true.
    2:{ symmetry. destruct Hk as [-> | ->]; reflexivity. }
    cbn [bind]. rewrite app_length, Lc. replace (length digits + 6 - 6)%nat with (length digits) by lia.
    rewrite firstn_app_exact by reflexivity. apply from_base32_iff; [apply Hr | exact Hr].
Qed.
