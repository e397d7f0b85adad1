(** * Facts about the byte-level vocabulary. *)
From Coq Require Import List NArith ZArith Lia Bool Arith.
From Verif Require Import Base.
Import ListNotations.

Ltac Zify.zify_post_hook ::= Z.div_mod_to_equations.

(** ** Result inversion *)
Lemma bind_Ok_inv {A B} (x : res A) (f : A -> res B) b :
  bind x f = Ok b -> exists a, x = Ok a /\ f a = Ok b.
Proof. destruct x; simpl; intros H; try discriminate; eauto. Qed.

Lemma ensure_Ok_inv b e u : ensure b e = Ok u -> b = true.
Proof. destruct b; simpl; congruence. Qed.

Lemma need_Ok_inv b u : need b = Ok u -> b = true.
Proof. destruct b; simpl; congruence. Qed.

Lemma ok_or_Ok_inv {A} (o : option A) e a : ok_or o e = Ok a -> o = Some a.
Proof. destruct o; simpl; congruence. Qed.

Lemma expect_Ok_inv {A} (o : option A) a : expect o = Ok a -> o = Some a.
Proof. destruct o; simpl; congruence. Qed.

Lemma unwrap_Ok_inv {A} (r : res A) a : unwrap r = Ok a -> r = Ok a.
Proof. destruct r; simpl; congruence. Qed.

Lemma map_err_Ok_inv {A} (r : res A) e a : map_err r e = Ok a -> r = Ok a.
Proof. destruct r; simpl; congruence. Qed.

Lemma Ok_inj {A} (a b : A) : Ok a = Ok b -> a = b.
Proof. now inversion 1. Qed.
Lemma Some_inj {A} (a b : A) : Some a = Some b -> a = b.
Proof. now inversion 1. Qed.

(** Break every monadic hypothesis into its successful steps. *)
Ltac inv_res :=
  repeat match goal with
  | H : bind _ _ = Ok _ |- _ =>
      let a := fresh "v" in let H1 := fresh "Hr" in
      apply bind_Ok_inv in H; destruct H as [a [H1 H]]
  | H : ensure _ _ = Ok _ |- _ => apply ensure_Ok_inv in H
  | H : need _ = Ok _ |- _ => apply need_Ok_inv in H
  | H : ok_or _ _ = Ok _ |- _ => apply ok_or_Ok_inv in H
  | H : expect _ = Ok _ |- _ => apply expect_Ok_inv in H
  | H : unwrap _ = Ok _ |- _ => apply unwrap_Ok_inv in H
  | H : map_err _ _ = Ok _ |- _ => apply map_err_Ok_inv in H
  | H : Ok (_, _) = Ok (_, _) |- _ =>
      apply Ok_inj in H; apply pair_equal_spec in H; destruct H; subst
  | H : Ok _ = Ok _ |- _ => apply Ok_inj in H; subst
  | H : Err _ = Ok _ |- _ => discriminate H
  | H : Panic = Ok _ |- _ => discriminate H
  end.

(** ** Bytes *)
Lemma bN_lt b : bN b < 256.
Proof. unfold bN. pose proof (Byte.to_N_bounded b). lia. Qed.

Lemma nB_bN b : nB (bN b) = b.
Proof. unfold nB, bN. now rewrite Byte.of_to_N. Qed.

Lemma bN_nB n : n < 256 -> bN (nB n) = n.
Proof.
  intros H. unfold nB, bN.
  destruct (Byte.of_N n) as [b|] eqn:E.
  - now apply Byte.to_of_N.
  - apply Byte.of_N_None_iff in E. lia.
Qed.

Lemma bN_inj a b : bN a = bN b -> a = b.
Proof. intros H. rewrite <- (nB_bN a), <- (nB_bN b). now rewrite H. Qed.

Lemma byte_eqb_eq a b : byte_eqb a b = true <-> a = b.
Proof.
  unfold byte_eqb. split.
  - intros H. apply Byte.byte_dec_bl. exact H.
  - intros ->. now apply Byte.byte_dec_lb.
Qed.

Lemma byte_eqb_refl a : byte_eqb a a = true.
Proof. now apply byte_eqb_eq. Qed.

Lemma bytes_eqb_eq a b : bytes_eqb a b = true <-> a = b.
Proof.
  revert b. induction a as [|x a IH]; intros [|y b]; simpl; split; intros H;
    try reflexivity; try discriminate.
  - apply andb_true_iff in H as [H1 H2].
    apply byte_eqb_eq in H1. apply IH in H2. congruence.
  - injection H as -> ->. rewrite byte_eqb_refl. now apply IH.
Qed.

Lemma bytes_eqb_refl a : bytes_eqb a a = true.
Proof. now apply bytes_eqb_eq. Qed.

Lemma bytes_eqb_neq a b : bytes_eqb a b = false <-> a <> b.
Proof.
  split; intros H.
  - intros ->. rewrite bytes_eqb_refl in H. discriminate.
  - destruct (bytes_eqb a b) eqn:E; [|reflexivity].
    apply bytes_eqb_eq in E. contradiction.
Qed.

Lemma bytes_eqb_sym a b : bytes_eqb a b = bytes_eqb b a.
Proof.
  destruct (bytes_eqb a b) eqn:E.
  - apply bytes_eqb_eq in E. subst. symmetry. apply bytes_eqb_refl.
  - apply bytes_eqb_neq in E. symmetry. apply bytes_eqb_neq. congruence.
Qed.

Lemma bytes_eq_dec (a b : bytes) : {a = b} + {a <> b}.
Proof.
  destruct (bytes_eqb a b) eqn:E; [left|right].
  - now apply bytes_eqb_eq.
  - now apply bytes_eqb_neq.
Defined.

Lemma bytes_ltb_irrefl a : bytes_ltb a a = false.
Proof.
  induction a as [|x a IH]; simpl; [reflexivity|].
  rewrite N.ltb_irrefl. exact IH.
Qed.

Lemma bytes_ltb_trans a b c :
  bytes_ltb a b = true -> bytes_ltb b c = true -> bytes_ltb a c = true.
Proof.
  revert b c. induction a as [|x a IH]; intros [|y b] [|z c]; simpl; intros H1 H2;
    try discriminate; try reflexivity.
  destruct (bN x <? bN y) eqn:E1.
  - apply N.ltb_lt in E1.
    destruct (bN y <? bN z) eqn:E2.
    + apply N.ltb_lt in E2. assert (H : bN x <? bN z = true) by (apply N.ltb_lt; lia).
      now rewrite H.
    + destruct (bN z <? bN y) eqn:E3; [discriminate|].
      apply N.ltb_ge in E2, E3.
      assert (H : bN x <? bN z = true) by (apply N.ltb_lt; lia). now rewrite H.
  - destruct (bN y <? bN x) eqn:E1'; [discriminate|].
    apply N.ltb_ge in E1, E1'. assert (E : bN x = bN y) by lia. rewrite E.
    destruct (bN y <? bN z) eqn:E2; [reflexivity|].
    destruct (bN z <? bN y) eqn:E3; [discriminate|].
    eapply IH; eauto.
Qed.

Lemma bytes_ltb_total a b :
  bytes_ltb a b = false -> bytes_ltb b a = false -> a = b.
Proof.
  revert b. induction a as [|x a IH]; intros [|y b]; simpl; intros H1 H2;
    try discriminate; try reflexivity.
  destruct (bN x <? bN y) eqn:E1; [discriminate|].
  destruct (bN y <? bN x) eqn:E2; [discriminate|].
  apply N.ltb_ge in E1, E2.
  assert (E : x = y) by (apply bN_inj; lia). subst. f_equal. now apply IH.
Qed.

(** ** Big-endian *)
Lemma be_length k n : length (be k n) = k.
Proof.
  revert n. induction k as [|k IH]; intros n; [reflexivity|].
  cbn [be]. rewrite app_length, IH. simpl. lia.
Qed.

Lemma of_be_app_aux l acc :
  fold_left (fun a b => a * 256 + bN b) l acc = acc * 256 ^ N.of_nat (length l) + of_be l.
Proof.
  unfold of_be. revert acc. induction l as [|b l IH]; intros acc.
  - cbn. lia.
  - cbn [fold_left length]. rewrite IH, (IH (0 * 256 + bN b)).
    rewrite Nat2N.inj_succ, N.pow_succ_r'. lia.
Qed.

Lemma of_be_app a b : of_be (a ++ b) = of_be a * 256 ^ N.of_nat (length b) + of_be b.
Proof. unfold of_be at 1. rewrite fold_left_app. apply of_be_app_aux. Qed.

Lemma of_be_cons x l : of_be (x :: l) = bN x * 256 ^ N.of_nat (length l) + of_be l.
Proof.
  change (x :: l) with ([x] ++ l). rewrite of_be_app.
  replace (of_be [x]) with (bN x) by (unfold of_be; cbn; lia). reflexivity.
Qed.

Lemma of_be_lt l : of_be l < 256 ^ N.of_nat (length l).
Proof.
  induction l as [|x l IH].
  - cbn. lia.
  - rewrite of_be_cons. cbn [length]. rewrite Nat2N.inj_succ, N.pow_succ_r'.
    pose proof (bN_lt x). nia.
Qed.

Lemma of_be_be k n : of_be (be k n) = n mod 256 ^ N.of_nat k.
Proof.
  revert n. induction k as [|k IH]; intros n.
  - cbn. now rewrite N.mod_1_r.
  - cbn [be]. rewrite of_be_app, IH. cbn [length].
    replace (of_be [nB (n mod 256)]) with (n mod 256).
    2:{ unfold of_be. cbn [fold_left]. rewrite bN_nB by (apply N.mod_lt; lia). lia. }
    change (N.of_nat 1) with 1. rewrite N.pow_1_r.
    rewrite Nat2N.inj_succ, N.pow_succ_r'.
    rewrite (N.mod_mul_r n 256) by (try apply N.pow_nonzero; lia). lia.
Qed.

Lemma of_be_be_small k n : n < 256 ^ N.of_nat k -> of_be (be k n) = n.
Proof. intros H. rewrite of_be_be. now apply N.mod_small. Qed.

Lemma be_of_be l : be (length l) (of_be l) = l.
Proof.
  induction l as [|b l IH] using rev_ind; [reflexivity|].
  rewrite app_length. cbn [length]. rewrite Nat.add_1_r. cbn [be].
  rewrite of_be_app. cbn [length]. change (N.of_nat 1) with 1. rewrite N.pow_1_r.
  replace (of_be [b]) with (bN b) by (unfold of_be; cbn; lia).
  pose proof (bN_lt b) as Hb.
  replace ((of_be l * 256 + bN b) / 256) with (of_be l).
  2:{ rewrite N.div_add_l by lia. rewrite N.div_small by lia. lia. }
  replace ((of_be l * 256 + bN b) mod 256) with (bN b).
  2:{ rewrite N.add_comm, N.mod_add by lia. now rewrite N.mod_small by lia. }
  now rewrite IH, nB_bN.
Qed.

Lemma be_of_be_len k l : length l = k -> be k (of_be l) = l.
Proof. intros <-. apply be_of_be. Qed.

Lemma be_inj k a b :
  a < 256 ^ N.of_nat k -> b < 256 ^ N.of_nat k -> be k a = be k b -> a = b.
Proof.
  intros Ha Hb E. apply (f_equal of_be) in E.
  rewrite !of_be_be_small in E by assumption. exact E.
Qed.

Lemma pow256_4 : 256 ^ N.of_nat 4 = u32_max.
Proof. reflexivity. Qed.
Lemma pow256_32 : 256 ^ N.of_nat 32 = u256_max.
Proof. reflexivity. Qed.
Lemma pow256_1 : 256 ^ N.of_nat 1 = u8_max.
Proof. reflexivity. Qed.

Lemma be4_length n : length (be4 n) = 4%nat. Proof. apply be_length. Qed.
Lemma be32_length n : length (be32 n) = 32%nat. Proof. apply be_length. Qed.

Lemma be4_inj a b : a < u32_max -> b < u32_max -> be4 a = be4 b -> a = b.
Proof. apply (be_inj 4). Qed.
Lemma be32_inj a b : a < u256_max -> b < u256_max -> be32 a = be32 b -> a = b.
Proof. apply (be_inj 32). Qed.

Lemma of_be_be4 a : a < u32_max -> of_be (be4 a) = a.
Proof. apply (of_be_be_small 4). Qed.
Lemma of_be_be32 a : a < u256_max -> of_be (be32 a) = a.
Proof. apply (of_be_be_small 32). Qed.

(** ** Slices *)
Lemma firstn_app_exact {A} (a b : list A) n :
  length a = n -> firstn n (a ++ b) = a.
Proof.
  intros <-. rewrite firstn_app, Nat.sub_diag, firstn_all, firstn_O.
  apply app_nil_r.
Qed.

Lemma skipn_app_exact {A} (a b : list A) n :
  length a = n -> skipn n (a ++ b) = b.
Proof. intros <-. rewrite skipn_app, Nat.sub_diag, skipn_all. reflexivity. Qed.

Lemma slice_Ok_inv i j l v :
  slice i j l = Ok v ->
  (i <= j)%nat /\ (j <= length l)%nat /\ v = firstn (j - i) (skipn i l).
Proof.
  unfold slice. destruct (_ && _)%bool eqn:E; intros H; [|discriminate].
  apply andb_true_iff in E as [E1 E2].
  apply Nat.leb_le in E1, E2. apply Ok_inj in H as <-. auto.
Qed.

Lemma slice_length i j l v : slice i j l = Ok v -> length v = (j - i)%nat.
Proof.
  intros H. apply slice_Ok_inv in H as (H1 & H2 & ->).
  rewrite firstn_length, skipn_length. lia.
Qed.

Lemma slice_ok i j l :
  (i <= j)%nat -> (j <= length l)%nat -> slice i j l = Ok (firstn (j - i) (skipn i l)).
Proof.
  intros H1 H2. unfold slice.
  apply Nat.leb_le in H1, H2. now rewrite H1, H2.
Qed.

Lemma slice_panic i j l : (length l < j)%nat -> slice i j l = Panic.
Proof.
  intros H. unfold slice.
  assert (E : Nat.leb j (length l) = false) by (apply Nat.leb_gt; lia).
  rewrite E, andb_false_r. reflexivity.
Qed.

(** [a ++ b ++ c] sliced at the boundaries of [b]. *)
Lemma slice_mid a b c i j :
  length a = i -> length b = (j - i)%nat -> (i <= j)%nat ->
  slice i j (a ++ b ++ c) = Ok b.
Proof.
  intros Ha Hb Hij. rewrite slice_ok; [| lia | rewrite !app_length; lia].
  rewrite (skipn_app_exact a _ i) by exact Ha.
  now rewrite (firstn_app_exact b) by exact Hb.
Qed.

Lemma slice_head b c j : length b = j -> slice 0 j (b ++ c) = Ok b.
Proof. intros H. apply (slice_mid [] b c 0 j); simpl; lia. Qed.

Lemma slice_from_ok i l : (i <= length l)%nat -> slice_from i l = Ok (skipn i l).
Proof. intros H. unfold slice_from. apply Nat.leb_le in H. now rewrite H. Qed.

Lemma slice_from_app a b i : length a = i -> slice_from i (a ++ b) = Ok b.
Proof.
  intros H. rewrite slice_from_ok by (rewrite app_length; lia).
  now rewrite skipn_app_exact.
Qed.

Lemma slice_from_Ok_inv i l v :
  slice_from i l = Ok v -> (i <= length l)%nat /\ v = skipn i l.
Proof.
  unfold slice_from. destruct (Nat.leb i (length l)) eqn:E; intros H; [|discriminate].
  apply Nat.leb_le in E. apply Ok_inj in H as <-. auto.
Qed.

(** ** Padding *)
Lemma zeros_length k : length (zeros k) = k.
Proof. apply repeat_length. Qed.

Lemma pad32_Ok_inv raw v :
  pad32 raw = Ok v ->
  (length raw <= 32)%nat /\ v = zeros (32 - length raw) ++ raw /\ length v = 32%nat.
Proof.
  unfold pad32. destruct (Nat.leb (length raw) 32) eqn:E; intros H; [|discriminate].
  apply Nat.leb_le in E. apply Ok_inj in H as <-.
  rewrite app_length, zeros_length. split; [|split]; try reflexivity; lia.
Qed.

Lemma pad32_ok raw :
  (length raw <= 32)%nat -> pad32 raw = Ok (zeros (32 - length raw) ++ raw).
Proof. intros H. unfold pad32. apply Nat.leb_le in H. now rewrite H. Qed.

Lemma pad32_32 raw : length raw = 32%nat -> pad32 raw = Ok raw.
Proof. intros H. rewrite pad32_ok by lia. now rewrite H. Qed.

(** Equal-length prefixes of equal concatenations are equal. *)
Lemma app_inj_len {A} (a b c d : list A) :
  length a = length b -> a ++ c = b ++ d -> a = b /\ c = d.
Proof.
  revert b. induction a as [|x a IH]; intros [|y b] HL HE; simpl in *; try discriminate.
  - auto.
  - injection HE as -> HE. injection HL as HL.
    destruct (IH b HL HE) as [-> ->]. auto.
Qed.

Lemma app_inj_len_r {A} (a b c d : list A) :
  length c = length d -> a ++ c = b ++ d -> a = b /\ c = d.
Proof.
  intros HL HE. assert (length a = length b).
  { apply (f_equal (@length A)) in HE. rewrite !app_length in HE. lia. }
  now apply app_inj_len.
Qed.

(** ** Chunks *)
Lemma chunks_exact_fuel_app k (ls : list bytes) (tail : bytes) fuel :
  (0 < k)%nat -> Forall (fun l => length l = k) ls -> (length tail < k)%nat ->
  (length ls <= fuel)%nat ->
  chunks_exact_fuel fuel k (concat ls ++ tail) = ls.
Proof.
  intros Hk. revert fuel.
  induction ls as [|l ls IH]; intros fuel HF Ht Hfuel.
  - simpl. destruct fuel; simpl; [reflexivity|].
    assert (E : Nat.leb k (length tail) = false) by (apply Nat.leb_gt; lia).
    now rewrite E.
  - inversion HF as [|? ? Hl HF']; subst.
    destruct fuel as [|fuel]; [simpl in Hfuel; lia|].
    simpl. rewrite <- app_assoc.
    assert (E : Nat.leb (length l) (length (l ++ concat ls ++ tail)) = true).
    { apply Nat.leb_le. rewrite app_length. lia. }
    rewrite E, firstn_app_exact, skipn_app_exact by reflexivity.
    rewrite IH; auto. simpl in Hfuel. lia.
Qed.

Lemma concat_length_const {A} k (ls : list (list A)) :
  Forall (fun l => length l = k) ls -> length (concat ls) = (k * length ls)%nat.
Proof.
  induction 1 as [|l ls Hl _ IH]; simpl; [lia|].
  rewrite app_length, IH, Hl. lia.
Qed.

Lemma chunks_exact_app k ls tail :
  (0 < k)%nat -> Forall (fun l => length l = k) ls -> (length tail < k)%nat ->
  chunks_exact k (concat ls ++ tail) = ls.
Proof.
  intros Hk HF Ht. unfold chunks_exact.
  apply chunks_exact_fuel_app; auto.
  rewrite app_length, (concat_length_const k) by assumption. nia.
Qed.

(** Every byte string is some complete chunks and a short tail. *)
Lemma chunks_exact_spec k (l : bytes) :
  (0 < k)%nat ->
  exists tail, l = concat (chunks_exact k l) ++ tail /\ (length tail < k)%nat /\
    Forall (fun c => length c = k) (chunks_exact k l).
Proof.
  intros Hk. unfold chunks_exact.
  assert (H : forall fuel l, (length l <= fuel)%nat ->
    exists tail, l = concat (chunks_exact_fuel fuel k l) ++ tail /\
      (length tail < k)%nat /\
      Forall (fun c => length c = k) (chunks_exact_fuel fuel k l)).
  { clear l. induction fuel as [|fuel IH]; intros l Hl.
    - exists l. destruct l; simpl in *; [|lia]. repeat split; auto.
    - simpl. destruct (Nat.leb k (length l)) eqn:E.
      + apply Nat.leb_le in E.
        destruct (IH (skipn k l)) as (tail & H1 & H2 & H3).
        { rewrite skipn_length. lia. }
        exists tail. simpl. rewrite <- app_assoc, <- H1, firstn_skipn.
        repeat split; auto. constructor; auto.
        rewrite firstn_length. lia.
      + apply Nat.leb_gt in E. exists l. repeat split; auto. }
  now apply H.
Qed.

Lemma mem_bytes_In x l : mem_bytes x l = true <-> In x l.
Proof.
  induction l as [|y l IH]; simpl.
  - split; [discriminate|tauto].
  - rewrite orb_true_iff, IH, bytes_eqb_eq. intuition congruence.
Qed.

Lemma mem_bytes_not_In x l : mem_bytes x l = false <-> ~ In x l.
Proof.
  rewrite <- mem_bytes_In. destruct (mem_bytes x l); intuition congruence.
Qed.

(** [mapM] and [foldM] *)
Lemma mapM_Ok_Forall2 {A B} (f : A -> res B) l r :
  mapM f l = Ok r <-> Forall2 (fun a b => f a = Ok b) l r.
Proof.
  revert r. induction l as [|a l IH]; intros r; simpl; split; intros H.
  - inv_res. constructor.
  - inversion H. reflexivity.
  - inv_res. constructor; auto. now apply IH.
  - inversion H as [|? b ? r' H1 H2]; subst. rewrite H1. simpl.
    apply IH in H2. now rewrite H2.
Qed.

Lemma foldM_app {A B} (f : B -> A -> res B) l1 l2 b :
  foldM f (l1 ++ l2) b = (b' <- foldM f l1 b ;; foldM f l2 b').
Proof.
  revert b. induction l1 as [|a l1 IH]; intros b; simpl; [reflexivity|].
  destruct (f b a); simpl; auto.
Qed.
