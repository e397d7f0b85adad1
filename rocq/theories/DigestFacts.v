(** * Hashes and accounts of Cosmos keys: proofs *)
From Coq Require Import List NArith Bool Lia Arith.
From Verif Require Import Base BaseFacts Bech32 Bech32Facts Mailbox CodecSummary Digest SpecDigest.
Import ListNotations.

Transparent sha256 ripemd160.

Lemma app_split {A} (a b c d : list A) : length a = length b -> a ++ c = b ++ d -> a = b /\ c = d.
Proof.
  revert b. induction a as [|x a IH]; intros [|y b] L E; try discriminate L; [now split|]. cbn [app] in E. injection E as <- E.
  injection L as L. destruct (IH b L E) as [-> ->]. now split.
Qed.

(** ** Padding *)
Lemma pad_length wr l : (forall n, length (wr n) = 8%nat) -> (length (md_pad wr l) mod 64 = 0)%nat.
Proof.
  intros W. unfold md_pad. rewrite app_length. cbn [length]. rewrite app_length, repeat_length, W.
  assert (E : (length l + S (N.to_nat ((119 - N.of_nat (length l) mod 64) mod 64) + 8))%nat = N.to_nat (N.of_nat (length l) + 9 + (119 - N.of_nat (length l) mod 64) mod 64)) by lia.
  rewrite E. change 64%nat with (N.to_nat 64). rewrite <- N2Nat.inj_mod. change 0%nat with (N.to_nat 0). f_equal.
  generalize (N.of_nat (length l)) as n. intros n. pose proof (N.div_mod n 64) as D. pose proof (N.mod_lt n 64) as L. specialize (D ltac:(lia)). specialize (L ltac:(lia)).
  set (q := n / 64) in *. set (r := n mod 64) in *. clearbody q r. subst n.
  destruct (N.lt_ge_cases r 56) as [H|H].
  - replace ((119 - r) mod 64) with (55 - r). { replace (64 * q + r + 9 + (55 - r)) with ((q + 1) * 64) by lia. apply N.mod_mul. lia. }
    apply N.mod_unique with 1; lia.
  - replace ((119 - r) mod 64) with (119 - r). { replace (64 * q + r + 9 + (119 - r)) with ((q + 2) * 64) by lia. apply N.mod_mul. lia. }
    symmetry. apply N.mod_small. lia.
Qed.

Fixpoint blocks (n : nat) (l : bytes) : list bytes :=
  match n with O => [] | S n' => firstn 64 l :: blocks n' (skipn 64 l) end.
Lemma blocks_concat n : forall l, length l = (64 * n)%nat -> concat (blocks n l) = l.
Proof.
  induction n as [|n IH]; intros l H. { destruct l; [reflexivity|cbn [length] in H; lia]. }
  cbn [blocks concat]. rewrite IH. { apply firstn_skipn. } rewrite skipn_length. lia.
Qed.
Lemma blocks_64 n : forall l, length l = (64 * n)%nat -> Forall (fun b => length b = 64%nat) (blocks n l).
Proof.
  induction n as [|n IH]; intros l H; [constructor|]. cbn [blocks]. constructor. { rewrite firstn_length. lia. }
  apply IH. rewrite skipn_length. lia.
Qed.
Lemma blocks_length n l : length (blocks n l) = n.
Proof. revert l. induction n as [|n IH]; intros l; [reflexivity|]. cbn [blocks length]. now rewrite IH. Qed.
Lemma run_blocks {St} (f : St -> bytes -> St) n : forall fuel st l, length l = (64 * n)%nat -> (n <= fuel)%nat ->
  md_run f fuel st l = fold_left f (blocks n l) st.
Proof.
  induction n as [|n IH]; intros fuel st l H Hf. { destruct l; [|cbn [length] in H; lia]. now destruct fuel. }
  destruct fuel as [|fuel]; [lia|]. destruct l as [|b l]; [cbn [length] in H; lia|]. cbn [md_run blocks fold_left].
  apply IH; [|lia]. rewrite skipn_length, H. lia.
Qed.

Fixpoint fed {St} (f : St -> bytes -> St) (st : St) (xs : list bytes) : list (St * bytes) :=
  match xs with [] => [] | x :: xs' => (st, x) :: fed f (f st x) xs' end.
Lemma fed_app {St} (f : St -> bytes -> St) xs ys : forall st, fed f st (xs ++ ys) = fed f st xs ++ fed f (fold_left f xs st) ys.
Proof. induction xs as [|x xs IH]; intros st; [reflexivity|]. cbn [app fed fold_left]. now rewrite IH. Qed.
Lemma inputs_blocks {St} (f : St -> bytes -> St) n : forall fuel st l, length l = (64 * n)%nat -> (n <= fuel)%nat ->
  inputs f fuel st l = fed f st (blocks n l).
Proof.
  induction n as [|n IH]; intros fuel st l H Hf. { destruct l; [|cbn [length] in H; lia]. now destruct fuel. }
  destruct fuel as [|fuel]; [lia|]. destruct l as [|b l]; [cbn [length] in H; lia|]. cbn [inputs blocks fed]. f_equal.
  apply IH; [|lia]. rewrite skipn_length, H. lia.
Qed.

Section Collide.
  Context {St : Type}.
  Variable f : St -> bytes -> St.
  Variable dec : forall x y : St, {x = y} + {x <> y}.
  Definition fed_collide (i : St) (xs ys : list bytes) : Prop :=
    exists u v, In u (fed f i xs) /\ In v (fed f i ys) /\ u <> v /\ f (fst u) (snd u) = f (fst v) (snd v).

  Lemma last_fed i xs ys x y : (fold_left f xs i, x) <> (fold_left f ys i, y) -> fold_left f (xs ++ [x]) i = fold_left f (ys ++ [y]) i ->
    fed_collide i (xs ++ [x]) (ys ++ [y]).
  Proof.
    intros N H. rewrite !fold_left_app in H. cbn [fold_left] in H. exists (fold_left f xs i, x), (fold_left f ys i, y).
    rewrite !fed_app. cbn [fed]. split; [apply in_or_app; right; now left|]. split; [apply in_or_app; right; now left|]. split; assumption.
  Qed.
  Lemma fold_collide i : forall xs ys, length xs = length ys -> fold_left f xs i = fold_left f ys i -> xs = ys \/ fed_collide i xs ys.
  Proof.
    induction xs as [|x xs IH] using rev_ind; intros ys L H. { destruct ys; [now left|discriminate L]. }
    destruct ys as [|y ys _] using rev_ind. { rewrite app_length in L. cbn [length] in L. lia. }
    rewrite !app_length in L. cbn [length] in L.
    destruct (list_eq_dec Byte.byte_eq_dec x y) as [->|N].
    - destruct (dec (fold_left f xs i) (fold_left f ys i)) as [E|N].
      + destruct (IH ys) as [->|(u & v & U & V & C)]; [lia|assumption|now left|]. right. exists u, v. rewrite !fed_app.
        split; [apply in_or_app; now left|]. split; [apply in_or_app; now left|exact C].
      + right. apply last_fed; [|exact H]. intros E. now injection E.
    - right. apply last_fed; [|exact H]. intros E. now injection E.
  Qed.

  Variable wr : N -> bytes.
  Hypothesis wr_length : forall n, length (wr n) = 8%nat.
  Hypothesis wr_inj : forall m n, m < 2 ^ 64 -> n < 2 ^ 64 -> wr m = wr n -> m = n.

  Lemma pad_blocks l : exists n, length (md_pad wr l) = (64 * S n)%nat.
  Proof.
    pose proof (pad_length wr l wr_length) as M. apply Nat.mod_divides in M as [k E]; [|lia].
    destruct k as [|k]; [|now exists k]. unfold md_pad in E. rewrite app_length in E. cbn [length] in E. lia.
  Qed.
  Lemma pad_split l n : length (md_pad wr l) = (64 * S n)%nat ->
    exists xs x t, blocks (S n) (md_pad wr l) = xs ++ [x] /\ length x = 64%nat /\ length t = 56%nat /\ x = t ++ wr (8 * N.of_nat (length l)).
  Proof.
    intros H. pose proof (blocks_concat (S n) _ H) as C. pose proof (blocks_64 (S n) _ H) as F. pose proof (blocks_length (S n) (md_pad wr l)) as L.
    destruct (blocks (S n) (md_pad wr l)) as [|x xs _] using rev_ind; [discriminate L|].
    apply Forall_app in F as [F X]. apply Forall_inv in X. rewrite concat_app in C. cbn [concat] in C. rewrite app_nil_r in C.
    exists xs, x, (firstn 56 x). split; [reflexivity|]. split; [exact X|]. split; [rewrite firstn_length; lia|].
    rewrite <- (firstn_skipn 56 x) at 1. f_equal. unfold md_pad in C.
    change (x80 :: ?a ++ ?b) with ((x80 :: a) ++ b) in C. rewrite app_assoc in C. rewrite <- (firstn_skipn 56 x), app_assoc in C.
    apply (f_equal (@rev byte)) in C. rewrite !rev_app_distr in C.
    assert (E : rev (skipn 56 x) = rev (wr (8 * N.of_nat (length l)))).
    { rewrite <- (firstn_all (rev (skipn 56 x))), <- (firstn_all (rev (wr (8 * N.of_nat (length l))))).
      rewrite !rev_length, wr_length, skipn_length, X. change (64 - 56)%nat with 8%nat.
      apply (f_equal (firstn 8)) in C. rewrite !firstn_app, !rev_length, wr_length, skipn_length, X in C. change (64 - 56)%nat with 8%nat in C.
      rewrite Nat.sub_diag in C. cbn [firstn] in C. rewrite !app_nil_r in C. exact C. }
    apply (f_equal (@rev byte)) in E. now rewrite !rev_involutive in E.
  Qed.
  Lemma md_collide i a b : short a -> short b ->
    md_run f (length (md_pad wr a)) i (md_pad wr a) = md_run f (length (md_pad wr b)) i (md_pad wr b) ->
    a = b \/ collide f i (md_pad wr a) (md_pad wr b).
  Proof.
    intros Sa Sb H. unfold short in Sa, Sb. destruct (pad_blocks a) as (n & La). destruct (pad_blocks b) as (m & Lb).
    rewrite (run_blocks f (S n)), (run_blocks f (S m)) in H by (try assumption; lia).
    assert (K : fed_collide i (blocks (S n) (md_pad wr a)) (blocks (S m) (md_pad wr b)) -> collide f i (md_pad wr a) (md_pad wr b)).
    { unfold collide, fed_collide. rewrite (inputs_blocks f (S n)), (inputs_blocks f (S m)) by (try assumption; lia). easy. }
    destruct (Nat.eq_dec (length a) (length b)) as [E|E].
    - assert (n = m). { unfold md_pad in La, Lb. rewrite !app_length in La, Lb. cbn [length] in La, Lb. rewrite !app_length, !wr_length in La, Lb. rewrite E in La. lia. }
      subst m. destruct (fold_collide i _ _ (eq_trans (blocks_length (S n) (md_pad wr a)) (eq_sym (blocks_length (S n) (md_pad wr b)))) H) as [Eb|C]; [|right; now apply K].
      left. apply (f_equal (@concat byte)) in Eb. rewrite !blocks_concat in Eb by assumption. unfold md_pad in Eb. now apply app_split in Eb as [Eb _].
    - right. apply K. destruct (pad_split a n La) as (xs & x & t & Ex & X & T & Hx). destruct (pad_split b m Lb) as (ys & y & u & Ey & Y & U & Hy).
      rewrite Ex, Ey in *. apply last_fed; [|exact H]. intros Exy. injection Exy as _ Exy. rewrite Exy in Hx. rewrite Hx in Hy.
      apply app_split in Hy as [_ Hy]; [|congruence]. apply wr_inj in Hy; lia.
  Qed.
End Collide.

(** ** Words *)
Lemma add32_lt a b : add32 a b < 2 ^ 32.
Proof. unfold add32. change mask32 with (N.ones 32). rewrite N.land_ones. apply N.mod_lt. discriminate. Qed.
Lemma be_inj k m n : m < 256 ^ N.of_nat k -> n < 256 ^ N.of_nat k -> be k m = be k n -> m = n.
Proof. intros Hm Hn E. apply (f_equal of_be) in E. now rewrite !of_be_be_small in E. Qed.
Lemma le_length k n : length (le k n) = k.
Proof. unfold le. rewrite rev_length. apply be_length. Qed.
Lemma le_inj k m n : m < 256 ^ N.of_nat k -> n < 256 ^ N.of_nat k -> le k m = le k n -> m = n.
Proof. intros Hm Hn E. unfold le in E. apply (f_equal (@rev byte)) in E. rewrite !rev_involutive in E. now apply be_inj in E. Qed.

Lemma sha_dec (x y : sha_state) : {x = y} + {x <> y}.
Proof. decide equality; apply N.eq_dec. Qed.
Lemma rmd_dec (x y : rmd_state) : {x = y} + {x <> y}.
Proof. decide equality; apply N.eq_dec. Qed.
Definition sha_small (x : sha_state) : Prop :=
  sA x < 2 ^ 32 /\ sB x < 2 ^ 32 /\ sC x < 2 ^ 32 /\ sD x < 2 ^ 32 /\ sE x < 2 ^ 32 /\ sF x < 2 ^ 32 /\ sG x < 2 ^ 32 /\ sH x < 2 ^ 32.
Definition rmd_small (x : rmd_state) : Prop :=
  rA x < 2 ^ 32 /\ rB x < 2 ^ 32 /\ rC x < 2 ^ 32 /\ rD x < 2 ^ 32 /\ rE x < 2 ^ 32.
Lemma sha_block_small x b : sha_small (sha_block x b).
Proof. unfold sha_small, sha_block. cbv zeta. cbn [sA sB sC sD sE sF sG sH]. repeat split; apply add32_lt. Qed.
Lemma rmd_block_small x b : rmd_small (rmd_block x b).
Proof. unfold rmd_small, rmd_block. cbv zeta. cbn [rA rB rC rD rE]. repeat split; apply add32_lt. Qed.
Lemma run_small {St} (P : St -> Prop) (f : St -> bytes -> St) : (forall x b, P (f x b)) -> forall n x l, P x -> P (md_run f n x l).
Proof. intros H. induction n as [|n IH]; intros x l Px; [exact Px|]. cbn [md_run]. destruct l; [exact Px|]. apply IH, H. Qed.
Lemma sha_run_small n l : sha_small (md_run sha_block n sha_init l).
Proof. apply run_small; [exact sha_block_small|]. repeat split. Qed.
Lemma rmd_run_small n l : rmd_small (md_run rmd_block n rmd_init l).
Proof. apply run_small; [exact rmd_block_small|]. repeat split. Qed.

(** ** The hashes *)
Lemma sha256_length l : length (sha256 l) = 32%nat.
Proof. unfold sha256. cbv zeta. rewrite !app_length, !be_length. reflexivity. Qed.
Lemma ripemd160_length l : length (ripemd160 l) = 20%nat.
Proof. unfold ripemd160. cbv zeta. rewrite !app_length, !le_length. reflexivity. Qed.
Lemma sha_collide a b : short a -> short b -> sha256 a = sha256 b -> a = b \/ sha_collision a b.
Proof.
  intros Sa Sb H. unfold sha256 in H. cbv zeta in H.
  apply (md_collide sha_block sha_dec (be 8) (be_length 8) (fun m n Hm Hn => be_inj 8 m n Hm Hn) sha_init a b Sa Sb).
  revert H. pose proof (sha_run_small (length (md_pad (be 8) a)) (md_pad (be 8) a)) as P. pose proof (sha_run_small (length (md_pad (be 8) b)) (md_pad (be 8) b)) as Q.
  revert P Q. generalize (md_run sha_block (length (md_pad (be 8) a)) sha_init (md_pad (be 8) a)) (md_run sha_block (length (md_pad (be 8) b)) sha_init (md_pad (be 8) b)).
  intros x y P Q H. destruct x as [x1 x2 x3 x4 x5 x6 x7 x8], y as [y1 y2 y3 y4 y5 y6 y7 y8]. unfold sha_small in P, Q. cbn [sA sB sC sD sE sF sG sH] in *.
  destruct P as (P1 & P2 & P3 & P4 & P5 & P6 & P7 & P8). destruct Q as (Q1 & Q2 & Q3 & Q4 & Q5 & Q6 & Q7 & Q8).
  repeat (apply app_split in H as [?E H]; [|now rewrite !be_length]).
  f_equal; eapply (be_inj 4); eassumption.
Qed.
Lemma rmd_collide a b : short a -> short b -> ripemd160 a = ripemd160 b -> a = b \/ rmd_collision a b.
Proof.
  intros Sa Sb H. unfold ripemd160 in H. cbv zeta in H.
  apply (md_collide rmd_block rmd_dec (le 8) (le_length 8) (fun m n Hm Hn => le_inj 8 m n Hm Hn) rmd_init a b Sa Sb).
  revert H. pose proof (rmd_run_small (length (md_pad (le 8) a)) (md_pad (le 8) a)) as P. pose proof (rmd_run_small (length (md_pad (le 8) b)) (md_pad (le 8) b)) as Q.
  revert P Q. generalize (md_run rmd_block (length (md_pad (le 8) a)) rmd_init (md_pad (le 8) a)) (md_run rmd_block (length (md_pad (le 8) b)) rmd_init (md_pad (le 8) b)).
  intros x y P Q H. destruct x as [x1 x2 x3 x4 x5], y as [y1 y2 y3 y4 y5]. unfold rmd_small in P, Q. cbn [rA rB rC rD rE] in *.
  destruct P as (P1 & P2 & P3 & P4 & P5). destruct Q as (Q1 & Q2 & Q3 & Q4 & Q5).
  repeat (apply app_split in H as [?E H]; [|now rewrite !le_length]).
  f_equal; eapply (le_inj 4); eassumption.
Qed.
Global Opaque sha256 ripemd160.

(** ** Accounts of keys *)
Lemma digests l : sha256_digest l = Ok (sha256 l) /\ ripemd160_digest l = Ok (ripemd160 l).
Proof. unfold sha256_digest, ripemd160_digest, exactly. now rewrite sha256_length, ripemd160_length. Qed.
Lemma key_account pk : pub_to_addr pk = Ok (ripemd160 (sha256 pk)) /\ length (ripemd160 (sha256 pk)) = 20%nat.
Proof. unfold pub_to_addr. rewrite (proj1 (digests pk)). cbn [bind]. rewrite (proj2 (digests _)). split; [reflexivity|apply ripemd160_length]. Qed.
Lemma key_collide a b : short a -> short b -> pub_to_addr a = pub_to_addr b -> a = b \/ sha_collision a b \/ rmd_collision (sha256 a) (sha256 b).
Proof.
  intros Sa Sb H. rewrite (proj1 (key_account a)), (proj1 (key_account b)) in H. apply Ok_inj in H.
  destruct (rmd_collide (sha256 a) (sha256 b)) as [E|E]; [unfold short; now rewrite sha256_length..|exact H| |now auto].
  destruct (sha_collide a b Sa Sb E) as [->|C]; auto.
Qed.
Lemma key_text hrp pk a : (1 <= length hrp <= 83)%nat -> forallb is_lower hrp = true -> pub_to_addr pk = Ok a ->
  exists e, bech32_encode hrp a = Ok e /\ bech32_decode e = Ok a /\ bech32_to_h256 e = Ok (zeros 12 ++ a).
Proof.
  intros H1 H2 H. destruct (key_account pk) as [E L]. rewrite E in H. apply Ok_inj in H. subst a. revert L. generalize (ripemd160 (sha256 pk)). intros a L.
  destruct (bech32_roundtrip hrp a H1 H2 (or_intror L)) as (e & R1 & R2 & R3). exists e. split; [exact R1|].
  unfold account in R2. rewrite L in R2, R3. split; [exact R2|exact R3].
Qed.
Lemma digests_length l : exists h r, sha256_digest l = Ok h /\ length h = 32%nat /\ ripemd160_digest l = Ok r /\ length r = 20%nat.
Proof.
  exists (sha256 l), (ripemd160 l). destruct (digests l) as [H1 H2].
  split; [exact H1|]. split; [apply sha256_length|]. split; [exact H2|apply ripemd160_length].
Qed.
