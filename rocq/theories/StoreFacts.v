(** * The database behaves like separate cells. *)
From Coq Require Import List NArith Bool Lia Arith.
From Verif Require Import Base BaseFacts OMap Json JsonFacts Chain Wire WireFacts Store.
Import ListNotations.

(** ** Lexicographic order *)
Lemma ltb_app c x y : bytes_ltb (c ++ x) (c ++ y) = bytes_ltb x y.
Proof. induction c as [|b c IH]; cbn [app bytes_ltb]; [reflexivity|]. now rewrite N.ltb_irrefl. Qed.
Lemma ltb_nil_r x : bytes_ltb x [] = false.
Proof. now destruct x. Qed.
Lemma ltb_asym a b : bytes_ltb a b = true -> bytes_ltb b a = false.
Proof.
  intros H. destruct (bytes_ltb b a) eqn:E; [|reflexivity].
  rewrite <- (bytes_ltb_irrefl a). symmetry. exact (bytes_ltb_trans _ _ _ H E).
Qed.
Lemma le_lt_trans a b c : bytes_ltb b a = false -> bytes_ltb b c = true -> bytes_ltb a c = true.
Proof.
  intros H1 H2. destruct (bytes_ltb a b) eqn:E; [exact (bytes_ltb_trans _ _ _ E H2)|].
  now rewrite (bytes_ltb_total _ _ E H1).
Qed.
Lemma le_trans a b c : bytes_ltb b a = false -> bytes_ltb c b = false -> bytes_ltb c a = false.
Proof.
  intros H1 H2. destruct (bytes_ltb c a) eqn:E; [|reflexivity].
  destruct (bytes_ltb b c) eqn:E2; [rewrite (bytes_ltb_trans _ _ _ E2 E) in H1; discriminate|].
  rewrite (bytes_ltb_total _ _ E2 H2) in H1. congruence.
Qed.
Lemma le_app p x : bytes_ltb (p ++ x) p = false.
Proof. rewrite <- (app_nil_r p) at 2. rewrite ltb_app. apply ltb_nil_r. Qed.
(** nothing lies between a string and the string with a zero behind it *)
Lemma ltb_zero l k : bytes_ltb k (l ++ [x00]) = negb (bytes_ltb l k).
Proof.
  revert k. induction l as [|b l IH]; intros [|c k]; cbn [app bytes_ltb]; try reflexivity.
  - replace (bN c <? bN x00) with false by (symmetry; apply N.ltb_ge; cbv; destruct c; discriminate).
    destruct (bN x00 <? bN c); [reflexivity|]. now rewrite ltb_nil_r.
  - rewrite IH. destruct (bN c <? bN b) eqn:E1, (bN b <? bN c) eqn:E2; try reflexivity.
    apply N.ltb_lt in E1, E2. lia.
Qed.
Lemma ltb_same_length n : forall a b x y, length a = n -> length b = n -> a <> b ->
  bytes_ltb (a ++ x) (b ++ y) = bytes_ltb a b.
Proof.
  induction n as [|n IH]; intros [|c a] [|d b] x y La Lb N; try discriminate; [now contradiction N|].
  cbn [app bytes_ltb]. destruct (bN c <? bN d) eqn:E1; [reflexivity|]. destruct (bN d <? bN c) eqn:E2; [reflexivity|].
  apply N.ltb_ge in E1, E2. assert (c = d) as -> by (apply bN_inj; lia).
  apply IH; [now injection La|now injection Lb|congruence].
Qed.
Lemma ltb_be k : forall m n, m < 256 ^ N.of_nat k -> n < 256 ^ N.of_nat k ->
  bytes_ltb (be k m) (be k n) = (m <? n).
Proof.
  induction k as [|k IH]; intros m n Hm Hn.
  - cbn [be bytes_ltb]. change (256 ^ N.of_nat 0) with 1 in *. symmetry. apply N.ltb_ge. lia.
  - rewrite Nat2N.inj_succ, N.pow_succ_r' in Hm, Hn. cbn [be].
    assert (Dm : m = 256 * (m / 256) + m mod 256) by (apply N.div_mod; discriminate).
    assert (Dn : n = 256 * (n / 256) + n mod 256) by (apply N.div_mod; discriminate).
    assert (Hm' : m / 256 < 256 ^ N.of_nat k) by (apply N.div_lt_upper_bound; [discriminate|exact Hm]).
    assert (Hn' : n / 256 < 256 ^ N.of_nat k) by (apply N.div_lt_upper_bound; [discriminate|exact Hn]).
    assert (Mm : m mod 256 < 256) by (apply N.mod_lt; discriminate).
    assert (Mn : n mod 256 < 256) by (apply N.mod_lt; discriminate).
    destruct (N.eq_dec (m / 256) (n / 256)) as [E|E].
    + rewrite E, ltb_app. cbn [bytes_ltb]. rewrite !bN_nB by assumption.
      destruct (m mod 256 <? n mod 256) eqn:E1; [symmetry; apply N.ltb_lt in E1; apply N.ltb_lt; lia|].
      apply N.ltb_ge in E1. destruct (n mod 256 <? m mod 256); symmetry; apply N.ltb_ge; lia.
    + rewrite (ltb_same_length k) by (try apply be_length; intros X; now apply be_inj in X).
      rewrite IH by assumption.
      destruct (m / 256 <? n / 256) eqn:E1; symmetry; [apply N.ltb_lt in E1; apply N.ltb_lt; lia|].
      apply N.ltb_ge in E1. apply N.ltb_ge. lia.
Qed.

(** ** Prefixes *)
Fixpoint starts (p k : bytes) : bool :=
  match p, k with
  | [], _ => true
  | _ :: _, [] => false
  | b :: p', c :: k' => (byte_eqb b c && starts p' k')%bool
  end.
Lemma starts_iff p k : starts p k = true <-> exists r, k = p ++ r.
Proof.
  revert k. induction p as [|b p IH]; intros k; cbn [starts].
  - split; [intros _; now exists k|reflexivity].
  - destruct k as [|c k]; [split; [discriminate|intros (r & H); discriminate]|].
    rewrite andb_true_iff, byte_eqb_eq, IH. split.
    + intros [-> (r & ->)]. now exists r.
    + intros (r & H). injection H as -> ->. split; [reflexivity|now exists r].
Qed.
Lemma starts_app p r : starts p (p ++ r) = true.
Proof. apply starts_iff. now exists r. Qed.
Lemma starts_split p k : starts p k = true -> k = p ++ skipn (length p) k.
Proof. intros H. apply starts_iff in H as (r & ->). now rewrite skipn_app_exact by reflexivity. Qed.
(** what lies between two strings with a common beginning has it too *)
Lemma between c x y k : bytes_ltb k (c ++ x) = false -> bytes_ltb k (c ++ y) = true -> starts c k = true.
Proof.
  revert k. induction c as [|b c IH]; intros k H1 H2; [reflexivity|]. destruct k as [|d k]; [discriminate H1|].
  cbn [app bytes_ltb] in H1, H2. cbn [starts].
  destruct (bN d <? bN b) eqn:E1; [discriminate H1|]. destruct (bN b <? bN d) eqn:E2; [discriminate H2|].
  apply N.ltb_ge in E1, E2. assert (d = b) as -> by (apply bN_inj; lia). rewrite byte_eqb_refl. now apply IH.
Qed.
Lemma upper_app c x : x <> [] -> carry (rev x) <> map (fun _ => x00) (rev x) -> upper (c ++ x) = c ++ upper x.
Proof.
  intros Hx Hc. unfold upper. rewrite rev_app_distr.
  assert (H : forall a b, carry a <> map (fun _ => x00) a -> carry (a ++ b) = carry a ++ b).
  { induction a as [|v a IH]; intros b H; [now contradiction H|]. cbn [app carry map] in *.
    destruct (bN v =? 255); [|reflexivity]. rewrite IH; [reflexivity|congruence]. }
  rewrite H by exact Hc. now rewrite rev_app_distr, rev_involutive.
Qed.
Lemma upper_be k : forall n, n + 1 < 256 ^ N.of_nat k -> upper (be k n) = be k (n + 1).
Proof.
  unfold upper. induction k as [|k IH]; intros n Hn; [change (256 ^ N.of_nat 0) with 1 in Hn; lia|].
  rewrite Nat2N.inj_succ, N.pow_succ_r' in Hn. cbn [be]. rewrite rev_app_distr. cbn [rev app carry].
  assert (D : n = 256 * (n / 256) + n mod 256) by (apply N.div_mod; discriminate).
  assert (M : n mod 256 < 256) by (apply N.mod_lt; discriminate).
  rewrite bN_nB by exact M. destruct (n mod 256 =? 255) eqn:E.
  - apply N.eqb_eq in E. cbn [rev]. rewrite IH by (apply N.mul_lt_mono_pos_l with 256; lia).
    assert (E1 : (n + 1) / 256 = n / 256 + 1) by (symmetry; apply N.div_unique with 0; lia).
    assert (E2 : (n + 1) mod 256 = 0) by (symmetry; apply N.mod_unique with (n / 256 + 1); lia).
    now rewrite E1, E2.
  - apply N.eqb_neq in E. cbn [rev]. rewrite rev_involutive.
    assert (E1 : (n + 1) / 256 = n / 256) by (symmetry; apply N.div_unique with (n mod 256 + 1); lia).
    assert (E2 : (n + 1) mod 256 = n mod 256 + 1) by (symmetry; apply N.mod_unique with (n / 256); lia).
    now rewrite E1, E2.
Qed.
(** a name, as long as it does not end in 255 *)
Definition tame (p : bytes) : Prop := exists q b, p = q ++ [b] /\ bN b <> 255.
Lemma upper_tame p k : tame p -> (negb (bytes_ltb k p) && bytes_ltb k (upper p))%bool = starts p k.
Proof.
  intros (q & b & -> & Hb). apply N.eqb_neq in Hb as Hb'.
  assert (U : upper (q ++ [b]) = q ++ [nB (bN b + 1)]).
  { unfold upper. rewrite rev_app_distr. cbn [rev app carry]. rewrite Hb'. cbn [rev]. now rewrite rev_involutive. }
  rewrite U. pose proof (bN_lt b) as Lb. destruct (starts (q ++ [b]) k) eqn:E.
  - apply starts_split in E. rewrite E. rewrite le_app. cbn [negb andb].
    rewrite <- app_assoc, ltb_app. cbn [app bytes_ltb]. rewrite bN_nB by lia.
    replace (bN b <? bN b + 1) with true by (symmetry; apply N.ltb_lt; lia). reflexivity.
  - destruct (bytes_ltb k (q ++ [b])) eqn:E1; [reflexivity|]. cbn [negb andb].
    destruct (bytes_ltb k (q ++ [nB (bN b + 1)])) eqn:E2; [|reflexivity]. exfalso.
    pose proof (between q _ _ _ E1 E2) as S. apply starts_split in S. rewrite S in E, E1, E2. rewrite ltb_app in E1, E2.
    destruct (skipn (length q) k) as [|d r]; [discriminate E1|]. cbn [bytes_ltb] in E1, E2. rewrite bN_nB in E2 by lia.
    destruct (bN d <? bN b) eqn:F1; [discriminate E1|]. apply N.ltb_ge in F1.
    destruct (bN d <? bN b + 1) eqn:F2.
    + apply N.ltb_lt in F2. assert (d = b) as -> by (apply bN_inj; lia).
      change (b :: r) with ([b] ++ r) in E. rewrite app_assoc, starts_app in E. discriminate.
    + destruct (bN b + 1 <? bN d); [discriminate E2|]. rewrite ltb_nil_r in E2. discriminate.
Qed.

(** ** Cells in a database *)
Definition claims (c : cell) (k : bytes) : bool :=
  match c with One k' _ => bytes_eqb k k' | Many ns _ => starts (prefix [ns]) k end.
Definition cell_get (c : cell) (k : bytes) : option bytes :=
  match c with
  | One _ v => v
  | Many ns l => om_get (skipn (length (prefix [ns])) k) l
  end.
Definition title (c : cell) : bool * str := match c with One k _ => (true, k) | Many ns _ => (false, ns) end.
(** names that cannot be mistaken for each other *)
Definition plain (c : cell) : bool :=
  match c with
  | One (b :: _) _ => negb (byte_eqb b x00)
  | One [] _ => false
  | Many ns _ => Nat.ltb (length ns) 256
  end.
Definition ordered (c : cell) : Prop := match c with One _ _ => True | Many _ l => om_sorted l end.
Record neat (l : list cell) : Prop := mkNeat {
  n_plain : forallb plain l = true; n_titles : NoDup (map title l); n_ordered : Forall ordered l }.

Lemma named_zero ns : (length ns < 256)%nat -> prefix [ns] = x00 :: nB (N.of_nat (length ns)) :: ns.
Proof.
  intros L. unfold prefix, flat_map, named. rewrite app_nil_r. cbn [be app].
  rewrite (N.div_small (N.of_nat (length ns))) by lia. rewrite (N.mod_small (N.of_nat (length ns))) by lia. reflexivity.
Qed.
Lemma claims_title c c' k : plain c = true -> plain c' = true -> claims c k = true -> claims c' k = true -> title c = title c'.
Proof.
  assert (X : forall k0 v ns l, plain (One k0 v) = true -> plain (Many ns l) = true -> claims (One k0 v) k = true ->
              claims (Many ns l) k = true -> False).
  { intros k0 v ns l P1 P2 H1 H2. cbn [plain claims] in *. apply bytes_eqb_eq in H1. subst k0.
    apply Nat.ltb_lt in P2. rewrite named_zero in H2 by exact P2. destruct k as [|b k]; [discriminate|].
    cbn [starts] in H2. apply andb_true_iff in H2 as [H2 _]. apply byte_eqb_eq in H2. subst b. discriminate. }
  destruct c as [k1 v1|n1 l1], c' as [k2 v2|n2 l2]; intros P1 P2 H1 H2.
  - cbn [claims] in *. apply bytes_eqb_eq in H1, H2. now subst.
  - destruct (X _ _ _ _ P1 P2 H1 H2).
  - destruct (X _ _ _ _ P2 P1 H2 H1).
  - cbn [plain claims title] in *. apply Nat.ltb_lt in P1, P2. rewrite named_zero in H1, H2 by assumption.
    destruct k as [|a [|b k]]; try discriminate H1; [cbn in H1; now rewrite andb_false_r in H1|].
    cbn [starts] in H1, H2. apply andb_true_iff in H1 as [_ H1], H2 as [_ H2].
    apply andb_true_iff in H1 as [B1 S1], H2 as [B2 S2]. apply byte_eqb_eq in B1, B2. subst b.
    assert (L : length n1 = length n2).
    { apply (f_equal bN) in B2. rewrite !bN_nB in B2 by lia. lia. }
    apply starts_iff in S1 as (r1 & ->), S2 as (r2 & S2). apply app_inj_len in S2 as [-> _]; [reflexivity|exact L].
Qed.

Lemma om_get_app {V} k (a b : omap bytes V) :
  om_get k (a ++ b) = match om_get k a with Some v => Some v | None => om_get k b end.
Proof. induction a as [|[x v] a IH]; cbn [app om_get]; [reflexivity|]. now destruct (keqb k x). Qed.
Lemma om_get_notin {V} k (l : omap bytes V) : ~ In k (map fst l) -> om_get k l = None.
Proof.
  induction l as [|[x v] l IH]; cbn [map fst In om_get]; intros H; [reflexivity|].
  destruct (keqb k x) eqn:E; [apply keqb_eq in E; subst; tauto|]. apply IH. tauto.
Qed.
Lemma om_of_list_get {V} k (l : omap bytes V) : NoDup (map fst l) -> om_get k (om_of_list l) = om_get k l.
Proof.
  intros H. unfold om_of_list.
  assert (G : forall m, om_get k (fold_left (fun m p => om_set (fst p) (snd p) m) l m)
                = match om_get k l with Some v => Some v | None => om_get k m end).
  { induction l as [|[x v] l IH]; intros m; [reflexivity|]. cbn [fold_left fst snd om_get].
    inversion H as [|? ? Hn Hd]; subst. rewrite IH by exact Hd. rewrite om_get_set.
    destruct (keqb k x) eqn:E; [|reflexivity]. apply keqb_eq in E. subst x. now rewrite om_get_notin. }
  rewrite G. now destruct (om_get k l).
Qed.
Lemma entries_claimed c k : In k (map fst (entries c)) -> claims c k = true.
Proof.
  destruct c as [k' [v|]|ns l]; cbn [entries map fst In claims]; [|tauto|].
  - intros [->|[]]. apply bytes_eqb_refl.
  - rewrite map_map. cbn [fst]. intros H. apply in_map_iff in H as (p & <- & _). apply starts_app.
Qed.
Lemma prefixed_get {V} (p k : bytes) (l : omap bytes V) :
  om_get k (map (fun e => (p ++ fst e, snd e)) l) = if starts p k then om_get (skipn (length p) k) l else None.
Proof.
  induction l as [|[x v] l IH]; cbn [map om_get fst snd]; [now destruct (starts p k)|]. rewrite IH.
  destruct (starts p k) eqn:E.
  - apply starts_split in E. rewrite E at 1.
    destruct (keqb (skipn (length p) k) x) eqn:E2.
    + apply keqb_eq in E2. rewrite E2. now rewrite keqb_refl.
    + apply keqb_neq in E2. assert (keqb (p ++ skipn (length p) k) (p ++ x) = false) as ->; [|reflexivity].
      apply keqb_neq. intros X. now apply app_inv_head in X.
  - assert (keqb k (p ++ x) = false) as ->; [|reflexivity]. apply keqb_neq. intros ->. rewrite starts_app in E. discriminate.
Qed.
Lemma entries_get c k : om_get k (entries c) = if claims c k then cell_get c k else None.
Proof.
  destruct c as [k' [v|]|ns l]; cbn [entries claims cell_get om_get].
  - destruct (bytes_eqb k k') eqn:E.
    + apply bytes_eqb_eq in E. subst. now rewrite keqb_refl.
    + apply bytes_eqb_neq in E. apply keqb_neq in E. now rewrite E.
  - now destruct (bytes_eqb k k').
  - apply (prefixed_get (prefix [ns]) k l).
Qed.
Lemma NoDup_app' {A} (a b : list A) : NoDup a -> NoDup b -> (forall x, In x a -> ~ In x b) -> NoDup (a ++ b).
Proof.
  induction a as [|x a IH]; intros Ha Hb H; [exact Hb|]. inversion Ha as [|? ? Hn Hd]; subst. cbn [app]. constructor.
  - rewrite in_app_iff. intros [X|X]; [contradiction|]. exact (H x (or_introl eq_refl) X).
  - apply IH; auto. intros y Hy. apply H. now right.
Qed.
Lemma entries_NoDup c : ordered c -> NoDup (map fst (entries c)).
Proof.
  destruct c as [k' [v|]|ns l]; cbn [entries ordered map fst]; intros H; [repeat constructor; auto|constructor|].
  apply om_sorted_NoDup in H. unfold om_keys in H. rewrite map_map. cbn [fst].
  rewrite <- (map_map fst (path ns)). apply FinFun.Injective_map_NoDup; [|exact H].
  intros a b X. now apply app_inv_head in X.
Qed.
Lemma cells_claimed l k : In k (map fst (flat_map entries l)) -> exists c, In c l /\ claims c k = true.
Proof.
  intros H. apply in_map_iff in H as (p & <- & H). apply in_flat_map in H as (c & Hc & H).
  exists c. split; [exact Hc|]. apply entries_claimed. now apply in_map.
Qed.
Lemma cells_NoDup l : neat l -> NoDup (map fst (flat_map entries l)).
Proof.
  intros [P T O]. induction l as [|c l IH]; [constructor|]. cbn [flat_map map forallb] in *. rewrite map_app.
  apply andb_true_iff in P as [P1 P2]. inversion T as [|? ? Tn Td]; subst. inversion O as [|? ? O1 O2]; subst.
  apply NoDup_app'; [now apply entries_NoDup|now apply IH|].
  intros k H1 H2. apply entries_claimed in H1. apply cells_claimed in H2 as (c' & Hc & H2).
  rewrite forallb_forall in P2. apply Tn. rewrite (claims_title c c' k P1 (P2 _ Hc) H1 H2). now apply in_map.
Qed.
(** the value at a key is that of the one cell it belongs to *)
Lemma layout_get l c k : neat l -> In c l -> claims c k = true -> om_get k (layout l) = cell_get c k.
Proof.
  intros Hn Hc Hk. unfold layout. rewrite om_of_list_get by now apply cells_NoDup.
  destruct Hn as [P T O]. induction l as [|c' l IH]; [destruct Hc|]. cbn [flat_map map forallb] in *.
  apply andb_true_iff in P as [P1 P2]. inversion T as [|? ? Tn Td]; subst. inversion O as [|? ? O1 O2]; subst.
  rewrite om_get_app, entries_get. destruct Hc as [->|Hc].
  - rewrite Hk. destruct (cell_get c k) eqn:E; [reflexivity|]. apply om_get_notin. intros H.
    apply cells_claimed in H as (c' & Hc & H). rewrite forallb_forall in P2. apply Tn.
    rewrite (claims_title c c' k P1 (P2 _ Hc) Hk H). now apply in_map.
  - destruct (claims c' k) eqn:E; [|now apply IH]. exfalso. rewrite forallb_forall in P2. apply Tn.
    rewrite (claims_title c' c k P1 (P2 _ Hc) E Hk). now apply in_map.
Qed.
Lemma layout_unclaimed l k : neat l -> (forall c, In c l -> claims c k = false) -> om_get k (layout l) = None.
Proof.
  intros Hn H. unfold layout. rewrite om_of_list_get by now apply cells_NoDup. apply om_get_notin. intros X.
  apply cells_claimed in X as (c & Hc & X). rewrite (H c Hc) in X. discriminate.
Qed.
Lemma layout_sorted l : om_sorted (layout l).
Proof. apply om_of_list_sorted. Qed.

(** ** Scans *)
Lemma filter_sorted {V} (f : bytes * V -> bool) (m : omap bytes V) : om_sorted m -> om_sorted (filter f m).
Proof.
  induction m as [|[k v] m IH]; cbn [filter om_sorted]; [trivial|]. intros [H1 H2]. destruct (f (k, v)); [|auto].
  cbn [om_sorted]. split; [|auto]. apply Forall_forall. intros p Hp. apply filter_In in Hp as [Hp _].
  rewrite Forall_forall in H1. auto.
Qed.
Lemma filter_get {V} (f : bytes -> bool) k (m : omap bytes V) :
  om_get k (filter (fun p => f (fst p)) m) = if f k then om_get k m else None.
Proof.
  induction m as [|[x v] m IH]; cbn [filter om_get fst]; [now destruct (f k)|].
  destruct (f x) eqn:E; cbn [om_get].
  - destruct (keqb k x) eqn:E2; [apply keqb_eq in E2; subst; now rewrite E|exact IH].
  - destruct (keqb k x) eqn:E2; [apply keqb_eq in E2; subst; rewrite E in *; exact IH|exact IH].
Qed.
Lemma prefixed_sorted {V} p (m : omap bytes V) : om_sorted m -> om_sorted (map (fun e => (p ++ fst e, snd e)) m).
Proof.
  induction m as [|[k v] m IH]; cbn [map om_sorted fst snd]; [trivial|]. intros [H1 H2]. split; [|auto].
  apply Forall_forall. intros e He. apply in_map_iff in He as (e' & <- & He). rewrite Forall_forall in H1.
  cbn [fst klt OrdBytes]. rewrite ltb_app. exact (H1 _ He).
Qed.
Lemma trim_prefixed {V} p (m : omap bytes V) :
  map (fun e => (skipn (length p) (fst e), snd e)) (map (fun e => (p ++ fst e, snd e)) m) = m.
Proof.
  rewrite map_map. rewrite <- (map_id m) at 2. apply map_ext. intros [k v]. cbn [fst snd]. now rewrite skipn_app_exact by reflexivity.
Qed.
(** a scan of which every key read begins with [p] *)
Lemma scan_section l p (lo hi : bytes) o (g : bytes -> bool) m :
  neat l -> om_sorted m ->
  (forall k, om_get (p ++ k) (layout l) = om_get k m) ->
  (forall k v, om_get k (layout l) = Some v -> (negb (bytes_ltb k lo) && bytes_ltb k hi)%bool = true -> starts p k = true) ->
  (forall k v, om_get k m = Some v -> (negb (bytes_ltb (p ++ k) lo) && bytes_ltb (p ++ k) hi)%bool = g k) ->
  map (fun e => (skipn (length p) (fst e), snd e)) (scan lo hi o (layout l))
  = match o with Asc => filter (fun e => g (fst e)) m | Desc => rev (filter (fun e => g (fst e)) m) end.
Proof.
  intros Hn Hm Hg Hs Hk.
  assert (E : filter (fun e => negb (bytes_ltb (fst e) lo) && bytes_ltb (fst e) hi)%bool (layout l)
              = map (fun e => (p ++ fst e, snd e)) (filter (fun e => g (fst e)) m)).
  { apply om_sorted_ext; [apply filter_sorted, layout_sorted|apply prefixed_sorted, filter_sorted, Hm|].
    intros k. rewrite (filter_get (fun k => negb (bytes_ltb k lo) && bytes_ltb k hi)%bool), prefixed_get, filter_get.
    destruct (starts p k) eqn:S.
    - apply starts_split in S. set (r := skipn (length p) k) in *. rewrite S. rewrite Hg.
      destruct (om_get r m) eqn:G; [rewrite (Hk _ _ G); now destruct (g r)|].
      destruct (negb _ && _)%bool; now destruct (g r).
    - destruct (negb _ && _)%bool eqn:B; [|reflexivity].
      destruct (om_get k (layout l)) eqn:G; [|reflexivity]. rewrite (Hs _ _ G B) in S. discriminate. }
  unfold scan. rewrite E. destruct o; [apply trim_prefixed|]. rewrite <- map_rev, trim_prefixed.
  reflexivity.
Qed.

(** ** Values *)
(** a type of which what is stored is read back; it may be [null] *)
Definition kept {A} (c : codec A) : Prop := forall a, fits c a = true -> value_read c (value_text c a) = Some a.
Lemma kept_good {A} (c : codec A) : good c -> kept c.
Proof. intros G a F. unfold value_read, value_text. rewrite (parse_text _ (g_small c G a F)). exact (g_back c G a F). Qed.
Lemma kept_option {A} (c : codec A) : good c -> kept (option_c c).
Proof.
  intros G [a|] F; unfold value_read, value_text; cbn [option_c write fits] in *.
  - rewrite (parse_text _ (g_small c G a F)). cbn [option_c read]. pose proof (g_there c G a F). pose proof (g_back c G a F) as B.
    destruct (write c a); try contradiction; now rewrite B.
  - rewrite parse_text by reflexivity. reflexivity.
Qed.
Lemma good_octets : good octets_c.
Proof.
  assert (G : good (list_c u8_c)) by apply good_list, good_u8.
  assert (X : forall l, forallb u8_ok l = true -> map bN (map nB l) = l).
  { induction l as [|n l IH]; cbn [forallb map]; intros H; [reflexivity|]. apply andb_true_iff in H as [H1 H2].
    rewrite IH by exact H2. apply N.ltb_lt in H1. now rewrite bN_nB by exact H1. }
  assert (Y : forall b : bytes, map nB (map bN b) = b).
  { intros b. rewrite map_map. rewrite <- (map_id b) at 2. apply map_ext, nB_bN. }
  split; unfold octets_c; cbn [as_c read write fits].
  - intros b F. rewrite (g_back _ G _ F). cbn [option_map]. now rewrite Y.
  - intros b F. exact (g_small _ G _ F).
  - intros b F. exact (g_there _ G _ F).
  - intros j b H. destruct (read (list_c u8_c) j) as [l|] eqn:E; [|discriminate]. injection H as <-.
    pose proof (g_fits _ G _ _ E) as F. rewrite X by exact F. exact F.
  - intros j b F A. rewrite (g_alike _ G j _ F A). cbn [option_map]. now rewrite Y.
Qed.
Lemma octets_fit b : fits octets_c b = true.
Proof.
  unfold octets_c. cbn [as_c fits list_c]. apply forallb_forall. intros n H. apply in_map_iff in H as (x & <- & _).
  apply N.ltb_lt, bN_lt.
Qed.

(** ** Items *)
Lemma may_load_maybe {A} (c : codec A) k o l :
  neat l -> In (maybe k c o) l -> kept c -> match o with Some a => fits c a = true | None => True end ->
  may_load c k (layout l) = Ok o.
Proof.
  intros N I K F. unfold may_load. rewrite (layout_get l _ k N I) by apply bytes_eqb_refl. cbn [cell_get maybe].
  destruct o as [a|]; cbn [option_map]; [|reflexivity]. now rewrite (K a F).
Qed.
Lemma load_item {A} (c : codec A) k a l :
  neat l -> In (item k c a) l -> kept c -> fits c a = true -> load c k (layout l) = Ok a.
Proof.
  intros N I K F. unfold load, may_load. rewrite (layout_get l _ k N I) by apply bytes_eqb_refl. cbn [cell_get item].
  now rewrite (K a F).
Qed.

(** ** Maps *)
Record key_kind {X} {OK : OrdKey X} (ok : X -> bool) (key : X -> bytes) (back : bytes -> option X) : Prop := mkKind {
  kk_back : forall k, ok k = true -> back (key k) = Some k;
  kk_order : forall a b, ok a = true -> ok b = true -> bytes_ltb (key a) (key b) = klt a b }.
Section Kind.
  Context {X : Type} {OK : OrdKey X} (ok : X -> bool) (key : X -> bytes) (back : bytes -> option X).
  Hypothesis KK : key_kind ok key back.
  Definition rows {V} (c : codec V) (m : omap X V) : omap bytes bytes :=
    map (fun p => (key (fst p), value_text c (snd p))) m.
  Definition holds {V} (c : codec V) (m : omap X V) : Prop :=
    om_sorted m /\ Forall (fun p => ok (fst p) = true /\ fits c (snd p) = true) m.
  Lemma rows_sorted {V} (c : codec V) m : holds c m -> om_sorted (rows c m).
  Proof.
    intros [S F]. unfold rows. induction m as [|[k v] m IH]; cbn [map om_sorted] in *; [trivial|].
    destruct S as [S1 S2]. inversion F as [|? ? F1 F2]; subst. split; [|now apply IH].
    apply Forall_forall. intros e He. apply in_map_iff in He as ([k' v'] & <- & He).
    rewrite Forall_forall in S1, F2. destruct (F2 _ He) as [F3 _]. specialize (S1 _ He). cbn [fst klt OrdBytes] in *.
    rewrite (kk_order _ _ _ KK) by tauto. exact S1.
  Qed.
  Lemma key_same a b : ok a = true -> ok b = true -> keqb (key a) (key b) = keqb a b.
  Proof. intros Ha Hb. unfold keqb. cbn [klt OrdBytes]. now rewrite !(kk_order _ _ _ KK) by assumption. Qed.
  Lemma rows_get {V} (c : codec V) m k :
    holds c m -> ok k = true -> om_get (key k) (rows c m) = option_map (value_text c) (om_get k m).
  Proof.
    intros [_ F] Hk. unfold rows. induction m as [|[k' v] m IH]; cbn [map om_get fst snd] in *; [reflexivity|].
    inversion F as [|? ? F1 F2]; subst. rewrite key_same by tauto. destruct (keqb k k'); [reflexivity|]. now apply IH.
  Qed.
  Lemma rows_read {V} (c : codec V) m : kept c -> holds c m ->
    mapM (fun e => match back (fst e), value_read c (snd e) with
                   | Some k, Some a => Ok (k, a)
                   | _, _ => Err EStd
                   end) (rows c m) = Ok m.
  Proof.
    intros K [_ F]. unfold rows. induction m as [|[k v] m IH]; cbn [map mapM fst snd] in *; [reflexivity|].
    inversion F as [|? ? [F1 F3] F2]; subst. cbn [fst snd] in *.
    rewrite (kk_back _ _ _ KK k F1), (K v F3). cbn [bind]. rewrite IH by exact F2. reflexivity.
  Qed.
  Lemma holds_filter {V} (c : codec V) f (m : omap X V) : holds c m -> holds c (filter f m).
  Proof.
    intros [S F]. split.
    - induction m as [|[k v] m IH]; cbn [filter om_sorted] in *; [trivial|]. destruct S as [S1 S2].
      inversion F; subst. destruct (f (k, v)); [|auto]. cbn [om_sorted]. split; [|auto].
      apply Forall_forall. intros p Hp. apply filter_In in Hp as [Hp _]. rewrite Forall_forall in S1. auto.
    - apply Forall_forall. intros p Hp. apply filter_In in Hp as [Hp _]. rewrite Forall_forall in F. auto.
  Qed.
  Lemma rows_filter {V} (c : codec V) (g : bytes -> bool) (f : X -> bool) (m : omap X V) :
    (forall k, ok k = true -> g (key k) = f k) -> holds c m ->
    filter (fun e => g (fst e)) (rows c m) = rows c (filter (fun p => f (fst p)) m).
  Proof.
    intros H [_ F]. unfold rows. induction m as [|[k v] m IH]; cbn [map filter fst snd] in *; [reflexivity|].
    inversion F as [|? ? [F1 F3] F2]; subst. cbn [fst] in *. rewrite (H k F1). destruct (f k); cbn [map]; rewrite <- IH; auto.
  Qed.
  Lemma mapM_rev {A B} (f : A -> res B) l r : mapM f l = Ok r -> mapM f (rev l) = Ok (rev r).
  Proof.
    revert r. induction l as [|a l IH]; cbn [mapM rev]; intros r H; [apply Ok_inj in H as <-; reflexivity|].
    apply bind_Ok_inv in H as (b & H1 & H). apply bind_Ok_inv in H as (bs & H2 & H). apply Ok_inj in H as <-.
    specialize (IH _ H2). cbn [rev]. clear - IH H1.
    revert IH. generalize (rev l) (rev bs). intros l' bs' H. revert bs' H.
    induction l' as [|x l' IH]; cbn [mapM app]; intros bs' H.
    - apply Ok_inj in H as <-. rewrite H1. reflexivity.
    - apply bind_Ok_inv in H as (y & Hy & H). apply bind_Ok_inv in H as (ys & Hs & H). apply Ok_inj in H as <-.
      rewrite Hy. cbn [bind]. rewrite (IH _ Hs). reflexivity.
  Qed.

  Lemma mapM_firstn {A B} (f : A -> res B) n : forall l r, mapM f l = Ok r -> mapM f (firstn n l) = Ok (firstn n r).
  Proof.
    induction n as [|n IH]; intros l r H; [reflexivity|]. destruct l as [|a l]; cbn [mapM firstn] in *; [apply Ok_inj in H as <-; reflexivity|].
    apply bind_Ok_inv in H as (b & H1 & H). apply bind_Ok_inv in H as (bs & H2 & H). apply Ok_inj in H as <-.
    rewrite H1. cbn [bind]. rewrite (IH _ _ H2). reflexivity.
  Qed.

  (** a scan below [p] where the rows of [m] lie *)
  Lemma load_range_section {V} (c : codec V) l p m start stop o :
    neat l -> kept c -> holds c m ->
    (forall k, om_get (p ++ k) (layout l) = om_get k (rows c m)) ->
    (forall k v, om_get k (layout l) = Some v -> (negb (bytes_ltb k p) && bytes_ltb k (upper p))%bool = true -> starts p k = true) ->
    (forall k v, om_get k (rows c m) = Some v -> bytes_ltb (p ++ k) (upper p) = true) ->
    match start with Some k => ok k = true | None => True end ->
    match stop with Some k => ok k = true | None => True end ->
    load_range back c p (option_map key start) (option_map key stop) o (layout l)
    = Ok (let f := filter (fun e => (match start with Some k => klt k (fst e) | None => true end &&
                                     match stop with Some k => klt (fst e) k | None => true end)%bool) m in
          match o with Asc => f | Desc => rev f end).
  Proof.
    intros N K H G U1 U2 Hs He. unfold load_range, load_list, ranged.
    set (lo := match option_map key start with Some k => p ++ k ++ [x00] | None => p end).
    set (hi := match option_map key stop with Some k => p ++ k | None => upper p end).
    rewrite (scan_section l p lo hi o (fun k => (match start with Some b => bytes_ltb (key b) k | None => true end &&
                 match stop with Some b => bytes_ltb k (key b) | None => true end)%bool) (rows c m) N (rows_sorted c m H) G).
    - assert (R : filter (fun e => (fun k => (match start with Some b => bytes_ltb (key b) k | None => true end &&
                 match stop with Some b => bytes_ltb k (key b) | None => true end)%bool) (fst e)) (rows c m)
               = rows c (filter (fun e => (match start with Some k => klt k (fst e) | None => true end &&
                                     match stop with Some k => klt (fst e) k | None => true end)%bool) m)).
      { apply (rows_filter c (fun k => (match start with Some b => bytes_ltb (key b) k | None => true end &&
                 match stop with Some b => bytes_ltb k (key b) | None => true end)%bool) (fun k => (match start with Some b => klt b k | None => true end &&
                 match stop with Some b => klt k b | None => true end)%bool)); [|exact H].
        intros k Hk. f_equal; [destruct start|destruct stop]; try reflexivity; now apply (kk_order _ _ _ KK). }
      rewrite R. destruct o; [apply rows_read; [exact K|now apply holds_filter]|].
      apply mapM_rev, rows_read; [exact K|now apply holds_filter].
    - intros k v Gk B. apply andb_true_iff in B as [B1 B2]. apply negb_true_iff in B1.
      assert (L : bytes_ltb k p = false).
      { unfold lo in B1. destruct start as [b|]; cbn [option_map] in B1; [|exact B1].
        eapply le_trans; [apply le_app|exact B1]. }
      destruct stop as [b|]; cbn [option_map] in hi; unfold hi in B2.
      + apply (between p [] (key b)); [now rewrite app_nil_r|exact B2].
      + apply (U1 k v Gk). now rewrite L, B2.
    - intros k v Gk. f_equal.
      + unfold lo. destruct start as [b|]; cbn [option_map]; [|now rewrite le_app].
        rewrite app_assoc, ltb_zero, negb_involutive. apply ltb_app.
      + unfold hi. destruct stop as [b|]; cbn [option_map]; [apply ltb_app|exact (U2 k v Gk)].
  Qed.
  (** a page of it *)
  Lemma load_page_section {V} (c : codec V) l p m start lim o :
    neat l -> kept c -> holds c m ->
    (forall k, om_get (p ++ k) (layout l) = om_get k (rows c m)) ->
    (forall k v, om_get k (layout l) = Some v -> (negb (bytes_ltb k p) && bytes_ltb k (upper p))%bool = true -> starts p k = true) ->
    (forall k v, om_get k (rows c m) = Some v -> bytes_ltb (p ++ k) (upper p) = true) ->
    match start with Some k => ok k = true | None => True end ->
    load_page key back c p start lim o (layout l) = range_page m start lim o.
  Proof.
    intros N K H G U1 U2 Hs. unfold load_page, range_page.
    destruct (get_and_check_limit lim MAX_LIMIT DEFAULT_LIMIT) as [n|e|]; cbn [bind]; try reflexivity.
    assert (A : load_range back c p (option_map key start) None Asc (layout l)
                = Ok (filter (fun e => match start with Some k => klt k (fst e) | None => true end) m)).
    { change (@None bytes) with (option_map key None). rewrite (load_range_section c l p m start None Asc N K H G U1 U2 Hs I).
      f_equal. apply filter_ext. intros e. apply andb_true_r. }
    destruct o as [[|]|]; try exact (mapM_firstn _ _ _ _ A).
    pose proof (load_range_section c l p m None start Desc N K H G U1 U2 I Hs) as B. exact (mapM_firstn _ _ _ _ B).
  Qed.

  (** a whole map *)
  Lemma table_get {V} (c : codec V) l ns m k : neat l -> In (table ns key c m) l ->
    om_get (prefix [ns] ++ k) (layout l) = om_get k (rows c m).
  Proof.
    intros N I. rewrite (layout_get l _ (prefix [ns] ++ k) N I) by apply starts_app. cbn [cell_get table].
    now rewrite skipn_app_exact by reflexivity.
  Qed.
  Lemma load_table {V} (c : codec V) l ns m k : neat l -> In (table ns key c m) l -> kept c -> holds c m -> ok k = true ->
    may_load c (path ns (key k)) (layout l) = Ok (om_get k m).
  Proof.
    intros N I K H Hk. unfold may_load, path. rewrite (table_get c l ns m _ N I), (rows_get c m k H Hk).
    destruct (om_get k m) as [v|] eqn:E; cbn [option_map]; [|reflexivity]. rewrite K; [reflexivity|].
    apply om_get_In in E. destruct H as [_ F]. rewrite Forall_forall in F. exact (proj2 (F _ E)).
  Qed.
  Lemma upper_all {V} (c : codec V) l ns m : tame (prefix [ns]) ->
    (forall k v, om_get k (layout l) = Some v -> (negb (bytes_ltb k (prefix [ns])) && bytes_ltb k (upper (prefix [ns])))%bool = true ->
       starts (prefix [ns]) k = true) /\
    (forall k v, om_get k (rows c m) = Some v -> bytes_ltb (prefix [ns] ++ k) (upper (prefix [ns])) = true).
  Proof.
    intros T. split.
    - intros k v _ B. now rewrite (upper_tame _ _ T) in B.
    - intros k v _. pose proof (upper_tame (prefix [ns]) (prefix [ns] ++ k) T) as B. rewrite starts_app, le_app in B. exact B.
  Qed.
  Lemma load_all_table {V} (c : codec V) l ns m : neat l -> In (table ns key c m) l -> kept c -> holds c m -> tame (prefix [ns]) ->
    load_all back c ns (layout l) = Ok m.
  Proof.
    intros N I K H T. unfold load_all. destruct (upper_all c l ns m T) as [U1 U2].
    change (@None bytes) with (option_map key None).
    rewrite (load_range_section c l (prefix [ns]) m None None Asc N K H (fun k => table_get c l ns m k N I) U1 U2 Logic.I Logic.I).
    f_equal. cbn [andb]. clear. induction m as [|p m IH]; cbn [filter]; [reflexivity|]. now rewrite IH.
  Qed.
  Lemma load_page_table {V} (c : codec V) l ns m start lim o : neat l -> In (table ns key c m) l -> kept c -> holds c m ->
    tame (prefix [ns]) -> match start with Some k => ok k = true | None => True end ->
    load_page key back c (prefix [ns]) start lim o (layout l) = range_page m start lim o.
  Proof.
    intros N I K H T Hs. destruct (upper_all c l ns m T) as [U1 U2].
    apply load_page_section; auto. intros k. now apply table_get.
  Qed.
End Kind.

Lemma kind_u32 : key_kind (OK := OrdN) u32_ok u32_key u32_back.
Proof.
  split.
  - intros k H. apply N.ltb_lt in H. unfold u32_back, u32_key. rewrite be_length. cbn [Nat.eqb].
    now rewrite of_be_be_small by exact H.
  - intros a b Ha Hb. apply N.ltb_lt in Ha, Hb. unfold u32_key. now apply ltb_be.
Qed.
Lemma kind_bytes : key_kind (OK := OrdBytes) (fun _ => true) (fun k => k) octets_back.
Proof. split; reflexivity. Qed.
Lemma be_append k j a b : b < 256 ^ N.of_nat j -> be (k + j) (a * 256 ^ N.of_nat j + b) = be k a ++ be j b.
Proof.
  revert b. induction j as [|j IH]; intros b Hb.
  - rewrite Nat.add_0_r. change (256 ^ N.of_nat 0) with 1 in *. cbn [be]. rewrite app_nil_r. f_equal. lia.
  - rewrite Nat.add_succ_r. cbn [be]. rewrite Nat2N.inj_succ, N.pow_succ_r' in *.
    assert (D : b = 256 * (b / 256) + b mod 256) by (apply N.div_mod; discriminate).
    assert (M : b mod 256 < 256) by (apply N.mod_lt; discriminate).
    assert (E1 : (a * (256 * 256 ^ N.of_nat j) + b) / 256 = a * 256 ^ N.of_nat j + b / 256)
      by (symmetry; apply N.div_unique with (b mod 256); lia).
    assert (E2 : (a * (256 * 256 ^ N.of_nat j) + b) mod 256 = b mod 256)
      by (symmetry; apply N.mod_unique with (a * 256 ^ N.of_nat j + b / 256); lia).
    rewrite E1, E2, IH by (apply N.div_lt_upper_bound; [discriminate|exact Hb]). now rewrite app_assoc.
Qed.
Lemma named_u32 d : u32_ok d = true -> named (u32_key d) = be 6 (4 * 256 ^ 4 + d).
Proof.
  intros H. apply N.ltb_lt in H. unfold named, u32_key. rewrite be_length. symmetry. apply (be_append 2 4 4 d). exact H.
Qed.
Lemma kind_pair : key_kind (OK := OrdPair) (fun p : N * bytes => u32_ok (fst p)) pair_key pair_back.
Proof.
  assert (E : forall p, pair_key p = [x00; x04] ++ be 4 (fst p) ++ snd p).
  { intros p. unfold pair_key, named, u32_key. rewrite be_length, <- app_assoc. reflexivity. }
  split.
  - intros [d r] H. apply N.ltb_lt in H. rewrite E. cbn [fst snd] in *. unfold pair_back.
    change (firstn 2 ([x00; x04] ++ be 4 d ++ r)) with [x00; x04]. change (be 2 4) with [x00; x04].
    rewrite bytes_eqb_refl. replace (Nat.leb 6 (length ([x00; x04] ++ be 4 d ++ r))) with true.
    2:{ symmetry. apply Nat.leb_le. rewrite !app_length, be_length. cbn [length]. lia. }
    cbn [andb]. change (skipn 2 ([x00; x04] ++ be 4 d ++ r)) with (be 4 d ++ r).
    rewrite firstn_app_exact by apply be_length. rewrite of_be_be_small by exact H.
    rewrite app_assoc, skipn_app_exact; [reflexivity|]. now rewrite app_length, be_length.
  - intros [d r] [d' r'] H H'. apply N.ltb_lt in H, H'. rewrite !E. cbn [fst snd] in *. rewrite ltb_app.
    cbn [klt OrdPair pair_ltb OrdN OrdBytes fst snd]. unfold pair_ltb. cbn [klt OrdN OrdBytes fst snd].
    destruct (N.eq_dec d d') as [<-|X].
    + rewrite ltb_app, N.ltb_irrefl. reflexivity.
    + rewrite (ltb_same_length 4) by (try apply be_length; intros Y; now apply be_inj in Y).
      rewrite ltb_be by assumption. destruct (d <? d') eqn:F1, (d' <? d) eqn:F2; try reflexivity.
      apply N.ltb_ge in F1, F2. lia.
Qed.
