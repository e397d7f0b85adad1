(** * The incremental tree computes the root of the padded tree. *)
From Coq Require Import List NArith ZArith Lia Bool Arith.
From Verif Require Import Base BaseFacts Keccak Crypto Merkle.
Import ListNotations.

(** ** The reference tree: leaves [ls] padded with 32 zero bytes; [tnode ls d i]
    is the [i]-th node from the left at height [d]. *)
Definition leaf (ls : list bytes) (i : N) : bytes := nth (N.to_nat i) ls (zeros 32).

Fixpoint tnode (ls : list bytes) (d : nat) (i : N) : bytes :=
  match d with
  | O => leaf ls i
  | S d' => keccak256 (tnode ls d' (2 * i) ++ tnode ls d' (2 * i + 1))
  end.

(** root of the depth-32 tree *)
Definition padded_root (ls : list bytes) : bytes := tnode ls 32 0.

(** sibling path of leaf [i] *)
Fixpoint tpath (ls : list bytes) (d : nat) (k : nat) (i : N) : list bytes :=
  match k with
  | O => []
  | S k' => tnode ls d (if N.odd i then i - 1 else i + 1) :: tpath ls (S d) k' (i / 2)
  end.
Definition proof_of (ls : list bytes) (i : N) : list bytes := tpath ls 0 32 i.

(** ** Zero hashes *)
Fixpoint zero_hash (d : nat) : bytes :=
  match d with
  | O => zeros 32
  | S d' => keccak256 (zero_hash d' ++ zero_hash d')
  end.

(** sibling path of the leaf to come, number [m], out of the tree's branch: the
    branch's node where the path turns left, an empty subtree elsewhere *)
Fixpoint next_proof (d : nat) (m : N) (bs : list bytes) : list bytes :=
  match bs with
  | [] => []
  | b :: bs' => (if N.odd m then b else zero_hash d) :: next_proof (S d) (m / 2) bs'
  end.

Lemma zero_table : ZERO_HASHES = map zero_hash (seq 0 32).
Proof.
  (* computed with sharing: each entry from the previous one *)
  assert (H : forall k d l, hd (zero_hash d) l = zero_hash d ->
     (fix chk (l : list bytes) :=
        match l with
        | a :: ((b :: _) as l') => bytes_eqb b (keccak256 (a ++ a)) && chk l'
        | _ => true
        end)%bool l = true -> length l = k -> l = map zero_hash (seq d k)).
  { induction k as [|k IH]; intros d l Hh Hc Hl.
    - destruct l; [reflexivity|discriminate].
    - destruct l as [|a l]; [discriminate|]. cbn [hd] in Hh. subst a.
      cbn [seq map]. f_equal. apply IH.
      + destruct l as [|b l]; [reflexivity|]. apply andb_true_iff in Hc as [Hc _].
        apply bytes_eqb_eq in Hc. subst b. reflexivity.
      + destruct l as [|b l]; [reflexivity|]. apply andb_true_iff in Hc as [_ Hc]. exact Hc.
      + simpl in Hl. lia. }
  apply H; vm_compute; reflexivity.
Qed.

Lemma zero_bytes : ZERO_BYTES = zeros 32.
Proof. reflexivity. Qed.

(** ** Arithmetic *)
Lemma odd_half m : N.odd m = true -> m = 2 * (m / 2) + 1.
Proof.
  intros H. rewrite <- N.div2_div. pose proof (N.div2_odd m) as E. rewrite H in E.
  cbn [N.b2n] in E. exact E.
Qed.
Lemma even_half m : N.odd m = false -> m = 2 * (m / 2).
Proof.
  intros H. rewrite <- N.div2_div. pose proof (N.div2_odd m) as E. rewrite H in E.
  cbn [N.b2n] in E. lia.
Qed.

Definition p2 (d : nat) : N := 2 ^ N.of_nat d.
Lemma p2_S d : p2 (S d) = 2 * p2 d.
Proof. unfold p2. rewrite Nat2N.inj_succ, N.pow_succ_r'. reflexivity. Qed.
Lemma p2_pos d : 0 < p2 d.
Proof. unfold p2. assert (2 ^ N.of_nat d <> 0) by (apply N.pow_nonzero; discriminate). lia. Qed.

(** ** Nodes depend only on the leaves below them *)
Lemma tnode_ext ls ls' d i :
  (forall j, i * p2 d <= j < (i + 1) * p2 d -> leaf ls j = leaf ls' j) ->
  tnode ls d i = tnode ls' d i.
Proof.
  revert i. induction d as [|d IH]; intros i H.
  - apply H. change (p2 0) with 1. lia.
  - cbn [tnode]. do 2 f_equal; apply IH; intros j Hj; apply H; rewrite p2_S; nia.
Qed.

Lemma leaf_app ls x j : j < N.of_nat (length ls) -> leaf (ls ++ [x]) j = leaf ls j.
Proof. intros H. unfold leaf. apply app_nth1. lia. Qed.

Lemma leaf_last ls x : leaf (ls ++ [x]) (N.of_nat (length ls)) = x.
Proof. unfold leaf. rewrite Nat2N.id, app_nth2, Nat.sub_diag by lia. reflexivity. Qed.

Lemma leaf_beyond ls j : N.of_nat (length ls) <= j -> leaf ls j = zeros 32.
Proof. intros H. unfold leaf. apply nth_overflow. lia. Qed.

Lemma tnode_app ls x d i :
  (i + 1) * p2 d <= N.of_nat (length ls) -> tnode (ls ++ [x]) d i = tnode ls d i.
Proof. intros H. apply tnode_ext. intros j Hj. apply leaf_app. lia. Qed.

Lemma tnode_beyond ls d i : N.of_nat (length ls) <= i * p2 d -> tnode ls d i = zero_hash d.
Proof.
  revert i. induction d as [|d IH]; intros i H.
  - change (p2 0) with 1 in H. cbn [tnode zero_hash]. apply leaf_beyond. lia.
  - rewrite p2_S in H. pose proof (p2_pos d). cbn [tnode zero_hash].
    rewrite !IH by nia. reflexivity.
Qed.

(** ** The branch invariant *)
Fixpoint binv (ls : list bytes) (d : nat) (m : N) (bs : list bytes) : Prop :=
  match bs with
  | [] => True
  | b :: bs' => (N.odd m = true -> b = tnode ls d (m - 1)) /\ binv ls (S d) (m / 2) bs'
  end.

Lemma binv_app ls x bs : forall d m,
  m * p2 d <= N.of_nat (length ls) -> binv ls d m bs -> binv (ls ++ [x]) d m bs.
Proof.
  induction bs as [|b bs IH]; intros d m Hm HB; [exact I|destruct HB as [Hb HI]]. split.
  - intros Ho. rewrite (Hb Ho). symmetry. apply tnode_app.
    destruct (N.eq_dec m 0) as [->|Hz]; [discriminate|].
    replace (m - 1 + 1) with m by lia. exact Hm.
  - apply IH; [|exact HI]. rewrite p2_S.
    destruct (N.odd m) eqn:Ho; [apply odd_half in Ho|apply even_half in Ho].
    + set (q := m / 2) in *. clearbody q. subst m. nia.
    + set (q := m / 2) in *. clearbody q. subst m. nia.
Qed.

Lemma insert_loop_ok ls x bs : forall d m nd,
  N.of_nat (length ls) + 1 = m * p2 d ->
  m < p2 (length bs) ->
  binv ls d (m - 1) bs ->
  nd = tnode (ls ++ [x]) d (m - 1) ->
  exists bs', insert_loop bs nd m = Ok bs' /\ binv (ls ++ [x]) d m bs' /\
              length bs' = length bs.
Proof.
  induction bs as [|b bs IH]; intros d m nd Hn Hlt HB Hnd.
  - change (p2 (length [])) with 1 in Hlt. exfalso. assert (m = 0) by lia. subst m. lia.
  - destruct HB as [Hb HI]. cbn [insert_loop length]. cbn [length] in Hlt. rewrite p2_S in Hlt.
    pose proof (p2_pos d) as Hp.
    assert (Hm : m <> 0) by (intros ->; lia).
    destruct (N.odd m) eqn:Ho.
    + exists (nd :: bs). split; [reflexivity|]. split; [|reflexivity].
      split; [intros _; exact Hnd|].
      pose proof (odd_half _ Ho) as E.
      assert (E2 : (m - 1) / 2 = m / 2).
      { set (q := m / 2) in *. clearbody q. subst m.
        replace (2 * q + 1 - 1) with (q * 2) by lia. apply N.div_mul. discriminate. }
      rewrite E2 in HI. apply binv_app; [|exact HI].
      rewrite p2_S. set (q := m / 2) in *. clearbody q. subst m. nia.
    + pose proof (even_half _ Ho) as E.
      set (q := m / 2) in *.
      assert (Hq : q <> 0) by (intros Z; rewrite Z in E; lia).
      assert (E2 : (m - 1) / 2 = q - 1).
      { clearbody q. subst m. replace (2 * q - 1) with (1 + (q - 1) * 2) by lia.
        rewrite N.div_add by discriminate. reflexivity. }
      assert (Ho' : N.odd (m - 1) = true).
      { clearbody q. subst m. replace (2 * q - 1) with (1 + 2 * (q - 1)) by lia.
        apply N.odd_add_mul_2. }
      rewrite E2 in HI. specialize (Hb Ho').
      assert (Hb' : b = tnode (ls ++ [x]) d (2 * (q - 1))).
      { rewrite Hb. symmetry.
        replace (m - 1 - 1) with (2 * (q - 1)) by (clearbody q; lia).
        apply tnode_app. clearbody q. subst m. nia. }
      assert (Hnd' : keccak256_hash (b ++ nd) = tnode (ls ++ [x]) (S d) (q - 1)).
      { cbn [tnode]. unfold keccak256_hash. rewrite Hb' at 1. rewrite Hnd.
        replace (m - 1) with (2 * (q - 1) + 1) by (clearbody q; lia). reflexivity. }
      destruct (IH (S d) q (keccak256_hash (b ++ nd))) as (bs' & E3 & HI' & Hl).
      * rewrite p2_S. clearbody q. subst m. lia.
      * clearbody q. subst m. lia.
      * exact HI.
      * exact Hnd'.
      * rewrite E3. exists (b :: bs'). split; [reflexivity|]. split.
        -- split; [|exact HI']. rewrite Ho. discriminate.
        -- cbn [length]. now rewrite Hl.
Qed.

Lemma root_loop_ok ls bs : forall d m,
  m * p2 d <= N.of_nat (length ls) -> N.of_nat (length ls) < (m + 1) * p2 d ->
  binv ls d m bs ->
  root_loop (combine bs (map zero_hash (seq d (length bs)))) m (tnode ls d m)
  = tnode ls (d + length bs) (m / p2 (length bs)).
Proof.
  induction bs as [|b bs IH]; intros d m Hlo Hhi HI.
  - change (p2 (length [])) with 1. cbn [length combine root_loop seq map].
    rewrite N.div_1_r, Nat.add_0_r. reflexivity.
  - destruct HI as [Hb HI]. cbn [length seq map combine root_loop].
    rewrite p2_S, <- N.div_div by (try discriminate; pose proof (p2_pos (length bs)); lia).
    replace (d + S (length bs))%nat with (S d + length bs)%nat by lia.
    rewrite <- (IH (S d) (m / 2)); [| | |exact HI].
    + f_equal. cbn [tnode]. unfold keccak256_hash.
      destruct (N.odd m) eqn:Ho.
      * rewrite (Hb eq_refl). pose proof (odd_half _ Ho) as E.
        set (q := m / 2) in *. replace (2 * q + 1) with m by (clearbody q; lia).
        replace (2 * q) with (m - 1) by (clearbody q; lia). reflexivity.
      * pose proof (even_half _ Ho) as E. set (q := m / 2) in *.
        rewrite <- E. rewrite (tnode_beyond ls d (m + 1)) by exact (N.lt_le_incl _ _ Hhi).
        reflexivity.
    + rewrite p2_S. destruct (N.odd m) eqn:Ho; [apply odd_half in Ho|apply even_half in Ho];
        set (q := m / 2) in *; clearbody q; subst m; nia.
    + rewrite p2_S. destruct (N.odd m) eqn:Ho; [apply odd_half in Ho|apply even_half in Ho];
        set (q := m / 2) in *; clearbody q; subst m; nia.
Qed.

(** ** The tree represents a leaf sequence *)
Definition tree_rep (ls : list bytes) (t : merkle_tree) : Prop :=
  mt_count t = N.of_nat (length ls) /\ mt_count t <= MAX_LEAVES /\
  length (mt_branch t) = 32%nat /\ binv ls 0 (mt_count t) (mt_branch t).

Lemma binv_0 ls bs : forall d, binv ls d 0 bs.
Proof.
  induction bs as [|b bs IH]; intros d; [exact I|]. split; [discriminate|]. apply IH.
Qed.

Lemma tree_rep_default : tree_rep [] mt_default.
Proof.
  split; [reflexivity|]. split; [discriminate|]. split; [reflexivity|]. apply binv_0.
Qed.

Lemma tree_rep_insert ls t x :
  tree_rep ls t -> mt_count t < MAX_LEAVES ->
  exists t', mt_insert t x = Ok t' /\ tree_rep (ls ++ [x]) t'.
Proof.
  intros (Hc & Hm & Hl & HI) Hlt. unfold mt_insert.
  rewrite (proj2 (N.ltb_lt _ _) Hlt). cbn [ensure bind].
  destruct (insert_loop_ok ls x (mt_branch t) 0 (mt_count t + 1) x) as (bs' & E & HI' & Hl').
  - change (p2 0) with 1. lia.
  - rewrite Hl. change (p2 32) with (MAX_LEAVES + 1). lia.
  - replace (mt_count t + 1 - 1) with (mt_count t) by lia. exact HI.
  - cbn [tnode]. rewrite Hc. replace (N.of_nat (length ls) + 1 - 1) with (N.of_nat (length ls)) by lia.
    symmetry. apply leaf_last.
  - rewrite E. cbn [bind]. eexists. split; [reflexivity|].
    unfold tree_rep. cbn [mt_count mt_branch]. rewrite app_length. cbn [length].
    split; [lia|]. split; [lia|]. split; [congruence|exact HI'].
Qed.

Lemma tree_rep_full ls t x :
  tree_rep ls t -> MAX_LEAVES <= mt_count t -> mt_insert t x = Err ETreeFull.
Proof.
  intros _ H. unfold mt_insert. rewrite (proj2 (N.ltb_ge _ _) H). reflexivity.
Qed.

Lemma tree_rep_root ls t : tree_rep ls t -> mt_root t = padded_root ls.
Proof.
  intros (Hc & Hm & Hl & HI). unfold mt_root, padded_root.
  rewrite zero_table, zero_bytes.
  replace (zeros 32) with (tnode ls 0 (mt_count t)).
  2:{ cbn [tnode]. apply leaf_beyond. lia. }
  pose proof (root_loop_ok ls (mt_branch t) 0 (mt_count t)) as R.
  rewrite Hl in R. rewrite R; [| | |exact HI].
  - f_equal. apply N.div_small. change (p2 32) with (MAX_LEAVES + 1). lia.
  - change (p2 0) with 1. lia.
  - change (p2 0) with 1. lia.
Qed.

Lemma insert_all ls : forall done t,
  tree_rep done t -> N.of_nat (length done + length ls) <= MAX_LEAVES ->
  exists t', foldM mt_insert ls t = Ok t' /\ tree_rep (done ++ ls) t'.
Proof.
  induction ls as [|x ls IH]; intros done t HR Hlen.
  - exists t. rewrite app_nil_r. split; [reflexivity|exact HR].
  - cbn [foldM]. cbn [length] in Hlen.
    destruct (tree_rep_insert done t x HR) as (t1 & E & HR1).
    { destruct HR as (Hc & _). rewrite Hc. lia. }
    rewrite E. cbn [bind].
    destruct (IH (done ++ [x]) t1 HR1) as (t' & E' & HR').
    { rewrite app_length. cbn [length]. lia. }
    exists t'. rewrite <- app_assoc in HR'. split; [exact E'|exact HR'].
Qed.

Lemma merkle_correct ls :
  N.of_nat (length ls) <= MAX_LEAVES ->
  exists t, foldM mt_insert ls mt_default = Ok t /\
            mt_count t = N.of_nat (length ls) /\ mt_root t = padded_root ls.
Proof.
  intros H. destruct (insert_all ls [] mt_default tree_rep_default H) as (t & E & HR).
  exists t. split; [exact E|]. split; [apply HR|]. exact (tree_rep_root _ _ HR).
Qed.

Lemma foldM_insert_app_err ls1 ls2 (t : merkle_tree) e :
  foldM mt_insert ls1 t = Err e -> foldM mt_insert (ls1 ++ ls2) t = Err e.
Proof. intros H. rewrite foldM_app, H. reflexivity. Qed.

Lemma merkle_full ls :
  MAX_LEAVES < N.of_nat (length ls) -> foldM mt_insert ls mt_default = Err ETreeFull.
Proof.
  intros H. set (k := N.to_nat MAX_LEAVES).
  assert (Hk : N.of_nat k = MAX_LEAVES) by apply N2Nat.id.
  clearbody k.
  rewrite <- (firstn_skipn k ls).
  assert (Hl : length (firstn k ls) = k) by (rewrite firstn_length; lia).
  destruct (insert_all (firstn k ls) [] mt_default tree_rep_default) as (t & E & HR).
  { cbn [length]. lia. }
  rewrite foldM_app, E. cbn [bind].
  destruct (skipn k ls) as [|x l] eqn:Es.
  - apply (f_equal (@length _)) in Es. rewrite skipn_length in Es. cbn [length] in Es. lia.
  - cbn [foldM]. rewrite (tree_rep_full _ _ x HR); [reflexivity|].
    destruct HR as (Hc & _). rewrite Hc. cbn [app]. lia.
Qed.

(** ** Proofs *)
Lemma branch_root_complete ls k : forall d i,
  branch_root (tnode ls d i) (tpath ls d k i) i = tnode ls (d + k) (i / p2 k).
Proof.
  induction k as [|k IH]; intros d i.
  - change (p2 0) with 1. cbn [tpath branch_root]. now rewrite N.div_1_r, Nat.add_0_r.
  - cbn [tpath branch_root].
    replace (d + S k)%nat with (S d + k)%nat by lia.
    rewrite p2_S, <- N.div_div by (try discriminate; pose proof (p2_pos k); lia).
    rewrite <- (IH (S d) (i / 2)). f_equal. cbn [tnode]. unfold keccak256_hash.
    destruct (N.odd i) eqn:Ho.
    + pose proof (odd_half _ Ho) as E. set (q := i / 2) in *.
      replace (2 * q + 1) with i by (clearbody q; lia).
      replace (2 * q) with (i - 1) by (clearbody q; lia). reflexivity.
    + pose proof (even_half _ Ho) as E. set (q := i / 2) in *. now rewrite <- E.
Qed.

Lemma proof_complete ls i : i < 2 ^ 32 ->
  branch_root (leaf ls i) (proof_of ls i) i = padded_root ls.
Proof.
  intros H. unfold proof_of, padded_root.
  change (leaf ls i) with (tnode ls 0 i). rewrite branch_root_complete.
  f_equal. apply N.div_small. exact H.
Qed.

(** the preimages hashed along a candidate path *)
Fixpoint path_pre (item : bytes) (branch : list bytes) (idx : N) : list bytes :=
  match branch with
  | [] => []
  | next :: rest =>
      let pre := if N.odd idx then next ++ item else item ++ next in
      pre :: path_pre (keccak256 pre) rest (idx / 2)
  end.

Lemma branch_root_binding : forall path1 path2 item1 item2 i,
  length path1 = length path2 ->
  Forall (fun h => length h = 32%nat) path1 -> Forall (fun h => length h = 32%nat) path2 ->
  length item1 = 32%nat -> length item2 = 32%nat ->
  branch_root item1 path1 i = branch_root item2 path2 i ->
  item1 = item2 \/
  exists k, (k < length path1)%nat /\
    nth k (path_pre item1 path1 i) [] <> nth k (path_pre item2 path2 i) [] /\
    keccak256 (nth k (path_pre item1 path1 i) []) = keccak256 (nth k (path_pre item2 path2 i) []).
Proof.
  induction path1 as [|h1 p1 IH]; intros [|h2 p2'] item1 item2 i Hl F1 F2 L1 L2 E;
    try discriminate.
  - left. exact E.
  - cbn [branch_root] in E. unfold keccak256_hash in E.
    apply Forall_cons_iff in F1 as [A1 F1]. apply Forall_cons_iff in F2 as [A2 F2].
    cbn [path_pre].
    set (q1 := if N.odd i then h1 ++ item1 else item1 ++ h1).
    set (q2 := if N.odd i then h2 ++ item2 else item2 ++ h2).
    destruct (IH p2' (keccak256 q1) (keccak256 q2) (i / 2)) as [Eq|(k & Hk & Hne & Hh)].
    + simpl in Hl. lia.
    + exact F1.
    + exact F2.
    + apply keccak256_length.
    + apply keccak256_length.
    + unfold q1, q2. destruct (N.odd i); exact E.
    + destruct (bytes_eq_dec q1 q2) as [Q|Q].
      * left. unfold q1, q2 in Q. destruct (N.odd i).
        -- apply app_inj_len in Q as [_ Q]; [exact Q|congruence].
        -- apply app_inj_len in Q as [Q _]; [exact Q|congruence].
      * right. exists 0%nat. split; [simpl; lia|]. split; [exact Q|exact Eq].
    + right. exists (S k). split; [simpl; lia|]. split; [exact Hne|exact Hh].
Qed.

Lemma tnode_length ls d i :
  Forall (fun h => length h = 32%nat) ls -> length (tnode ls d i) = 32%nat.
Proof.
  intros HF. destruct d; cbn [tnode]; [|apply keccak256_length].
  unfold leaf. destruct (Nat.lt_ge_cases (N.to_nat i) (length ls)) as [H|H].
  - rewrite Forall_forall in HF. apply HF. apply nth_In. exact H.
  - rewrite nth_overflow by exact H. reflexivity.
Qed.

Lemma tpath_lengths ls k : forall d i,
  Forall (fun h => length h = 32%nat) ls ->
  Forall (fun h => length h = 32%nat) (tpath ls d k i) /\ length (tpath ls d k i) = k.
Proof.
  induction k as [|k IH]; intros d i HF; cbn [tpath].
  - split; [constructor|reflexivity].
  - destruct (IH (S d) (i / 2) HF) as [A B]. split.
    + constructor; [apply tnode_length; exact HF|exact A].
    + cbn [length]. now rewrite B.
Qed.

Lemma proof_binding ls i item path :
  Forall (fun h => length h = 32%nat) ls -> i < 2 ^ 32 ->
  length item = 32%nat -> length path = 32%nat -> Forall (fun h => length h = 32%nat) path ->
  branch_root item path i = padded_root ls ->
  item = leaf ls i \/
  exists k, (k < 32)%nat /\
    nth k (path_pre item path i) [] <> nth k (path_pre (leaf ls i) (proof_of ls i) i) [] /\
    keccak256 (nth k (path_pre item path i) [])
    = keccak256 (nth k (path_pre (leaf ls i) (proof_of ls i) i) []).
Proof.
  intros HF Hi Li Lp Fp E.
  rewrite <- (proof_complete ls i Hi) in E.
  destruct (tpath_lengths ls 32 0 i HF) as [A B].
  assert (Hl : length path = length (proof_of ls i)) by (unfold proof_of; now rewrite B).
  pose proof (branch_root_binding path (proof_of ls i) item (leaf ls i) i Hl Fp A Li
    (tnode_length ls 0 i HF) E) as R.
  rewrite Lp in R. exact R.
Qed.

Lemma next_path ls x bs : forall d m,
  m * p2 d <= N.of_nat (length ls) -> N.of_nat (length ls) < (m + 1) * p2 d ->
  binv ls d m bs -> next_proof d m bs = tpath (ls ++ [x]) d (length bs) m.
Proof.
  induction bs as [|b bs IH]; intros d m Hlo Hhi HI; [reflexivity|]. destruct HI as [Hb HI].
  cbn [next_proof length tpath]. f_equal.
  - destruct (N.odd m) eqn:Ho.
    + rewrite (Hb eq_refl). symmetry. apply tnode_app.
      destruct (N.eq_dec m 0) as [->|Hz]; [discriminate|]. replace (m - 1 + 1) with m by lia. exact Hlo.
    + symmetry. apply tnode_beyond. rewrite app_length. cbn [length]. lia.
  - apply IH; [| |exact HI]; rewrite p2_S;
      (destruct (N.odd m) eqn:Ho; [apply odd_half in Ho|apply even_half in Ho];
        set (q := m / 2) in *; clearbody q; subst m; nia).
Qed.

Lemma tree_rep_next ls t x :
  tree_rep ls t -> next_proof 0 (mt_count t) (mt_branch t) = proof_of (ls ++ [x]) (mt_count t).
Proof.
  intros (Hc & Hm & Hl & HI). unfold proof_of. rewrite <- Hl.
  apply next_path; [change (p2 0) with 1; lia | change (p2 0) with 1; lia | exact HI].
Qed.
