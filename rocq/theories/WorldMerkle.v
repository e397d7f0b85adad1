(** * The merkle hook on a chain. *)
From Coq Require Import List NArith Bool Lia Permutation Sorted.
From Verif Require Import Base BaseFacts OMap Crypto Bech32 Message CodecFacts Merkle MerkleFacts Coins CoinsFacts
  Chain Ownable Mailbox Hooks Contracts Spec StepFacts MailboxConfFacts MailboxFacts
  World SpecWorld WorldFacts WorldMailbox.
Import ListNotations.

(** ** One call *)
Lemma mk_answer A x ev st' r :
  c_apply A ev (SMerkle x) = Ok (st', r) ->
  exists e i md raw Q latest t,
    ev = EvExec e i (MPostDispatch md raw) Q /\
    q_smart (Q (SMerkle x)) (mk_mailbox x) QLatestDispatchId = Ok (RMessageId latest) /\
    latest = keccak256_hash raw /\
    mt_insert (mk_tree x) (keccak256_hash raw) = Ok t /\
    st' = SMerkle (mkMk (mk_mailbox x) t) /\ r = resp0.
Proof.
  intros H. destruct ev as [e i m Q | id rr]; [| discriminate].
  cbn [c_apply] in H. unfold c_execute, lift in H.
  apply bind_Ok_inv in H as (u & _ & H). apply bind_Ok_inv in H as ([x' r'] & H1 & H).
  apply Ok_inj, pair_equal_spec in H as [<- <-].
  destruct m; try discriminate H1. cbn [mk_execute] in H1. unfold mk_post_dispatch in H1.
  apply bind_Ok_inv in H1 as (qr & H1 & H). apply smart_inv in H1 as [H1 _].
  destruct qr; try discriminate H.
  apply bind_Ok_inv in H as (m & H2 & H). apply bind_Ok_inv in H as (u2 & H3 & H).
  apply ensure_Ok_inv in H3. apply bytes_eqb_eq in H3.
  apply bind_Ok_inv in H as (t & H4 & H). apply Ok_inj, pair_equal_spec in H as [<- <-].
  pose proof (msg_decode_Ok_inv _ _ H2) as (_ & _ & Hraw).
  unfold msg_id in *. rewrite Hraw in *.
  exists e, i, metadata, message, Q, id, t. repeat split; assumption.
Qed.

(** ** The tree holds what was posted *)
Lemma lives_tree A x0 h st :
  lives A (SMerkle x0) h st -> tree_rep [] (mk_tree x0) ->
  exists x, st = SMerkle x /\ mk_mailbox x = mk_mailbox x0 /\
    tree_rep (map keccak256_hash (map snd (flat_map post_of h))) (mk_tree x).
Proof.
  intros L T. induction L as [| h st1 ev st2 r L IH H].
  - exists x0. auto.
  - destruct IH as (x1 & -> & Hm & T1).
    destruct (mk_answer _ _ _ _ _ H) as (e & i & md & raw & Q & latest & t & -> & _ & _ & Ht & -> & _).
    exists (mkMk (mk_mailbox x1) t). split; [reflexivity |]. split; [exact Hm |].
    rewrite flat_map_app, !map_app. cbn [flat_map post_of app map snd mk_tree].
    destruct (N.ltb_spec0 (mt_count (mk_tree x1)) MAX_LEAVES) as [Hlt | Hge].
    + destruct (tree_rep_insert _ _ (keccak256_hash raw) T1 Hlt) as (t' & Ht' & T').
      rewrite Ht' in Ht. apply Ok_inj in Ht. subst t'. exact T'.
    + rewrite (tree_rep_full _ _ (keccak256_hash raw) T1) in Ht by lia. discriminate.
Qed.

Lemma merkle_message A q e i m st r :
  c_instantiate A q e i m = Ok (st, r) -> kind st = 6 ->
  exists mb, m = IMerkle mb /\ st = SMerkle (mkMk mb mt_default).
Proof.
  intros H Hk. unfold c_instantiate, lift in H.
  destruct m; try (exfalso; inv_all; discriminate Hk).
  cbn [imsg_ok ensure bind] in H. unfold mk_instantiate in H. inv_all.
  exists mailbox. split; [reflexivity |].
  unfold addr_validate in *. inv_all. split_matches. reflexivity.
Qed.

Definition is_merkle (st : cstate) : Prop := kind st = 6.

Lemma merkle_tree_at C w a st :
  reachable C w -> contract_at w a st -> is_merkle st ->
  let leaves := map keccak256_hash (posted_at a (w_log w)) in
  exists x, st = SMerkle x /\ tree_rep leaves (mk_tree x).
Proof.
  intros Hr Hc Hk leaves.
  destruct (contract_known C w a st Hr Hc) as (e & i & q & m & r & st0 & B & He & Hi & L).
  pose proof (lives_kind _ _ _ _ L) as K. unfold is_merkle in Hk. rewrite Hk in K.
  destruct (merkle_message _ _ _ _ _ _ _ Hi (eq_sym K)) as (mb & -> & ->).
  destruct (lives_tree _ _ _ _ L tree_rep_default) as (x & -> & _ & T). eauto.
Qed.

Lemma chain_merkle_branch C w a st :
  reachable C w -> contract_at w a st -> is_merkle st ->
  let leaves := map keccak256_hash (posted_at a (w_log w)) in
  let n := N.of_nat (length leaves) in
  exists br, reported_branch st = Some br /\ reported_tree st = Some (br, n) /\ length br = 32%nat /\
    (forall next, next_proof 0 n br = proof_of (leaves ++ [next]) n) /\
    (forall next, branch_root next (next_proof 0 n br) n = padded_root (leaves ++ [next])).
Proof.
  intros Hr Hc Hk leaves n.
  destruct (merkle_tree_at C w a st Hr Hc Hk) as (x & -> & T). fold leaves in T. subst n. clearbody leaves.
  assert (P : forall next, next_proof 0 (N.of_nat (length leaves)) (mt_branch (mk_tree x)) = proof_of (leaves ++ [next]) (N.of_nat (length leaves))).
  { intros next. pose proof (tree_rep_next leaves _ next T) as P. destruct T as (T1 & _). rewrite T1 in P. exact P. }
  destruct T as (T1 & T2 & T3 & _). unfold MAX_LEAVES in T2.
  exists (mt_branch (mk_tree x)). split; [reflexivity |]. split.
  { unfold reported_tree, c_query. cbn [qmsg_ok ensure bind mk_query]. do 2 f_equal. rewrite T1. apply N.mod_small. unfold u32_max. lia. }
  split; [exact T3 |]. split; [exact P |].
  intros next. rewrite (P next). rewrite <- (leaf_last leaves next) at 1. apply proof_complete. lia.
Qed.

Lemma chain_merkle_tree C w a st :
  reachable C w -> contract_at w a st -> is_merkle st ->
  let leaves := map keccak256_hash (posted_at a (w_log w)) in
  N.of_nat (length leaves) <= 2 ^ 32 - 1 /\
  reported_count st = Some (N.of_nat (length leaves)) /\
  reported_root st = Some (padded_root leaves) /\
  reported_checkpoint st = Some (padded_root leaves, N.of_nat (length leaves) - 1).
Proof.
  intros Hr Hc Hk.
  destruct (merkle_tree_at C w a st Hr Hc Hk) as (x & -> & T).
  set (leaves := map keccak256_hash (posted_at a (w_log w))) in *. clearbody leaves. cbv zeta.
  pose proof (tree_rep_root _ _ T) as R. destruct T as (T1 & T2 & _).
  unfold MAX_LEAVES in T2.
  assert (Hb : mt_count (mk_tree x) mod u32_max = mt_count (mk_tree x)).
  { apply N.mod_small. unfold u32_max. lia. }
  split; [rewrite <- T1; exact T2 |].
  unfold reported_count, reported_root, reported_checkpoint, c_query.
  cbn [qmsg_ok ensure bind mk_query]. rewrite Hb, R, T1. split; [reflexivity |]. split; [reflexivity |].
  destruct (N.of_nat (length leaves) =? 0) eqn:E.
  - apply N.eqb_eq in E. rewrite E. reflexivity.
  - apply N.eqb_neq in E. unfold need.
    assert (E1 : (1 <=? N.of_nat (length leaves)) = true) by (apply N.leb_le; lia).
    rewrite E1. reflexivity.
Qed.

(** ** Each leaf is the latest dispatched message of its time *)
Lemma dispatched_at_do b l c m : dispatched_at b (l ++ [LDo c m]) = dispatched_at b l.
Proof.
  unfold dispatched_at. rewrite answers_at_snoc. cbn. rewrite app_nil_r. reflexivity.
Qed.

Lemma mailbox_constant A x0 h st :
  lives A (SMerkle x0) h st -> exists x, st = SMerkle x /\ mk_mailbox x = mk_mailbox x0.
Proof.
  induction 1 as [| h st1 ev st2 r L IH H]; [eauto |].
  destruct IH as (x1 & -> & Hm).
  destruct (mk_answer _ _ _ _ _ H) as (e & i & md & raw & Q & latest & t & _ & _ & _ & _ & -> & _).
  eexists. split; [reflexivity | exact Hm].
Qed.

Lemma hook_mailbox_of x : reported_hook_mailbox (SMerkle x) = Some (mk_mailbox x).
Proof. reflexivity. Qed.

(** the mailbox a hook was created with never changes *)
Lemma asteps_hook C v w a x st :
  asteps C v w -> contract_at v a (SMerkle x) -> contract_at w a st ->
  exists y, st = SMerkle y /\ mk_mailbox y = mk_mailbox x.
Proof.
  intros H Hx Hst.
  assert (G : exists y, contract_at w a (SMerkle y) /\ mk_mailbox y = mk_mailbox x).
  { eapply (asteps_inv C (fun w => exists y, contract_at w a (SMerkle y) /\ mk_mailbox y = mk_mailbox x));
      [| exact H | eauto].
    clear. intros w w' (y & Hy & Hm) H. unfold contract_at in *.
    destruct H; subst;
      try match goal with
      | M : move_coins _ _ _ _ = Ok _ |- _ => apply move_coins_same in M as (I1 & _)
      end;
      cbn [w_inst add_log set_inst set_bank set_admin set_height bump] in *;
      unfold contract_at in *;
      try rewrite om_get_set; try rewrite I1 in *; try (exists y; split; [assumption | exact Hm]).
    all: destruct (keqb a _) eqn:E; [| exists y; split; [assumption | exact Hm]].
    all: apply keqb_eq in E; subst a.
    all: try congruence.
    - assert (st = SMerkle y) by congruence. subst st.
      match goal with G : c_execute _ _ _ _ _ _ = Ok _ |- _ =>
        destruct (mk_answer (ch_api C) y (EvExec _ _ _ _) _ _ G)
          as (e & i & md & raw & Q & latest & t & _ & _ & _ & _ & -> & _) end.
      eexists. split; [reflexivity | exact Hm].
    - match goal with G : om_get _ _ = Some (IC st) |- _ => rewrite G in Hy end.
      injection Hy as ->. discriminate. }
  destruct G as (y & Hy & Hm). exists y. split; [| exact Hm].
  unfold contract_at in *. congruence.
Qed.

Lemma chain_merkle_latest C w a st b stb l1 e i md raw Q r l2 :
  reachable C w -> contract_at w a st -> is_merkle st ->
  reported_hook_mailbox st = Some b -> contract_at w b stb -> is_mailbox stb ->
  w_log w = l1 ++ LCall a (EvExec e i (MPostDispatch md raw) Q) r :: l2 ->
  exists d, nth_error (rev (dispatched_at b l1)) 0 = Some d /\ keccak256_hash raw = keccak256_hash d.
Proof.
  intros Hr Hc Hk Hb Hcb Hkb Hl.
  apply reachable_steps in Hr as (bank & Hs & Hr).
  destruct (call_made C bank w l1 a _ _ _ _ r l2 Hr Hl)
    as (u & w1 & k & f & Hu & Hub & _ & _ & -> & I1 & _ & _ & Hcall).
  rewrite dispatched_at_do.
  destruct Hcall as [(sta & sta' & Ha & -> & Hex & Hv) | (sx & sx' & Ha & Hv)].
  2: { destruct (asteps_kind C _ w a (IX sx') Hv) as (z & Hz & K).
       { cbn [w_inst add_log set_inst]. rewrite om_get_set, keqb_refl. reflexivity. }
       unfold contract_at in Hc. rewrite Hc in Hz. injection Hz as <-. destruct K. }
  assert (Ksta : kind sta = 6).
  { destruct (asteps_kind C _ w a (IC sta') Hv) as (z & Hz & K).
    { cbn [w_inst add_log set_inst]. rewrite om_get_set, keqb_refl. reflexivity. }
    unfold contract_at in Hc. rewrite Hc in Hz. injection Hz as <-. cbn in K. unfold is_merkle in Hk.
    pose proof (apply_kind (ch_api C) (EvExec _ _ _ _) _ _ _ Hex) as K2. congruence. }
  destruct sta as [ | | | | | |x| | | | | | | | | | |]; try discriminate Ksta.
  pose proof (mk_answer (ch_api C) x (EvExec _ _ _ _) _ _ Hex)
    as (e0 & i0 & md0 & raw0 & Q0 & latest & t & Eev & Hq & Hlat & _ & Est & _).
  injection Eev as _ _ _ E4 E5. subst raw0 Q0.
  destruct (asteps_hook C _ w a (mkMk (mk_mailbox x) t) st Hv) as (y & -> & Hmy).
  { unfold contract_at. cbn [w_inst add_log set_inst]. rewrite om_get_set, keqb_refl, Est. reflexivity. }
  { exact Hc. }
  rewrite hook_mailbox_of, Hmy in Hb. cbn [mk_mailbox] in Hb. injection Hb as Hb.
  assert (Hab : keqb b a = false).
  { apply keqb_neq. intros ->. unfold contract_at in *. rewrite Hcb in Hc. injection Hc as ->. discriminate Hkb. }
  destruct k as [| k]; [discriminate Hq |].
  cbn [wq q_smart w_inst set_inst] in Hq. rewrite Hb, om_get_set, Hab, I1 in Hq.
  destruct (om_get b (w_inst u)) as [yb |] eqn:Eb; [| discriminate Hq].
  destruct (asteps_kind C u w b yb Hub Eb) as (z & Hz & K). unfold contract_at in Hcb.
  rewrite Hcb in Hz. injection Hz as <-. destruct yb as [sb | sb]; [| destruct K].
  cbn in K. unfold is_mailbox in Hkb. rewrite Hkb in K.
  destruct (known_nonces (ch_api C) u b sb (known_asteps C bank u b Hu) Eb K) as (_ & _ & Hlast & _).
  destruct sb as [xb | | | | | | | | | | | | | | | | |]; try discriminate K.
  unfold c_query in Hq. cbn [qmsg_ok ensure bind mb_query] in Hq.
  unfold reported_latest, c_query in Hlast. cbn [qmsg_ok ensure bind mb_query] in Hlast.
  destruct (mb_latest xb) as [id |]; [| discriminate Hq]. cbn [ok_or bind] in Hq, Hlast.
  apply Ok_inj in Hq. injection Hq as Hq.
  destruct (nth_error (rev (dispatched_at b (w_log u))) 0) as [d |]; [| discriminate Hlast].
  exists d. split; [reflexivity |]. injection Hlast as Hlast. congruence.
Qed.

(** ** Leaves in dispatch order *)
Lemma dispatched_at_app b l1 l2 : dispatched_at b (l1 ++ l2) = dispatched_at b l1 ++ dispatched_at b l2.
Proof. unfold dispatched_at, answers_at. rewrite !flat_map_app. reflexivity. Qed.
Lemma posts_at_app a l1 l2 : posts_at a (l1 ++ l2) = posts_at a l1 ++ posts_at a l2.
Proof. unfold posts_at, answers_at. rewrite !flat_map_app. reflexivity. Qed.
Lemma posted_at_app a l1 l2 : posted_at a (l1 ++ l2) = posted_at a l1 ++ posted_at a l2.
Proof. unfold posted_at. rewrite posts_at_app, map_app. reflexivity. Qed.

Lemma posted_one a x : posted_at a [x] = [] \/
  exists e i md raw Q r, x = LCall a (EvExec e i (MPostDispatch md raw) Q) r /\ posted_at a [x] = [raw].
Proof.
  unfold posted_at, posts_at, answers_at. cbn [flat_map app].
  destruct x as [| | | b ev r]; try (left; reflexivity).
  destruct (bytes_eqb a b) eqn:E; [| left; reflexivity].
  apply bytes_eqb_eq in E. subst b. cbn [flat_map app].
  destruct ev as [e i m Q | id rr]; [| left; reflexivity].
  destruct m; try (left; reflexivity). right. repeat eexists.
Qed.

Lemma sorted_snoc (l : list nat) n :
  StronglySorted le l -> Forall (fun i => (i <= n)%nat) l -> StronglySorted le (l ++ [n]).
Proof.
  induction 1 as [| x l S IH F]; intros Hn; cbn [app].
  - constructor; constructor.
  - inversion Hn; subst. constructor; [apply IH; assumption |].
    apply Forall_app. split; [exact F | constructor; [assumption | constructor]].
Qed.

Lemma leaves_ordered a b l :
  (forall l1 e i md raw Q r l2, l = l1 ++ LCall a (EvExec e i (MPostDispatch md raw) Q) r :: l2 ->
     exists d, nth_error (rev (dispatched_at b l1)) 0 = Some d /\ keccak256_hash raw = keccak256_hash d) ->
  exists idx, StronglySorted le idx /\
    Forall (fun n => (n < length (dispatched_at b l))%nat) idx /\
    Forall2 (fun n raw => option_map keccak256_hash (nth_error (dispatched_at b l) n)
                          = Some (keccak256_hash raw)) idx (posted_at a l).
Proof.
  induction l as [| x l IH] using rev_ind; intros H.
  - exists []. repeat constructor.
  - destruct IH as (idx & S & B & F).
    { intros l1 e i md raw Q r l2 ->. apply (H l1 e i md raw Q r (l2 ++ [x])).
      rewrite <- app_assoc. reflexivity. }
    assert (B' : Forall (fun n => (n < length (dispatched_at b (l ++ [x])))%nat) idx).
    { rewrite dispatched_at_app, app_length. eapply Forall_impl; [| exact B]. cbn. intros n Hn. lia. }
    assert (F' : Forall2 (fun n raw => option_map keccak256_hash (nth_error (dispatched_at b (l ++ [x])) n)
                          = Some (keccak256_hash raw)) idx (posted_at a l)).
    { clear - F B. rewrite dispatched_at_app. induction F as [| n raw idx ps E F IH]; [constructor |].
      inversion B; subst. constructor; [| apply IH; assumption].
      rewrite nth_error_app1 by assumption. exact E. }
    rewrite posted_at_app.
    destruct (posted_one a x) as [-> | (e & i & md & raw & Q & r & Ex & ->)].
    + exists idx. rewrite app_nil_r. auto.
    + destruct (H l e i md raw Q r []) as (d & Hd & Ek); [rewrite Ex; reflexivity |].
      set (ds := dispatched_at b l) in *.
      assert (Hn : nth_error ds (length ds - 1) = Some d /\ (0 < length ds)%nat).
      { clear - Hd. destruct ds as [| y ds _] using rev_ind; [discriminate Hd |].
        rewrite rev_app_distr in Hd. cbn in Hd. injection Hd as ->.
        rewrite app_length. cbn [length].
        replace (length ds + 1 - 1)%nat with (length ds) by lia. split; [| lia].
        rewrite nth_error_app2, PeanoNat.Nat.sub_diag by lia. reflexivity. }
      destruct Hn as [Hn Hpos].
      exists (idx ++ [(length ds - 1)%nat]). split; [| split].
      * apply sorted_snoc; [exact S |]. eapply Forall_impl; [| exact B]. cbn. intros n Hl. lia.
      * apply Forall_app. split; [exact B' |]. constructor; [| constructor].
        rewrite dispatched_at_app, app_length. fold ds. lia.
      * apply Forall2_app; [exact F' |]. constructor; [| constructor].
        rewrite dispatched_at_app. fold ds. rewrite nth_error_app1 by lia. rewrite Hn. cbn [option_map].
        congruence.
Qed.

Lemma chain_merkle_order C w a st b stb :
  reachable C w -> contract_at w a st -> is_merkle st ->
  reported_hook_mailbox st = Some b -> contract_at w b stb -> is_mailbox stb ->
  exists idx, StronglySorted le idx /\
    Forall2 (fun n raw => option_map keccak256_hash (nth_error (dispatched_at b (w_log w)) n)
                          = Some (keccak256_hash raw)) idx (posted_at a (w_log w)).
Proof.
  intros Hr Hc Hk Hb Hcb Hkb.
  destruct (leaves_ordered a b (w_log w)) as (idx & S & _ & F); [| eauto].
  intros l1 e i md raw Q r l2 E.
  exact (chain_merkle_latest C w a st b stb l1 e i md raw Q r l2 Hr Hc Hk Hb Hcb Hkb E).
Qed.

(** ** What the mailbox hands over arrives *)
Definition post_call (a : addr) (x : addr * addr * emsg * list coin) : list (addr * bytes) :=
  match x with
  | (c, b, MPostDispatch _ raw, _) => if bytes_eqb a b then [(c, raw)] else []
  | _ => []
  end.

Lemma posts_seen a l : posts_at a l = flat_map (post_call a) (calls_seen l).
Proof.
  induction l as [| x l IH]; [reflexivity |].
  change (x :: l) with ([x] ++ l). rewrite posts_at_app, IH.
  unfold calls_seen. rewrite !flat_map_app. f_equal.
  destruct x as [| | | b ev r]; try reflexivity.
  unfold posts_at, answers_at. cbn [flat_map app].
  destruct ev as [e i m Q | id rr].
  - destruct (bytes_eqb a b) eqn:E; destruct m; cbn [flat_map app post_call post_of]; rewrite ?E; reflexivity.
  - destruct (bytes_eqb a b); reflexivity.
Qed.

Lemma posts_sent b a l :
  map snd (filter (from b) (flat_map (post_call a) (calls_sent l))) = flat_map (hand_of a) (done_for b l).
Proof.
  induction l as [| x l IH]; [reflexivity |].
  change (x :: l) with ([x] ++ l). rewrite done_for_app. unfold calls_sent in *.
  rewrite !flat_map_app, filter_app, map_app, IH. f_equal.
  destruct x as [c m | | |]; try reflexivity. unfold done_for. cbn [flat_map app].
  destruct m as [d m f | | | | | |]; cbn [flat_map app]; try (destruct (bytes_eqb b c); reflexivity).
  destruct m; cbn [flat_map app post_call filter map hand_of]; try (destruct (bytes_eqb b c); reflexivity).
  destruct (bytes_eqb a d) eqn:Ea; cbn [app filter].
  - change (from b (c, message)) with (bytes_eqb b c).
    destruct (bytes_eqb b c); cbn [app flat_map hand_of map snd]; rewrite ?Ea; reflexivity.
  - destruct (bytes_eqb b c); cbn [app flat_map hand_of map snd]; rewrite ?Ea; reflexivity.
Qed.

Lemma flat_map_flat_map {X Y Z} (f : X -> list Y) (g : Y -> list Z) l :
  flat_map g (flat_map f l) = flat_map (fun x => flat_map g (f x)) l.
Proof. induction l as [| x l IH]; cbn [flat_map]; [reflexivity |]. rewrite flat_map_app, IH. reflexivity. Qed.

Lemma chain_handed C w a b stb :
  chain_ok C -> reachable C w -> contract_at w b stb -> is_mailbox stb ->
  Permutation (map snd (filter (from b) (posts_at a (w_log w)))) (handed_by b a (w_log w)).
Proof.
  intros HC Hr Hc Hm.
  rewrite posts_seen, <- (calls_reachable C w Hr), posts_sent.
  rewrite (Permutation_flat_map (hand_of a) (messages_settled C w b stb HC Hr Hc)).
  rewrite (Permutation_flat_map (hand_of a) (asked_split b (w_log w))).
  destruct (mailbox_known C w b stb Hr Hc Hm) as (e & i & q & hrp & owner & dom & r & st0 & B & _ & Hi & L).
  rewrite B, flat_map_app. cbn [flat_map snd].
  assert (Hr0 : r_msgs r = []).
  { unfold c_instantiate, lift, mb_instantiate in Hi. inv_all. reflexivity. }
  rewrite Hr0. cbn [map app flat_map]. rewrite flat_map_flat_map. apply Permutation_refl.
Qed.

(** ** The required hook *)
Lemma mb_hooks_step A x ev st' r :
  c_apply A ev (SMailbox x) = Ok (st', r) ->
  exists x', st' = SMailbox x' /\
    mb_required x' = match ev_msg ev with Some (MSetRequiredHook h) => Some h | _ => mb_required x end /\
    mb_hook x' = match ev_msg ev with Some (MSetDefaultHook h) => Some h | _ => mb_hook x end /\
    match ev_msg ev with
    | Some (MDispatch d) =>
        exists required hook md raw fees rest,
          map sm_msg (r_msgs r) = [CExec required (MPostDispatch md raw) fees;
                                   CExec hook (MPostDispatch md raw) rest] /\
          sent_message r = Some raw /\ mb_required x = Some required /\
          match d_hook d with Some h => hook = h | None => mb_hook x = Some hook end
    | _ => forall a, handed a r = []
    end.
Proof.
  intros H. destruct ev as [e i m Q|id rr]; [|discriminate].
  cbn [c_apply] in H. apply mb_exec_inv in H as (Hok & x' & -> & H).
  exists x'. split; [reflexivity |]. cbn [ev_msg].
  destruct m; try discriminate H.
  all: try (cbn [mb_execute] in H;
    unfold mb_set_default_ism, mb_set_default_hook, mb_set_required_hook, mb_set_own, addr_validate in H;
    inv_all; split_matches; cbn; auto; fail).
  - cbn [mb_execute] in H. apply mb_dispatch_iff in H
      as (sender & dflt & hook & required & fees & rest & _ & _ & H3 & H4 & H5 & _ & _ & _ & -> & ->).
    cbn [mb_required mb_hook]. split; [reflexivity |]. split; [reflexivity |].
    exists required, hook, (d_meta d),
      (msg_encode (the_message (mb_nonce x) (mb_domain x) sender d)), fees, (coins_to_vec rest).
    repeat split; [exact H5 |].
    unfold get_hook_addr in H4. destruct (d_hook d) as [h |].
    + unfold addr_validate in H4. inv_all. split_matches. reflexivity.
    + inv_all. exact H3.
  - cbn [mb_execute] in H.
    apply mb_process_iff in H as (m & rc & o & dflt & H1 & H2 & H3 & H4 & H5 & H6 & H7 & -> & H8 & ->).
    cbn. auto.
Qed.

Lemma lives_handed A x0 h st a :
  lives A (SMailbox x0) h st ->
  (mb_required x0 = None \/ mb_required x0 = Some a) -> mb_hook x0 <> Some a ->
  (forall e i hk Q r, In (EvExec e i (MSetRequiredHook hk) Q, r) h -> hk = a) ->
  exists x, st = SMailbox x /\ (mb_required x = None \/ mb_required x = Some a) /\
    (forall raw, In raw (flat_map (fun p : event * response => match p with
                     | (EvExec _ _ (MDispatch _) _, r) =>
                         match sent_message r with Some raw => [raw] | None => [] end
                     | _ => [] end) h) -> In raw (flat_map (fun p => handed a (snd p)) h)) /\
    ((forall e i hk Q r, In (EvExec e i (MSetDefaultHook hk) Q, r) h -> hk <> a) ->
     (forall e i d Q r, In (EvExec e i (MDispatch d) Q, r) h -> d_hook d <> Some a) ->
     mb_hook x <> Some a /\
     flat_map (fun p => handed a (snd p)) h =
     flat_map (fun p : event * response => match p with
                     | (EvExec _ _ (MDispatch _) _, r) =>
                         match sent_message r with Some raw => [raw] | None => [] end
                     | _ => [] end) h).
Proof.
  intros L R0 K0. induction L as [| h st1 ev st2 r L IH H]; intros Hset.
  - exists x0. auto.
  - destruct IH as (x1 & -> & R1 & I1 & X1).
    { intros e i hk Q r0 Hin. apply (Hset e i hk Q r0). apply in_or_app. auto. }
    destruct (mb_hooks_step _ _ _ _ _ H) as (x2 & -> & R2 & K2 & D).
    exists x2. split; [reflexivity |].
    assert (Hlast : In (ev, r) (h ++ [(ev, r)])) by (apply in_or_app; right; left; reflexivity).
    split; [| split].
    + rewrite R2. destruct ev as [e i m Q | id rr]; [| exact R1].
      destruct m; try exact R1. cbn [ev_msg]. right. rewrite (Hset _ _ _ _ _ Hlast). reflexivity.
    + intros raw. rewrite !flat_map_app, !in_app_iff. intros [Hin | Hin]; [left; auto |]. right.
      destruct ev as [e i m Q | id rr]; [| destruct Hin].
      destruct m; try (now destruct Hin). cbn [ev_msg] in D.
      destruct D as (required & hook & md & raw' & fees & rest & Hm & Hs & Hrq & _).
      cbn [flat_map] in Hin. rewrite Hs in Hin. destruct Hin as [<- | []].
      cbn [flat_map snd]. unfold handed. rewrite Hm. cbn [flat_map hand_of].
      assert (required = a) by (destruct R1; congruence). subst required.
      rewrite bytes_eqb_refl. left. reflexivity.
    + intros Hd Hk.
      destruct X1 as [K1 E1].
      { intros e i hk Q r0 Hin. apply (Hd e i hk Q r0). apply in_or_app. auto. }
      { intros e i d Q r0 Hin. apply (Hk e i d Q r0). apply in_or_app. auto. }
      split.
      * rewrite K2. destruct ev as [e i m Q | id rr]; [| exact K1].
        destruct m; try exact K1. cbn [ev_msg]. intros E. apply Some_inj in E.
        exact (Hd _ _ _ _ _ Hlast E).
      * rewrite !flat_map_app, E1. f_equal. cbn [flat_map snd]. rewrite !app_nil_r.
        destruct ev as [e i m Q | id rr]; [| apply D].
        destruct m; try apply D. cbn [ev_msg] in D.
        destruct D as (required & hook & md & raw & fees & rest & Hm & Hs & Hrq & Hh).
        rewrite Hs. unfold handed. rewrite Hm. cbn [flat_map hand_of].
        assert (required = a) by (destruct R1; congruence). subst required. rewrite bytes_eqb_refl.
        assert (En : bytes_eqb a hook = false).
        { apply bytes_eqb_neq. intros <-. pose proof (Hk _ _ _ _ _ Hlast) as Hn.
          destruct (d_hook d) as [hk |]; [apply Hn; rewrite Hh; reflexivity | exact (K1 Hh)]. }
        rewrite En. reflexivity.
Qed.

Lemma chain_at_least_once C w a b stb :
  chain_ok C -> reachable C w -> contract_at w b stb -> is_mailbox stb ->
  only_required b a (w_log w) ->
  forall raw, In raw (dispatched_at b (w_log w)) -> In (b, raw) (posts_at a (w_log w)).
Proof.
  intros HC Hr Hc Hm Ho raw Hin.
  destruct (mailbox_known C w b stb Hr Hc Hm) as (e & i & q & hrp & owner & dom & r & st0 & B & _ & Hi & L).
  destruct (mb_born _ _ _ _ _ _ _ _ _ Hi) as [_ Hb]. rewrite Hb in L.
  destruct (lives_handed _ _ _ _ a L) as (x & _ & _ & Hall & _);
    [left; reflexivity | discriminate | exact Ho |].
  apply Hall in Hin.
  apply (Permutation_in raw (Permutation_sym (chain_handed C w a b stb HC Hr Hc Hm))) in Hin.
  apply in_map_iff in Hin as ([c raw'] & E & Hin). cbn [snd] in E. subst raw'.
  apply filter_In in Hin as [Hin E]. unfold from in E. cbn [fst] in E. apply bytes_eqb_eq in E. subst c.
  exact Hin.
Qed.

Lemma filter_all {X} (f : X -> bool) l : (forall x, In x l -> f x = true) -> filter f l = l.
Proof.
  induction l as [| x l IH]; intros H; [reflexivity |]. cbn [filter].
  rewrite (H x (or_introl eq_refl)), IH; [reflexivity |]. intros y Hy. apply H. right. exact Hy.
Qed.

Lemma chain_exactly_once C w a b stb :
  chain_ok C -> reachable C w -> contract_at w b stb -> is_mailbox stb ->
  only_required b a (w_log w) -> never_chosen b a (w_log w) ->
  Permutation (map snd (filter (from b) (posts_at a (w_log w)))) (dispatched_at b (w_log w)).
Proof.
  intros HC Hr Hc Hm Ho [Hn1 Hn2].
  destruct (mailbox_known C w b stb Hr Hc Hm) as (e & i & q & hrp & owner & dom & r & st0 & B & _ & Hi & L).
  destruct (mb_born _ _ _ _ _ _ _ _ _ Hi) as [_ Hb]. rewrite Hb in L.
  destruct (lives_handed _ _ _ _ a L) as (x & _ & _ & _ & Hx);
    [left; reflexivity | discriminate | exact Ho |].
  destruct (Hx Hn1 Hn2) as [_ E].
  rewrite (chain_handed C w a b stb HC Hr Hc Hm). unfold handed_by, dispatched_at. rewrite E.
  apply Permutation_refl.
Qed.
