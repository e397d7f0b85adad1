(** * Guarded modules: proofs. *)
From Coq Require Import List NArith Bool Lia Arith Permutation.
From Verif Require Import Base BaseFacts OMap Crypto Coins Message CodecFacts Bech32 Chain Ownable Router Contracts Spec SpecModules
  Mailbox Va Isms Hooks Igp Warp Cw20 StepFacts IsmFacts MailboxConfFacts World SpecWorld WorldFacts WorldMailbox WorldMerkle SpecVerify WorldVerify SpecBridge WorldWarp WorldToken WorldRoute Keccak MerkleFacts SpecGuard.
Import ListNotations.

Lemma part_refl md : part md md.
Proof. exists [], []. now rewrite app_nil_r. Qed.
Lemma part_trans a b c : part a b -> part b c -> part a c.
Proof. intros (p & q & ->) (p' & q' & ->). exists (p' ++ p), (q ++ q'). now rewrite !app_assoc. Qed.
Lemma slice_part md k md' : module_slice md k md' -> part md' md.
Proof.
  intros (lo & hi & _ & _ & _ & _ & _ & ->). exists (firstn (N.to_nat lo) md), (skipn (N.to_nat (hi - lo)) (skipn (N.to_nat lo) md)).
  now rewrite firstn_skipn, firstn_skipn.
Qed.

Lemma one_not_among (l l' : list bytes) : NoDup l -> (length l' < length l)%nat -> exists x, In x l /\ ~ In x l'.
Proof.
  intros ND L. destruct (forallb (fun x => existsb (bytes_eqb x) l') l) eqn:E.
  - exfalso. apply (Nat.lt_irrefl (length l)). eapply Nat.le_lt_trans; [|exact L]. apply NoDup_incl_length; [exact ND|].
    intros x Hx. rewrite forallb_forall in E. apply existsb_bytes, E, Hx.
  - assert (H : existsb (fun x => negb (existsb (bytes_eqb x) l')) l = true).
    { clear - E. induction l as [|a l IH]; [discriminate E|]. cbn [forallb existsb] in *.
      destruct (existsb (bytes_eqb a) l'); cbn [negb orb andb] in *; [apply IH, E | reflexivity]. }
    apply existsb_exists in H as (x & Hx & N). exists x. split; [exact Hx|]. intros Hin. apply existsb_bytes in Hin. rewrite Hin in N. discriminate N.
Qed.

Section Guard.
  Variables (A : api) (S : addr -> cstate -> Prop) (E : addr -> Prop) (o : N) (good : bytes -> Prop).
  Hypothesis HS : forall x st st', S x st -> S x st' -> st = st'.
  Hypothesis HE : forall x st, S x st -> ~ E x.

  Lemma guarded_signed x : guarded S o good x -> forall md raw m, vouched A S E x md raw ->
    msg_decode raw = Ok m -> m_origin m = o -> signed_within A good o md raw.
  Proof.
    induction 1 as [x st vs t liars H1 H2 H3 H4 H5 | x st H1 H2 H3 | x st isms t weak H1 H2 H3 H4 IH | x st H1 H2 H3 IH | x st H1 H2 H3];
      intros md raw m V D O;
      inversion V as [x' st' md0 raw0 m' tr root index sigs vs' t' signers B1 B2 B3 B4 B5 B6 B7 B8 B9 | x' st' md0 raw0 isms' t' ok B1 B2 B3 B4 B5
                     | x' st' md0 raw0 y B1 B2 B3 B4 | x' st' md0 raw0 B1 B2 B3 | x' md0 raw0 B1]; subst x' md0 raw0;
      try (contradiction (HE _ _ H1 B1)); pose proof (HS _ _ _ H1 B1) as EQ; subst st';
      try (destruct st; (contradiction || discriminate)).
    - rewrite D in B3. apply Ok_inj in B3. subst m'. rewrite O in *. rewrite H3 in B5. injection B5 as <- <-.
      destruct (one_not_among signers liars B7) as (v & Hv & Nv); [lia|].
      rewrite Forall_forall in B9. destruct (B9 v Hv) as (Iv & sg & Isg & Sg).
      exists md, tr, root, index, sigs, sg, v. split; [apply part_refl|]. split; [exact B4|]. split; [exact Isg|]. split; [exact (H5 v Iv Nv) | exact Sg].
    - rewrite D in B3. apply Ok_inj in B3. subst m'. rewrite O in *. rewrite H3 in B5. discriminate B5.
    - rewrite H2 in B2. injection B2 as <- <-.
      destruct (one_not_among ok weak B3) as (y & Hy & Ny); [unfold addr in *; lia|]. destruct (B5 y Hy) as (k & md' & K1 & K2 & K3).
      destruct (IH y (nth_error_In _ _ K1) Ny md' raw m K3 D O) as (md2 & t2 & r2 & i2 & s2 & sg & v & P & R).
      exists md2, t2, r2, i2, s2, sg, v. split; [exact (part_trans _ _ _ P (slice_part _ _ _ K2)) | exact R].
    - exact (IH raw m y D O B3 md raw m B4 D O).
    - rewrite H3 in B3. discriminate B3.
  Qed.
End Guard.

Lemma as_of_one C l x st st' : as_of C l x st -> as_of C l x st' -> st = st'.
Proof.
  intros (e & i & q & m & r & st0 & B & I & ->) (e' & i' & q' & m' & r' & st0' & B' & I' & ->).
  rewrite B in B'. injection B' as <- <- <- <- <-. rewrite I in I'. injection I' as <-. reflexivity.
Qed.
Lemma as_of_inside C l x st : as_of C l x st -> ~ outside l x.
Proof. intros (e & i & q & m & r & st0 & B & _) H. unfold outside in H. rewrite H in B. discriminate B. Qed.

(** ** From signatures to dispatches *)
Lemma collide (P : bytes -> Prop) x y : P x -> P y -> x <> y -> keccak256_hash x = keccak256_hash y -> collision P.
Proof. intros. exists x, y. auto. Qed.
Lemma signed_dispatched A o tree signed shown dispatched leaves md raw m :
  o < 2 ^ 32 -> length tree = 32%nat -> observed leaves signed ->
  (forall id, In id leaves -> exists d, In d dispatched /\ keccak256_hash d = id) ->
  In (md, raw) shown -> msg_decode raw = Ok m -> m_origin m = o ->
  signed_within A (truthful A o tree signed shown) o md raw ->
  In raw dispatched \/ collision (fed o tree signed shown dispatched).
Proof.
  intros Ho Ht HO HL Hin D O (md' & t & root & index & sigs & sg & v & P & M & Isg & G & Sg).
  destruct (G md raw m md' t root index sigs sg Hin D O P M Isg Sg) as (root' & index' & id' & I' & EQ).
  destruct (HO _ _ _ I') as (L1 & L2 & L3). destruct (HL _ L3) as (d & Hd & Kd).
  pose proof M as (tail & _ & M1 & M2 & M3 & _).
  assert (HA : hashed tree signed shown t root index (keccak256_hash raw)) by (right; exists md, raw, md', sigs; auto).
  assert (HB : hashed tree signed shown tree root' index' id') by (left; auto).
  assert (L4 : length id' = 32%nat) by (rewrite <- Kd; apply keccak256_length).
  destruct (digest_binds o t root index (keccak256_hash raw) o tree root' index' id' Ho Ho M3 L2 M1 Ht M2 L1 (keccak256_length raw) L4 EQ)
    as [(_ & _ & _ & _ & EI) | [(X1 & X2) | [(X1 & X2) | (X1 & X2)]]].
  - destruct (bytes_eqb d raw) eqn:B; [apply bytes_eqb_eq in B; subst d; left; exact Hd|].
    right. exists d, raw. split; [left; exact Hd|]. split; [right; left; exists md; exact Hin|].
    split; [intros ->; rewrite bytes_eqb_refl in B; discriminate B|]. rewrite Kd. now symmetry.
  - right. refine (collide _ _ _ _ _ X1 X2); right; right; do 4 eexists;
      [split; [exact HA | right; right; reflexivity] | split; [exact HB | right; right; reflexivity]].
  - right. refine (collide _ _ _ _ _ X1 X2); right; right; do 4 eexists;
      [split; [exact HA | right; left; reflexivity] | split; [exact HB | right; left; reflexivity]].
  - right. refine (collide _ _ _ _ _ X1 X2); right; right; do 4 eexists;
      [split; [exact HA | left; reflexivity] | split; [exact HB | left; reflexivity]].
Qed.

(** the leaves of a merkle hook are ids of what its mailbox dispatched *)
Lemma leaves_dispatched C w a st b stb : reachable C w -> contract_at w a st -> is_merkle_hook st ->
  reported_hook_mailbox st = Some b -> contract_at w b stb -> is_mailbox stb ->
  forall id, In id (map keccak256_hash (posted_at a (w_log w))) -> exists d, In d (dispatched_at b (w_log w)) /\ keccak256_hash d = id.
Proof.
  intros Hr Hc Hk Hm Hb Hbk id Hin. assert (Hk' : is_merkle st) by (destruct st; try contradiction Hk; reflexivity).
  destruct (chain_merkle_order C w a st b stb Hr Hc Hk' Hm Hb Hbk) as (idx & _ & F).
  apply in_map_iff in Hin as (raw & <- & Hraw). destruct (Forall2_in_r _ _ _ raw F Hraw) as (n & _ & Hn).
  destruct (nth_error (dispatched_at b (w_log w)) n) as [d|] eqn:E; [|discriminate Hn]. cbn [option_map] in Hn. apply Some_inj in Hn.
  exists d. split; [exact (nth_error_In _ _ E) | exact Hn].
Qed.

Lemma shown_in mb l e i md raw Q r : In (EvExec e i (MProcess md raw) Q, r) (answers_at mb l) -> In (md, raw) (shown_at mb l).
Proof. intros H. unfold shown_at. apply in_flat_map. eexists. split; [exact H|]. left. reflexivity. Qed.

Lemma processed_dispatched C1 w1 a st b stb C2 w2 mb mbst tree signed e i md raw Q r m :
  reachable C1 w1 -> contract_at w1 a st -> is_merkle_hook st -> reported_hook_mailbox st = Some b ->
  contract_at w1 b stb -> is_mailbox stb ->
  reachable C2 w2 -> contract_at w2 mb mbst -> is_mailbox mbst ->
  length tree = 32%nat -> observed (map keccak256_hash (posted_at a (w_log w1))) signed ->
  In (EvExec e i (MProcess md raw) Q, r) (answers_at mb (w_log w2)) -> msg_decode raw = Ok m ->
  (forall pre post x, w_log w2 = pre ++ LCall mb (EvExec e i (MProcess md raw) Q) r :: post -> asked_about C2 (w_log w2) pre mb m x ->
     guarded (as_of C2 pre) (m_origin m) (truthful (ch_api C2) (m_origin m) tree signed (shown_at mb (w_log w2))) x) ->
  In raw (dispatched_at b (w_log w1)) \/
  collision (fed (m_origin m) tree signed (shown_at mb (w_log w2)) (dispatched_at b (w_log w1))).
Proof.
  intros R1 Ha Hk Hm Hb Hbk R2 Hc Hck Ht HO Hin D G.
  destruct (processed_vouched C2 w2 mb mbst e i md raw Q r R2 Hc Hck Hin)
    as (pre & post & st1 & hrp & m' & rcp & own & dflt & L & A1 & A2 & A3 & A4 & A5 & A6 & A7 & A8 & A9 & V).
  rewrite D in A4. apply Ok_inj in A4. subst m'.
  eapply signed_dispatched; [| exact Ht | exact HO | eapply leaves_dispatched; eassumption | exact (shown_in _ _ _ _ _ _ _ _ Hin) | exact D | reflexivity |].
  - apply msg_decode_Ok_inv in D as (_ & W & _). unfold msg_wf in W. exact (proj1 (proj2 (proj2 W))).
  - eapply (guarded_signed (ch_api C2) (as_of C2 pre) (outside pre)); [apply as_of_one | apply as_of_inside | | exact V | exact D | reflexivity].
    apply (G pre post _ L). exists st1, hrp, rcp, own, dflt. auto 10.
Qed.

(** ** Warp routes *)
Lemma Forall_or {X} (P : X -> Prop) (R : Prop) l : Forall (fun x => P x \/ R) l -> Forall P l \/ R.
Proof.
  induction 1 as [|x l [H|H] _ IH]; [left; constructor | destruct IH as [IH|IH]; [left; constructor; assumption | right; exact IH] | right; exact H].
Qed.

Lemma addressed_hrp T mb hrp m : contract_at (sd_world T) (sd_mailbox T) mb -> reported_hrp mb = Some hrp ->
  (addressed T m <-> bech32_encode hrp (m_recipient m) = Ok (sd_route T)).
Proof.
  intros Hc Hh. split.
  - intros (mb' & hrp' & Hc' & Hh' & E). unfold contract_at in *. rewrite Hc in Hc'. injection Hc' as <-. rewrite Hh in Hh'. apply Some_inj in Hh' as <-. exact E.
  - intros E. exists mb, hrp. auto.
Qed.

Lemma watched_asked S T a tree signed e i md raw Q r m :
  side_ok S -> side_ok T -> hooked S a -> length tree = 32%nat ->
  observed (map keccak256_hash (posted_at a (sd_log S))) signed ->
  watched T (sd_domain S) (truthful (ch_api (sd_chain T)) (sd_domain S) tree signed (shown_at (sd_mailbox T) (sd_log T))) ->
  In (EvExec e i (MProcess md raw) Q, r) (answers_at (sd_mailbox T) (sd_log T)) ->
  msg_decode raw = Ok m -> m_origin m = sd_domain S -> addressed T m ->
  In raw (dispatched_at (sd_mailbox S) (sd_log S)) \/
  collision (fed (sd_domain S) tree signed (shown_at (sd_mailbox T) (sd_log T)) (dispatched_at (sd_mailbox S) (sd_log S))).
Proof.
  intros (HC & Hr & (mb & hrp & Hmc & Hmm & Hmd & Hmh & _) & _)
         (HC' & Hr' & (mb' & hrp' & Hmc' & Hmm' & Hmd' & Hmh' & _) & (st' & Hwc' & Hwk' & Hwm') & _)
         (hk & Hh1 & Hh2 & Hh3) Ht HO HW Hin D O AD. rewrite <- O in *. unfold sd_log in *.
  eapply processed_dispatched; [exact Hr | exact Hh1 | exact Hh2 | exact Hh3 | exact Hmc | exact Hmm | exact Hr' | exact Hmc' | exact Hmm' | exact Ht
    | exact HO | exact Hin | exact D |].
  intros pre post x L (st1 & hrp1 & rcp & own & dflt & A1 & A2 & A3 & A4 & A5 & ->).
  assert (E1 : hrp1 = hrp').
  { destruct (later_state (sd_chain T) (sd_world T) pre post _ (sd_mailbox T) mb' st1 Hr' Hmc' L A1) as (st0 & h0 & X1 & X2).
    assert (Hm0 : is_mailbox st0) by (unfold is_mailbox in *; rewrite X2, run_kind in Hmm'; exact Hmm').
    destruct (mb_conf_history (ch_api (sd_chain T)) st0 (events_at (sd_mailbox T) pre) Hm0) as (_ & _ & _ & Y1 & _).
    destruct (mb_conf_history (ch_api (sd_chain T)) st0 h0 Hm0) as (_ & _ & _ & Y2 & _).
    rewrite X1, Y1 in A2. rewrite X2, Y2, A2 in Hmh'. now injection Hmh'. }
  subst hrp1. pose proof (proj1 (addressed_hrp T mb' hrp' m Hmc' Hmh') AD) as AE. rewrite AE in A3. apply Ok_inj in A3. subst rcp.
  destruct A5 as [A5 | (st2 & A5 & A6)].
  { exfalso. unfold outside in A5. destruct (contract_known _ _ _ st' Hr' Hwc') as (? & ? & ? & ? & ? & ? & B & _). rewrite A5 in B. discriminate B. }
  pose proof (HW pre post e i md raw Q r m st2 st1 dflt L D eq_refl AD A5 A1 A4) as G. rewrite A6 in G. exact G.
Qed.

Lemma watched_honest S T a tree signed :
  side_ok S -> side_ok T -> hooked S a -> length tree = 32%nat ->
  observed (map keccak256_hash (posted_at a (sd_log S))) signed ->
  watched T (sd_domain S) (truthful (ch_api (sd_chain T)) (sd_domain S) tree signed (shown_at (sd_mailbox T) (sd_log T))) ->
  honest S T \/
  collision (fed (sd_domain S) tree signed (shown_at (sd_mailbox T) (sd_log T)) (dispatched_at (sd_mailbox S) (sd_log S))).
Proof.
  intros HS HT HH Ht HO HW.
  set (R := collision _).
  assert (F : Forall (fun p : event * response => (match p with
     | (EvExec _ _ (MProcess _ raw) _, _) => forall m, msg_decode raw = Ok m -> m_origin m = sd_domain S -> addressed T m ->
         In raw (dispatched_at (sd_mailbox S) (sd_log S))
     | _ => True end) \/ R) (answers_at (sd_mailbox T) (sd_log T))).
  { apply Forall_forall. intros [[e i em Q|id rr] r] Hin; [|left; exact I]. destruct em;
      try (left; exact I).
    match goal with |- context [msg_decode ?b] => rename b into raw end.
    destruct (msg_decode raw) as [m|x|] eqn:D; [|left; intros m' X; discriminate X|left; intros m' X; discriminate X].
    destruct (N.eq_dec (m_origin m) (sd_domain S)) as [O|O]; [|left; intros m' X X2; apply Ok_inj in X; subst m'; contradiction (O X2)].
    pose proof HT as (_ & _ & (mb' & hrp' & Hmc' & Hmm' & Hmd' & Hmh' & _) & _).
    destruct (bech32_encode hrp' (m_recipient m)) as [b|x|] eqn:EB.
    2,3: left; intros m' X X2 X3; apply Ok_inj in X; subst m'; apply (addressed_hrp T mb' hrp' m Hmc' Hmh') in X3; rewrite EB in X3; discriminate X3.
    destruct (bytes_eqb b (sd_route T)) eqn:EQ.
    - apply bytes_eqb_eq in EQ. subst b. assert (AD : addressed T m) by (apply (addressed_hrp T mb' hrp' m Hmc' Hmh'); exact EB).
      destruct (watched_asked S T a tree signed e i _ _ Q r m HS HT HH Ht HO HW Hin D O AD) as [G|G]; [left; intros _ _ _ _; exact G | right; exact G].
    - left. intros m' X X2 X3. apply Ok_inj in X. subst m'. apply (addressed_hrp T mb' hrp' m Hmc' Hmh') in X3. rewrite EB in X3.
      apply Ok_inj in X3. subst b. rewrite bytes_eqb_refl in EQ. discriminate EQ. }
  apply Forall_or in F as [F|F]; [left|right; exact F].
  intros raw m Hin D O AD. unfold processed_at in Hin. apply in_flat_map in Hin as ([[e i em Q|id rr] r] & Hin & Hx); [|destruct Hx].
  rewrite Forall_forall in F. specialize (F _ Hin). destruct em; try contradiction Hx. destruct Hx as [->|[]]. exact (F m D O AD).
Qed.

Lemma watched_backed S T a tree signed :
  side_ok S -> side_ok T -> enrolled S T -> enrolled T S -> proper_recipients S -> hooked S a -> length tree = 32%nat ->
  observed (map keccak256_hash (posted_at a (sd_log S))) signed ->
  watched T (sd_domain S) (truthful (ch_api (sd_chain T)) (sd_domain S) tree signed (shown_at (sd_mailbox T) (sd_log T))) ->
  sent_to (sd_route S) (sd_domain T) (sd_log S) = received_from (sd_route T) (sd_domain S) (sd_log T) + in_flight S T \/
  collision (fed (sd_domain S) tree signed (shown_at (sd_mailbox T) (sd_log T)) (dispatched_at (sd_mailbox S) (sd_log S))).
Proof.
  intros HS HT E1 E2 HP HH Ht HO HW. destruct (watched_honest S T a tree signed HS HT HH Ht HO HW) as [H|H]; [left|right; exact H].
  apply bridge_amounts; assumption.
Qed.

(** ** What the hook reports may be signed *)
Lemma tnode_length ls d i : length (tnode ls (S d) i) = 32%nat.
Proof. apply keccak256_length. Qed.
Lemma reports_observed C w a l :
  (forall c, In c l -> reported_then C w a c) -> observed (map keccak256_hash (posted_at a (w_log w))) l.
Proof.
  intros H root index id Hin. destruct (H _ Hin) as (w1 & txs & st & older & newest & Hr & -> & Hc & Hk & R & P & I). cbn [fst snd] in *.
  assert (Hk' : is_merkle st) by (destruct st; try contradiction Hk; reflexivity).
  destruct (chain_merkle_tree C w1 a st Hr Hc Hk') as (B & _ & _ & R'). rewrite R in R'. apply Some_inj in R'.
  apply pair_equal_spec in R' as [-> ->]. split; [|split].
  - unfold padded_root. exact (tnode_length _ 31 0).
  - lia.
  - destruct (asteps_extends C w1 _ (chain_run_steps C txs w1)) as (new & E). rewrite E, posted_at_app, P, I.
    apply in_map. rewrite <- app_assoc. apply in_or_app. right. left. reflexivity.
Qed.

(** a contract there by the end was what it was at a moment after its creation *)
Lemma as_of_before C w pre post x a st :
  reachable C w -> contract_at w a st -> w_log w = pre ++ x :: post -> births_at a pre <> [] -> exists st1, as_of C pre a st1.
Proof.
  intros Hr Hc L Hb. destruct (contract_known C w a st Hr Hc) as (e & i & q & m & r & st0 & B & _ & I & _).
  rewrite L in B. unfold births_at in B, Hb. rewrite flat_map_app in B. destruct (flat_map _ pre) as [|y ys] eqn:E in B, Hb; [contradiction Hb; reflexivity|].
  injection B as -> B. apply app_eq_nil in B as [-> _].
  exists (c_run (ch_api C) st0 (events_at a pre)), e, i, q, m, r, st0. unfold births_at. auto.
Qed.

Lemma trusted_linked S T a b tS tT sS sT :
  side_ok S -> side_ok T -> enrolled S T -> enrolled T S -> only_peer S T -> only_peer T S ->
  proper_recipients S -> proper_recipients T -> trusted S T a tS sS -> trusted T S b tT sT ->
  linked S T \/ collided S T tS sS \/ collided T S tT sT.
Proof.
  intros H1 H2 H3 H4 H5 H6 H7 H8 (A1 & A2 & A3 & A4) (B1 & B2 & B3 & B4).
  destruct (watched_honest S T a tS sS H1 H2 A1 A2 A3 A4) as [H9|C]; [|right; left; exact C].
  destruct (watched_honest T S b tT sT H2 H1 B1 B2 B3 B4) as [H10|C]; [|right; right; exact C].
  left. unfold linked. auto 20.
Qed.

Lemma trusted_solvent S T a b tS tT sS sT held base out base' :
  side_ok S -> side_ok T -> enrolled S T -> enrolled T S -> only_peer S T -> only_peer T S ->
  proper_recipients S -> proper_recipients T -> trusted S T a tS sS -> trusted T S b tT sT ->
  custody S held base -> issued T out base' ->
  held + base' = base + out + in_flight S T + in_flight T S \/ collided S T tS sS \/ collided T S tT sT.
Proof.
  intros H1 H2 H3 H4 H5 H6 H7 H8 A B K I.
  destruct (trusted_linked S T a b tS tT sS sT H1 H2 H3 H4 H5 H6 H7 H8 A B) as [L|C]; [left|right; exact C].
  exact (linked_locked_issued S T held base out base' L K I).
Qed.
