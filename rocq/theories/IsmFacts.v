(** * Security modules. *)
From Coq Require Import List NArith Lia Bool.
From Verif Require Import Base BaseFacts OMap Coins Keccak Crypto Message Metadata CodecFacts Bech32
  Chain Ownable Router Mailbox Va Isms Hooks Igp Warp Cw20 Contracts Spec SpecModules StepFacts AccessFacts
  MailboxConfFacts MailboxFacts.
Import ListNotations.

Lemma query_inv A q m st r :
  c_query A q m st = Ok r -> qmsg_ok m = true.
Proof. unfold c_query. intros H. apply bind_Ok_inv in H as (u & H & _). now apply ensure_Ok_inv in H. Qed.

(** ** Signatures *)
Lemma ms_signer_iff A h sg a :
  length sg = 65%nat -> (ms_signer A h sg = Ok a <-> signed_by A h sg a).
Proof.
  intros L.
  destruct (split_at 64 sg) as (p & t & -> & Lp); [lia|].
  rewrite app_length in L. destruct t as [|v [|]]; cbn [length] in L; try lia.
  unfold ms_signer. rewrite slice_head by exact Lp. cbn [bind].
  replace (slice 64 65 (p ++ [v])) with (Ok [v])
    by (symmetry; rewrite <- (app_nil_r [v]); apply slice_mid; cbn; lia).
  cbn [bind].
  replace (of_be [v]) with (bN v) by (rewrite of_be_cons; cbn [length of_be fold_left]; lia).
  unfold signed_by, eth_addr. rewrite firstn_app_exact by exact Lp.
  assert (E64 : nth_error (p ++ [v]) 64 = Some v).
  { rewrite nth_error_app2 by lia. now replace (64 - length p)%nat with 0%nat by lia. }
  rewrite E64. split.
  - intros H. apply bind_Ok_inv in H as (u & H1 & H). apply need_Ok_inv, N.leb_le in H1.
    apply bind_Ok_inv in H as (pk & H2 & H). apply ok_or_Ok_inv in H2.
    apply bind_Ok_inv in H as (k & H3 & H). apply Ok_inj in H. subst a.
    split; [rewrite app_length; cbn [length]; lia|].
    exists v, pk. destruct pk as [|b pk]; [discriminate H3|].
    unfold slice_from in H3. cbn [length Nat.leb skipn] in H3. apply Ok_inj in H3. subst k.
    cbn [tl]. repeat match goal with |- _ /\ _ => split end; auto. discriminate.
  - intros (_ & v' & pk & H0 & H1 & H2 & H3 & ->). apply Some_inj in H0. subst v'.
    apply N.leb_le in H1. rewrite H1. cbn [need bind]. rewrite H2. cbn [ok_or bind].
    destruct pk as [|b pk]; [congruence|]. reflexivity.
Qed.

(** the loop succeeds with nothing left only if enough distinct validators signed *)
Lemma ms_loop_sound A h vs sigs matched t :
  ms_loop A h vs sigs matched t = Ok 0 ->
  exists signers, NoDup signers /\ N.of_nat (length signers) = t /\
    Forall (fun a => In a vs /\ ~ In a matched /\ exists sg, In sg sigs /\ ms_signer A h sg = Ok a) signers.
Proof.
  revert matched t. induction sigs as [|sg sigs IH]; intros matched t H; cbn [ms_loop] in H.
  - apply Ok_inj in H. subst t. exists []. repeat split; constructor.
  - apply bind_Ok_inv in H as (a & Ha & H).
    destruct (mem_bytes a vs && negb (mem_bytes a matched))%bool eqn:E.
    + apply andb_true_iff in E as [E1 E2]. apply negb_true_iff in E2.
      apply mem_bytes_In in E1. apply mem_bytes_not_In in E2.
      apply bind_Ok_inv in H as (u & Hn & H). apply need_Ok_inv, N.leb_le in Hn.
      destruct (t - 1 =? 0) eqn:Et.
      * apply N.eqb_eq in Et. exists [a]. split; [constructor; [intros []|constructor]|].
        split; [cbn [length]; lia|]. constructor; [|constructor].
        split; [exact E1|]. split; [exact E2|]. exists sg. split; [now left|exact Ha].
      * apply IH in H as (l & H1 & H2 & H3). exists (a :: l). split; [|split].
        -- constructor; [|exact H1]. intros Hin. rewrite Forall_forall in H3.
           apply H3 in Hin as (_ & Hni & _). apply Hni. now left.
        -- cbn [length]. lia.
        -- constructor.
           ++ split; [exact E1|]. split; [exact E2|]. exists sg. split; [now left|exact Ha].
           ++ eapply Forall_impl; [|exact H3]. intros b (B1 & B2 & sb & B3 & B4).
              split; [exact B1|]. split; [intros Hb; apply B2; now right|].
              exists sb. split; [now right|exact B4].
    + apply IH in H as (l & H1 & H2 & H3). exists l. split; [exact H1|]. split; [exact H2|].
      eapply Forall_impl; [|exact H3]. intros b (B1 & B2 & sb & B3 & B4).
      repeat split; auto. exists sb. split; [now right|exact B4].
Qed.

Lemma NoDup_incl_remove (l : list bytes) a :
  NoDup l -> exists l', NoDup l' /\ incl l' l /\ ~ In a l' /\ (length l <= S (length l'))%nat.
Proof.
  intros H. exists (remove bytes_eq_dec a l). split; [|split; [|split]].
  - induction H as [|x l Hx H IH]; [constructor|]. cbn [remove].
    destruct (bytes_eq_dec a x); [exact IH|]. constructor; [|exact IH].
    intros Hin. apply in_remove in Hin as [Hin _]. contradiction.
  - intros x Hx. now apply in_remove in Hx as [Hx _].
  - apply remove_In.
  - induction H as [|x l Hx H IH]; [cbn; lia|]. cbn [remove].
    destruct (bytes_eq_dec a x) as [->|E]; cbn [length].
    + rewrite notin_remove by exact Hx. lia.
    + lia.
Qed.

(** good signatures up to the point where the threshold is met are enough *)
Lemma ms_loop_complete A h vs pre suf matched t signers :
  Forall (fun sg => exists a, ms_signer A h sg = Ok a) pre ->
  NoDup signers -> t <= N.of_nat (length signers) -> 0 < t ->
  Forall (fun a => In a vs /\ ~ In a matched /\ exists sg, In sg pre /\ ms_signer A h sg = Ok a) signers ->
  ms_loop A h vs (pre ++ suf) matched t = Ok 0.
Proof.
  revert matched t signers. induction pre as [|sg pre IH]; intros matched t signers Hp Hnd Hle Hpos HF.
  - destruct signers as [|a l]; [cbn in Hle; lia|]. inversion HF as [|? ? (_ & _ & sg & [] & _)].
  - cbn [app ms_loop]. inversion Hp as [|? ? [a Ha] Hp']; subst. rewrite Ha. cbn [bind].
    destruct (mem_bytes a vs && negb (mem_bytes a matched))%bool eqn:E.
    + assert (E1 : (1 <=? t) = true) by (apply N.leb_le; lia). rewrite E1. cbn [need bind].
      destruct (t - 1 =? 0) eqn:Et; [reflexivity|]. apply N.eqb_neq in Et.
      destruct (NoDup_incl_remove signers a Hnd) as (l' & L1 & L2 & L3 & L4).
      apply (IH (a :: matched) (t - 1) l'); [exact Hp'|exact L1|lia|lia|].
      apply Forall_forall. intros b Hb. rewrite Forall_forall in HF.
      destruct (HF b (L2 b Hb)) as (B1 & B2 & sb & B3 & B4).
      split; [exact B1|]. split.
      * intros [<-|Hm]; [contradiction|contradiction].
      * destruct B3 as [<-|B3].
        -- rewrite Ha in B4. apply Ok_inj in B4. subst b. contradiction.
        -- eauto.
    + apply (IH matched t signers); auto.
      apply Forall_forall. intros b Hb. rewrite Forall_forall in HF.
      destruct (HF b Hb) as (B1 & B2 & sb & B3 & B4). split; [exact B1|]. split; [exact B2|].
      destruct B3 as [<-|B3]; [|eauto].
      rewrite Ha in B4. apply Ok_inj in B4. subst b.
      apply andb_false_iff in E as [E|E].
      * apply mem_bytes_not_In in E. contradiction.
      * apply negb_false_iff, mem_bytes_In in E. contradiction.
Qed.

(** ** Multisig verification *)
Lemma eth_hash_32 h : length h = 32%nat ->
  eth_hash h = keccak256_hash ([x19] ++ s "Ethereum Signed Message:" ++ [x0a] ++ s "32" ++ h).
Proof.
  intros L. unfold eth_hash, eth_prefix. rewrite L. reflexivity.
Qed.

Lemma module_digest origin tree root index id :
  eth_hash (ms_multisig_hash (ms_domain_hash origin tree) root index id)
  = checkpoint_digest origin tree root index id.
Proof.
  unfold checkpoint_digest, signed_preimage. rewrite eth_hash_32 by apply keccak256_length. reflexivity.
Qed.

Lemma digest_spec m md root_index :
  length (mid_index md) = 4%nat -> root_index = of_be (mid_index md) ->
  ms_digest m md = Ok (checkpoint_digest (m_origin m) (mid_tree md) (mid_root md) root_index
                         (keccak256_hash (msg_encode m))).
Proof.
  intros L ->. unfold ms_digest, mid_merkle_index. rewrite L. cbn [Nat.eqb bind].
  unfold checkpoint_digest, signed_preimage. rewrite eth_hash_32 by apply keccak256_length.
  reflexivity.
Qed.

Lemma metadata_decode metadata tree root index sigs :
  multisig_metadata metadata tree root index sigs ->
  mid_decode metadata = Ok (mkMidMeta tree root (be 4 index) sigs).
Proof.
  intros (tail & -> & H1 & H2 & H3 & H4 & H5).
  apply mid_decode_parts; auto.
Qed.

Lemma metadata_of_decode metadata md :
  mid_decode metadata = Ok md ->
  multisig_metadata metadata (mid_tree md) (mid_root md) (of_be (mid_index md)) (mid_signatures md) /\
  length (mid_index md) = 4%nat.
Proof.
  intros H. destruct (PeanoNat.Nat.le_gt_cases 68 (length metadata)) as [L|L].
  - destruct (mid_decode_total metadata L) as (v & tail & E & (W1 & W2 & W3 & W4) & Ht & Hm).
    rewrite E in H. apply Ok_inj in H. subst v. split; [|exact W3].
    exists tail. rewrite be_of_be_len by exact W3. split; [exact Hm|].
    split; [exact W1|]. split; [exact W2|]. split; [|split; [exact W4|exact Ht]].
    pose proof (of_be_lt_len (mid_index md) 4 W3) as B. now rewrite pow256_4 in B.
  - rewrite mid_decode_short in H by exact L. discriminate.
Qed.

Lemma enrolled_of x d : d < u32_max ->
  reported_enrolled (SMultisig x) d =
  match om_get d (ms_validators x), om_get d (ms_threshold x) with
  | Some vs, Some t => Some (vs, t) | _, _ => None end.
Proof.
  intros Hd. unfold reported_enrolled, c_query. cbn [qmsg_ok].
  assert (E : u32_ok d = true) by (exact (proj2 (N.ltb_lt _ _) Hd)). rewrite E. cbn [ensure bind ms_query].
  destruct (om_get d (ms_validators x)), (om_get d (ms_threshold x)); reflexivity.
Qed.

Lemma multisig_sound A q metadata raw st :
  is_multisig st ->
  c_query A q (QVerify metadata raw) st = Ok (RVerified true) ->
  exists m tree root index sigs vs t signers,
    msg_decode raw = Ok m /\ multisig_metadata metadata tree root index sigs /\
    reported_enrolled st (m_origin m) = Some (vs, t) /\
    NoDup signers /\ N.of_nat (length signers) = t /\
    Forall (fun a => In a vs /\ exists sg, In sg sigs /\
      signed_by A (checkpoint_digest (m_origin m) tree root index (keccak256_hash raw)) sg a) signers.
Proof.
  intros Hk H. destruct st as [ | |x| | | | | | | | | | | | | | |]; try contradiction Hk.
  unfold c_query in H. apply bind_Ok_inv in H as (u & _ & H). cbn [ms_query] in H.
  apply bind_Ok_inv in H as (b & H & Hb). apply Ok_inj in Hb. injection Hb as ->.
  unfold ms_verify in H.
  apply bind_Ok_inv in H as (md & H1 & H). apply bind_Ok_inv in H as (m & H2 & H).
  apply bind_Ok_inv in H as (dg & H3 & H).
  apply bind_Ok_inv in H as (vs & H4 & H). apply ok_or_Ok_inv in H4.
  apply bind_Ok_inv in H as (t & H5 & H). apply ok_or_Ok_inv in H5.
  apply bind_Ok_inv in H as (l & H6 & H). apply Ok_inj, N.eqb_eq in H. subst l.
  destruct (metadata_of_decode _ _ H1) as [Hmd Hix].
  rewrite (digest_spec m md _ Hix eq_refl) in H3. apply Ok_inj in H3. subst dg.
  destruct (msg_decode_Ok_inv _ _ H2) as (_ & W & Hraw). rewrite Hraw in H6.
  apply ms_loop_sound in H6 as (signers & S1 & S2 & S3).
  exists m, (mid_tree md), (mid_root md), (of_be (mid_index md)), (mid_signatures md), vs, t, signers.
  split; [exact H2|]. split; [exact Hmd|].
  split; [rewrite enrolled_of by apply W; now rewrite H4, H5|].
  split; [exact S1|]. split; [exact S2|].
  eapply Forall_impl; [|exact S3]. intros a (A1 & _ & sg & A2 & A3). split; [exact A1|].
  exists sg. split; [exact A2|]. apply ms_signer_iff; [|exact A3].
  destruct Hmd as (tail & _ & _ & _ & _ & Hs & _). rewrite Forall_forall in Hs. now apply Hs.
Qed.

Lemma multisig_complete A q metadata raw st m tree root index pre suf vs t signers :
  is_multisig st ->
  msg_decode raw = Ok m -> multisig_metadata metadata tree root index (pre ++ suf) ->
  reported_enrolled st (m_origin m) = Some (vs, t) -> 0 < t ->
  let digest := checkpoint_digest (m_origin m) tree root index (keccak256_hash raw) in
  Forall (fun sg => exists a, signed_by A digest sg a) pre ->
  NoDup signers -> t <= N.of_nat (length signers) ->
  Forall (fun a => In a vs /\ exists sg, In sg pre /\ signed_by A digest sg a) signers ->
  c_query A q (QVerify metadata raw) st = Ok (RVerified true).
Proof.
  intros Hk H2 Hmd He Hpos digest Hp Hnd Hle HF.
  destruct st as [ | |x| | | | | | | | | | | | | | |]; try contradiction Hk.
  destruct (msg_decode_Ok_inv _ _ H2) as (_ & W & Hraw).
  rewrite enrolled_of in He by apply W.
  destruct (om_get (m_origin m) (ms_validators x)) as [vs'|] eqn:E1; [|discriminate].
  destruct (om_get (m_origin m) (ms_threshold x)) as [t'|] eqn:E2; [|discriminate].
  apply Some_inj, pair_equal_spec in He as [-> ->].
  unfold c_query. cbn [qmsg_ok ensure bind ms_query]. unfold ms_verify.
  rewrite (metadata_decode _ _ _ _ _ Hmd). cbn [bind]. rewrite H2. cbn [bind].
  pose proof Hmd as (tail & _ & _ & _ & Hix & Hs & _).
  rewrite (digest_spec m (mkMidMeta tree root (be 4 index) (pre ++ suf)) index).
  2: apply be4_length.
  2: { cbn [mid_index]. symmetry. apply of_be_be4. exact Hix. }
  cbn [bind mid_tree mid_root mid_signatures]. rewrite E1, E2. cbn [ok_or bind].
  rewrite Hraw. fold digest. rewrite Forall_forall in Hs.
  rewrite (ms_loop_complete A digest vs pre suf [] t signers); [reflexivity| |exact Hnd|exact Hle|exact Hpos|].
  - apply Forall_forall. intros sg Hsg. rewrite Forall_forall in Hp. destruct (Hp sg Hsg) as [a Ha].
    exists a. apply ms_signer_iff; [|exact Ha]. apply Hs. apply in_or_app. now left.
  - eapply Forall_impl; [|exact HF]. intros a (A1 & sg & A2 & A3).
    split; [exact A1|]. split; [intros []|]. exists sg. split; [exact A2|].
    apply ms_signer_iff; [|exact A3]. apply Hs. apply in_or_app. now left.
Qed.

(** ** The digest *)
Lemma digest_binds o1 t1 r1 i1 id1 o2 t2 r2 i2 id2 :
  o1 < 2 ^ 32 -> o2 < 2 ^ 32 -> i1 < 2 ^ 32 -> i2 < 2 ^ 32 ->
  length t1 = 32%nat -> length t2 = 32%nat -> length r1 = 32%nat -> length r2 = 32%nat ->
  length id1 = 32%nat -> length id2 = 32%nat ->
  checkpoint_digest o1 t1 r1 i1 id1 = checkpoint_digest o2 t2 r2 i2 id2 ->
  (o1 = o2 /\ t1 = t2 /\ r1 = r2 /\ i1 = i2 /\ id1 = id2) \/
  (signed_preimage o1 t1 r1 i1 id1 <> signed_preimage o2 t2 r2 i2 id2 /\
   keccak256_hash (signed_preimage o1 t1 r1 i1 id1) = keccak256_hash (signed_preimage o2 t2 r2 i2 id2)) \/
  (checkpoint_preimage o1 t1 r1 i1 id1 <> checkpoint_preimage o2 t2 r2 i2 id2 /\
   keccak256_hash (checkpoint_preimage o1 t1 r1 i1 id1) = keccak256_hash (checkpoint_preimage o2 t2 r2 i2 id2)) \/
  (domain_preimage o1 t1 <> domain_preimage o2 t2 /\
   keccak256_hash (domain_preimage o1 t1) = keccak256_hash (domain_preimage o2 t2)).
Proof.
  intros Ho1 Ho2 Hi1 Hi2 Lt1 Lt2 Lr1 Lr2 Ld1 Ld2 E. unfold checkpoint_digest in E.
  destruct (bytes_eq_dec (signed_preimage o1 t1 r1 i1 id1) (signed_preimage o2 t2 r2 i2 id2)) as [E1|E1];
    [|right; left; auto].
  unfold signed_preimage in E1. repeat apply app_inv_head in E1.
  destruct (bytes_eq_dec (checkpoint_preimage o1 t1 r1 i1 id1) (checkpoint_preimage o2 t2 r2 i2 id2)) as [E2|E2];
    [|right; right; left; auto].
  unfold checkpoint_preimage in E2.
  apply app_inj_len in E2 as [E3 E2]; [|unfold keccak256_hash; now rewrite !keccak256_length].
  apply app_inj_len in E2 as [E4 E2]; [|congruence].
  apply app_inj_len in E2 as [E5 E2]; [|now rewrite !be_length].
  destruct (bytes_eq_dec (domain_preimage o1 t1) (domain_preimage o2 t2)) as [E6|E6];
    [|right; right; right; auto].
  unfold domain_preimage in E6.
  apply app_inj_len in E6 as [E7 E6]; [|now rewrite !be_length].
  apply app_inj_len in E6 as [E8 _]; [|congruence].
  left. split; [apply be4_inj; assumption|]. split; [exact E8|]. split; [exact E4|].
  split; [apply be4_inj; assumption|exact E2].
Qed.

(** ** Replaying settings *)
Lemma replay_cons {X} (f : emsg -> X -> X) A st ev h x0 :
  replay f A st (ev :: h) x0
  = replay f A (c_step A st ev) h
      (if accepted A st ev
       then match ev_msg ev with Some m => f m x0 | None => x0 end else x0).
Proof.
  unfold replay. cbn [accepted_calls]. rewrite fold_left_app. now destruct (accepted A st ev).
Qed.

Lemma replay_run {X} (f : emsg -> X -> X) (report : cstate -> X) (P : cstate -> Prop) A st h :
  (forall st ev, P st -> P (c_step A st ev)) ->
  (forall st ev, P st -> accepted A st ev = true ->
     report (c_step A st ev) = match ev_msg ev with Some m => f m (report st) | None => report st end) ->
  P st -> report (c_run A st h) = replay f A st h (report st).
Proof.
  intros HP Hstep. revert st. induction h as [|ev h IH]; intros st Hst; [reflexivity|].
  rewrite c_run_cons, replay_cons, IH by auto. f_equal.
  destruct (accepted A st ev) eqn:E; [now apply Hstep|now rewrite c_step_rejected].
Qed.

Lemma ms_execute_cases A i m x x' r :
  ms_execute A i m x = Ok (x', r) ->
  (exists d t vs, m = MSetValidators d t vs /\ i_sender i = o_owner (ms_own x) /\
     Forall (fun v => length v = 20%nat) vs /\ 0 < t /\ t <= N.of_nat (length vs) /\
     x' = mkMs (ms_own x) (om_set d vs (ms_validators x)) (om_set d t (ms_threshold x)))
  \/ (exists d, m = MUnsetDomain d /\ i_sender i = o_owner (ms_own x) /\
     x' = mkMs (ms_own x) (om_del d (ms_validators x)) (om_del d (ms_threshold x)))
  \/ (exists om, m = MOwnable om /\ ms_validators x' = ms_validators x /\ ms_threshold x' = ms_threshold x).
Proof.
  intros H. destruct m; try discriminate H; cbn [ms_execute] in H.
  - right. right. inv_all. eexists. repeat split.
  - left. unfold ms_set_validators in H.
    apply bind_Ok_inv in H as (u1 & H1 & H). apply bind_Ok_inv in H as (u2 & H2 & H).
    apply bind_Ok_inv in H as (u3 & H3 & H). apply ensure_Ok_inv in H2, H3.
    apply Ok_inj, pair_equal_spec in H as [<- _].
    unfold only_owner in H1. apply ensure_Ok_inv, bytes_eqb_eq in H1.
    apply andb_true_iff in H3 as [H3 H4]. apply N.leb_le in H3. apply N.ltb_lt in H4.
    do 3 eexists. split; [reflexivity|]. split; [congruence|]. split; [|auto].
    apply Forall_forall. intros v Hv. rewrite forallb_forall in H2. now apply PeanoNat.Nat.eqb_eq, H2.
  - right. left. unfold ms_unset_domain in H. apply bind_Ok_inv in H as (u1 & H1 & H).
    apply Ok_inj, pair_equal_spec in H as [<- _].
    unfold only_owner in H1. apply ensure_Ok_inv, bytes_eqb_eq in H1.
    eexists. split; [reflexivity|]. split; [congruence|reflexivity].
Qed.

Lemma ms_apply_inv A ev x st' r :
  c_apply A ev (SMultisig x) = Ok (st', r) ->
  exists e i m Q x', ev = EvExec e i m Q /\ emsg_ok m = true /\ st' = SMultisig x' /\
    ms_execute A i m x = Ok (x', r).
Proof.
  intros H. destruct ev as [e i m Q|]; [|discriminate]. cbn [c_apply] in H.
  unfold c_execute, lift in H. apply bind_Ok_inv in H as (u & H1 & H). apply ensure_Ok_inv in H1.
  apply bind_Ok_inv in H as ([x' r'] & H2 & H). apply Ok_inj, pair_equal_spec in H as [<- <-].
  exists e, i, m, Q, x'. auto.
Qed.

Lemma is_multisig_step A st ev : is_multisig st -> is_multisig (c_step A st ev).
Proof.
  intros H. pose proof (step_kind A ev st) as K. destruct st; try contradiction H.
  destruct (c_step A _ ev); try discriminate K; exact I.
Qed.

Lemma enrolled_last_set A st h d :
  is_multisig st -> d < 2 ^ 32 ->
  reported_enrolled (c_run A st h) d = replay (enroll_update d) A st h (reported_enrolled st d).
Proof.
  intros Hm Hd.
  apply (replay_run (enroll_update d) (fun st => reported_enrolled st d) is_multisig);
    [apply is_multisig_step| |exact Hm].
  clear st h Hm. intros st ev Hm Ha. apply c_step_accepted in Ha as [r Ha].
  destruct st as [ | |x| | | | | | | | | | | | | | |]; try contradiction Hm.
  apply ms_apply_inv in Ha as (e & i & m & Q & x' & -> & Hok & Hst & H).
  rewrite Hst, !enrolled_of by exact Hd. cbn [ev_msg].
  apply ms_execute_cases in H as
    [(d' & t & vs & -> & _ & _ & _ & _ & ->)|[(d' & -> & _ & ->)|(om & -> & E1 & E2)]];
    cbn [ms_validators ms_threshold enroll_update].
  - rewrite !om_get_set. destruct (d' =? d) eqn:E.
    + apply N.eqb_eq in E. subst d'. now rewrite keqb_refl.
    + apply N.eqb_neq in E. assert (K : keqb d d' = false) by (apply keqb_neq; congruence).
      now rewrite K.
  - rewrite !om_get_del. destruct (d' =? d) eqn:E.
    + apply N.eqb_eq in E. subst d'. now rewrite keqb_refl.
    + apply N.eqb_neq in E. assert (K : keqb d d' = false) by (apply keqb_neq; congruence).
      now rewrite K.
  - now rewrite E1, E2.
Qed.

Definition enrolled_ok (p : option (list bytes * N)) : Prop :=
  match p with
  | Some (vs, t) => Forall (fun v => length v = 20%nat) vs /\ 0 < t /\ t <= N.of_nat (length vs)
  | None => True
  end.

Lemma validator_sets_ok A q e i owner st0 r h d vs t :
  c_instantiate A q e i (IMultisig owner) = Ok (st0, r) -> d < 2 ^ 32 ->
  reported_enrolled (c_run A st0 h) d = Some (vs, t) ->
  Forall (fun v => length v = 20%nat) vs /\ 0 < t /\ t <= N.of_nat (length vs).
Proof.
  intros H Hd He.
  assert (Hm : is_multisig st0 /\ reported_enrolled st0 d = None).
  { unfold c_instantiate, lift, ms_instantiate in H. inv_all. split; [exact I|].
    rewrite enrolled_of by exact Hd. reflexivity. }
  clear H. destruct Hm as [Hm H0].
  change (enrolled_ok (Some (vs, t))). rewrite <- He. clear He.
  assert (K : enrolled_ok (reported_enrolled st0 d)) by (rewrite H0; exact I). clear H0.
  revert st0 Hm K. induction h as [|ev h IH]; intros st Hm K; [exact K|].
  rewrite c_run_cons. apply IH; [now apply is_multisig_step|].
  destruct (accepted A st ev) eqn:Ha; [|now rewrite c_step_rejected].
  pose proof (enrolled_last_set A st [ev] d Hm Hd) as E. rewrite replay_cons, Ha in E.
  cbn [c_run fold_left] in E. unfold c_run in E. cbn [fold_left] in E. rewrite E.
  unfold replay. cbn [accepted_calls fold_left].
  apply c_step_accepted in Ha as [r' Ha].
  destruct st as [ | |x| | | | | | | | | | | | | | |]; try contradiction Hm.
  apply ms_apply_inv in Ha as (e' & i' & m & Q & x' & -> & Hok & Hst & H). cbn [ev_msg].
  apply ms_execute_cases in H as
    [(d' & t' & vs' & -> & _ & W1 & W2 & W3 & ->)|[(d' & -> & _ & ->)|(om & -> & E1 & E2)]];
    cbn [enroll_update].
  - destruct (d' =? d); [cbn [enrolled_ok]; auto|exact K].
  - destruct (d' =? d); [exact I|exact K].
  - exact K.
Qed.

Lemma enroll_owner_only A st ev d t vs :
  accepted A st ev = true ->
  ev_msg ev = Some (MSetValidators d t vs) \/ ev_msg ev = Some (MUnsetDomain d) ->
  ev_sender ev = reported_owner st.
Proof.
  intros Ha Hm. apply c_step_accepted in Ha as [r Ha].
  destruct ev as [e i m Q|]; [|destruct Hm; discriminate]. cbn [ev_msg ev_sender] in *.
  destruct st as [ | |x| | | | | | | | | | | | | | |].
  3: { apply ms_apply_inv in Ha as (e' & i' & m' & Q' & x' & E & _ & _ & H).
       injection E as <- <- <- <-. rewrite reported_owner_own. cbn [own_of option_map].
       apply ms_execute_cases in H as
         [(d' & t' & vs' & -> & W & _)|[(d' & -> & W & _)|(om & -> & _)]].
       - now rewrite W.
       - now rewrite W.
       - destruct Hm; discriminate. }
  all: exfalso; cbn [c_apply] in Ha; unfold c_execute, lift in Ha;
    apply bind_Ok_inv in Ha as (u & _ & Ha); apply bind_Ok_inv in Ha as (v & Ha & _);
    destruct Hm as [Hm|Hm]; apply Some_inj in Hm; subst m; discriminate Ha.
Qed.

Lemma too_few_distinct A q st d vs t metadata raw m :
  is_multisig st -> reported_enrolled st d = Some (vs, t) ->
  N.of_nat (length (nodup bytes_eq_dec vs)) < t ->
  msg_decode raw = Ok m -> m_origin m = d ->
  c_query A q (QVerify metadata raw) st <> Ok (RVerified true).
Proof.
  intros Hm He Hlt Hr Ho H. apply multisig_sound in H; [|exact Hm].
  destruct H as (m' & tree & root & index & sigs & vs' & t' & signers & H1 & _ & H2 & H3 & H4 & H5).
  rewrite Hr in H1. apply Ok_inj in H1. subst m'. rewrite Ho, He in H2.
  apply Some_inj, pair_equal_spec in H2 as [<- <-].
  assert (L : (length signers <= length (nodup bytes_eq_dec vs))%nat).
  { apply NoDup_incl_length; [exact H3|]. intros a Ha. apply nodup_In.
    rewrite Forall_forall in H5. now apply H5. }
  lia.
Qed.

(** ** Aggregate *)
Lemma agg_entry_iff v k md : agg_entry v k = Ok md <-> module_slice v k md.
Proof.
  unfold agg_entry, module_slice. split.
  - intros H. apply bind_Ok_inv in H as (a & H1 & H). apply bind_Ok_inv in H as (b & H2 & H).
    unfold slice in H1, H2.
    destruct (Nat.leb (k * 8) (k * 8 + 4) && Nat.leb (k * 8 + 4) (length v))%bool; [|discriminate].
    destruct (Nat.leb (k * 8 + 4) (k * 8 + 8) && Nat.leb (k * 8 + 8) (length v))%bool eqn:E; [|discriminate].
    apply andb_true_iff in E as [_ E]. apply PeanoNat.Nat.leb_le in E.
    apply Ok_inj in H1, H2. unfold sliceN in H.
    destruct ((of_be a <=? of_be b) && (of_be b <=? N.of_nat (length v)))%bool eqn:E2; [|discriminate].
    apply andb_true_iff in E2 as [E2 E3]. apply N.leb_le in E2, E3. apply Ok_inj in H.
    replace (k * 8 + 4 - k * 8)%nat with 4%nat in H1 by lia.
    replace (k * 8 + 8 - (k * 8 + 4))%nat with 4%nat in H2 by lia.
    replace (k * 8)%nat with (8 * k)%nat in * by lia.
    exists (of_be a), (of_be b). split; [lia|]. split; [now rewrite H1|]. split; [now rewrite H2|].
    split; [exact E2|]. split; [exact E3|]. congruence.
  - intros (lo & hi & L & E1 & E2 & H1 & H2 & ->).
    replace (8 * k)%nat with (k * 8)%nat in * by lia.
    rewrite (slice_ok (k * 8)) by lia. cbn [bind].
    rewrite (slice_ok (k * 8 + 4)) by lia. cbn [bind].
    replace (k * 8 + 4 - k * 8)%nat with 4%nat by lia.
    replace (k * 8 + 8 - (k * 8 + 4))%nat with 4%nat by lia.
    rewrite <- E1, <- E2. unfold sliceN. apply N.leb_le in H1, H2. now rewrite H1, H2.
Qed.

Lemma agg_entries_inv v i addrs l :
  agg_entries v i addrs = Ok l ->
  map fst l = addrs /\
  forall k a md, nth_error l k = Some (a, md) -> nth_error addrs k = Some a /\ agg_entry v (i + k) = Ok md.
Proof.
  revert i l. induction addrs as [|a addrs IH]; intros i l H; cbn [agg_entries] in H.
  - apply Ok_inj in H. subst l. split; [reflexivity|]. intros [|k]; discriminate.
  - apply bind_Ok_inv in H as (md & H1 & H). apply bind_Ok_inv in H as (l' & H2 & H).
    apply Ok_inj in H. subst l. apply IH in H2 as [H2 H3]. split; [cbn; now rewrite H2|].
    intros [|k] b m Hk; cbn [nth_error] in *.
    + apply Some_inj, pair_equal_spec in Hk as [<- <-]. rewrite PeanoNat.Nat.add_0_r. auto.
    + apply H3 in Hk as [K1 K2]. split; [exact K1|]. now replace (i + S k)%nat with (S i + k)%nat by lia.
Qed.

Lemma agg_entries_ok v i addrs :
  (forall k, (k < length addrs)%nat -> exists md, agg_entry v (i + k) = Ok md) ->
  exists l, agg_entries v i addrs = Ok l.
Proof.
  revert i. induction addrs as [|a addrs IH]; intros i H; cbn [agg_entries]; [eauto|].
  destruct (H 0%nat) as [md E]; [cbn; lia|]. rewrite PeanoNat.Nat.add_0_r in E. rewrite E. cbn [bind].
  destruct (IH (S i)) as [l El].
  { intros k Hk. destruct (H (S k)) as [m Em]; [cbn; lia|]. exists m.
    now replace (S i + k)%nat with (i + S k)%nat by lia. }
  rewrite El. cbn. eauto.
Qed.

Lemma om_of_list_In (l : list (str * bytes)) a md : In (a, md) (om_of_list l) -> In (a, md) l.
Proof.
  unfold om_of_list.
  assert (H : forall l (m : omap str bytes), In (a, md) (fold_left (fun m p => om_set (fst p) (snd p) m) l m) ->
    In (a, md) l \/ In (a, md) m).
  { clear l. induction l as [|[k v] l IH]; intros m H; [now right|]. cbn [fold_left fst snd] in H.
    apply IH in H as [H|H]; [left; now right|].
    assert (F : Forall (fun p => In p ((k, v) :: m)) (om_set k v m)).
    { apply om_set_Forall; [now left|]. apply Forall_forall. intros p Hp. now right. }
    rewrite Forall_forall in F. apply F in H as [H|H]; [left; now left|now right]. }
  intros Hin. apply H in Hin as [Hin|[]]. exact Hin.
Qed.

Lemma om_of_list_keys (l : list (str * bytes)) a md :
  In (a, md) l -> exists md', In (a, md') (om_of_list l).
Proof.
  intros Hin. unfold om_of_list.
  assert (H : forall l (m : omap str bytes), (In a (map fst l) \/ om_get a m <> None) ->
    om_get a (fold_left (fun m p => om_set (fst p) (snd p) m) l m) <> None).
  { clear. induction l as [|[k v] l IH]; intros m H; cbn [fold_left fst snd].
    - destruct H as [[]|H]; exact H.
    - apply IH. cbn [map fst] in H. destruct H as [[->|H]|H].
      + right. rewrite om_get_set, keqb_refl. discriminate.
      + now left.
      + right. rewrite om_get_set. destruct (keqb a k); [discriminate|exact H]. }
  specialize (H l []).
  match goal with |- exists _, In _ ?x => set (m := x) in * end.
  destruct (om_get a m) as [md'|] eqn:E.
  - exists md'. now apply om_get_In in E.
  - exfalso. apply H; [left; apply in_map_iff; exists (a, md); auto|reflexivity].
Qed.

Lemma ag_loop_sound q msg l t :
  NoDup (map fst l) -> 0 < t -> ag_loop q msg l t = Ok 0 ->
  exists ok, NoDup ok /\ N.of_nat (length ok) = t /\
    Forall (fun a => exists md, In (a, md) l /\ ism_verify q a md msg = Ok true) ok.
Proof.
  revert t. induction l as [|[a md] l IH]; intros t Hnd Hpos H; cbn [ag_loop] in H.
  - apply Ok_inj in H. lia.
  - cbn [map fst] in Hnd. inversion Hnd as [|? ? Hn Hnd']; subst.
    apply bind_Ok_inv in H as (v & Hv & H). apply bind_Ok_inv in H as (t' & Ht & H).
    assert (Hw : forall ok, Forall (fun a => exists md, In (a, md) l /\ ism_verify q a md msg = Ok true) ok ->
      Forall (fun a0 => exists md0, In (a0, md0) ((a, md) :: l) /\ ism_verify q a0 md0 msg = Ok true) ok).
    { intros ok Hok. eapply Forall_impl; [|exact Hok]. intros b (m & B1 & B2). exists m. split; [now right|exact B2]. }
    destruct v.
    + apply bind_Ok_inv in Ht as (u & _ & Ht). apply Ok_inj in Ht. subst t'.
      destruct (t - 1 =? 0) eqn:E.
      * apply N.eqb_eq in E. exists [a]. split; [constructor; [intros []|constructor]|].
        split; [cbn; lia|]. constructor; [|constructor]. exists md. split; [now left|exact Hv].
      * apply N.eqb_neq in E. apply IH in H as (ok & O1 & O2 & O3); [|exact Hnd'|lia].
        exists (a :: ok). split; [|split; [cbn [length]; lia|]].
        -- constructor; [|exact O1]. intros Hin. rewrite Forall_forall in O3.
           apply O3 in Hin as (m & Hin & _). apply Hn. apply in_map_iff. exists (a, m). auto.
        -- constructor; [exists md; split; [now left|exact Hv]|now apply Hw].
    + apply Ok_inj in Ht. subst t'. destruct (t =? 0) eqn:E; [apply N.eqb_eq in E; lia|].
      apply IH in H as (ok & O1 & O2 & O3); [|exact Hnd'|exact Hpos]. exists ok. auto.
Qed.

Lemma ag_loop_complete q msg l t ok :
  NoDup (map fst l) -> 0 < t -> NoDup ok -> t <= N.of_nat (length ok) ->
  (forall a md, In (a, md) l -> exists b, ism_verify q a md msg = Ok b) ->
  Forall (fun a => exists md, In (a, md) l /\ ism_verify q a md msg = Ok true) ok ->
  ag_loop q msg l t = Ok 0.
Proof.
  revert t ok. induction l as [|[a md] l IH]; intros t ok Hnd Hpos Hok Hle Hans HF; cbn [ag_loop].
  - destruct ok as [|b ok]; [cbn in Hle; lia|]. inversion HF as [|? ? (m & [] & _)].
  - cbn [map fst] in Hnd. inversion Hnd as [|? ? Hn Hnd']; subst.
    destruct (Hans a md) as [b Hb]; [now left|]. rewrite Hb. cbn [bind].
    assert (Hans' : forall a0 md0, In (a0, md0) l -> exists b0, ism_verify q a0 md0 msg = Ok b0)
      by (intros a0 md0 H0; apply Hans; now right).
    destruct b.
    + assert (E1 : (1 <=? t) = true) by (apply N.leb_le; lia). rewrite E1. cbn [need bind].
      destruct (t - 1 =? 0) eqn:E; [reflexivity|]. apply N.eqb_neq in E.
      destruct (NoDup_incl_remove ok a Hok) as (ok' & L1 & L2 & L3 & L4).
      apply (IH (t - 1) ok'); [exact Hnd'|lia|exact L1|unfold addr in *; lia|exact Hans'|].
      apply Forall_forall. intros c Hc. rewrite Forall_forall in HF.
      destruct (HF c (L2 c Hc)) as (m & [Hm|Hm] & Hv); [|eauto].
      apply pair_equal_spec in Hm as [-> _]. contradiction.
    + cbn [bind]. destruct (t =? 0) eqn:E; [reflexivity|].
      apply (IH t ok); auto. apply Forall_forall. intros c Hc. rewrite Forall_forall in HF.
      destruct (HF c Hc) as (m & [Hm|Hm] & Hv); [|eauto].
      apply pair_equal_spec in Hm as [-> ->]. congruence.
Qed.

Lemma aggregate_sound A q metadata message st isms t :
  reported_modules st = Some (isms, t) -> 0 < t ->
  c_query A q (QVerify metadata message) st = Ok (RVerified true) ->
  exists ok, NoDup ok /\ N.of_nat (length ok) = t /\
    Forall (fun a => module_answer q isms metadata message a true) ok.
Proof.
  intros Hm Hpos H. destruct st as [ | | |x| | | | | | | | | | | | | |]; try discriminate Hm.
  cbn in Hm. apply Some_inj, pair_equal_spec in Hm as [<- <-].
  unfold c_query in H. cbn [qmsg_ok ensure bind ag_query] in H.
  apply bind_Ok_inv in H as (b & H & Hb). apply Ok_inj in Hb. injection Hb as ->.
  unfold ag_verify, agg_from_hex in H. apply bind_Ok_inv in H as (m & H1 & H).
  apply bind_Ok_inv in H1 as (l & H1 & Hl). apply Ok_inj in Hl. subst m.
  apply bind_Ok_inv in H as (left & H2 & H). apply Ok_inj, N.eqb_eq in H. subst left.
  apply ag_loop_sound in H2 as (ok & O1 & O2 & O3); [| |exact Hpos].
  2: { apply (om_sorted_NoDup (om_of_list l)). apply om_of_list_sorted. }
  exists ok. split; [exact O1|]. split; [exact O2|].
  eapply Forall_impl; [|exact O3]. intros a (md & A1 & A2).
  apply om_of_list_In in A1. apply In_nth_error in A1 as [k Hk].
  apply agg_entries_inv in H1 as [_ H1]. apply H1 in Hk as [K1 K2].
  exists k, md. split; [exact K1|]. split; [now apply agg_entry_iff|]. now apply ism_verify_iff.
Qed.

Lemma aggregate_complete A q metadata message st isms t ok :
  reported_modules st = Some (isms, t) -> 0 < t -> NoDup isms ->
  (forall a, In a isms -> exists b, module_answer q isms metadata message a b) ->
  NoDup ok -> t <= N.of_nat (length ok) ->
  Forall (fun a => module_answer q isms metadata message a true) ok ->
  c_query A q (QVerify metadata message) st = Ok (RVerified true).
Proof.
  intros Hm Hpos Hnd Hans Hok Hle HF.
  destruct st as [ | | |x| | | | | | | | | | | | | |]; try discriminate Hm.
  cbn in Hm. apply Some_inj, pair_equal_spec in Hm as [E1 E2]. subst isms t.
  unfold c_query. cbn [qmsg_ok ensure bind ag_query]. unfold ag_verify, agg_from_hex.
  assert (Huniq : forall k1 k2 a, nth_error (ag_isms x) k1 = Some a -> nth_error (ag_isms x) k2 = Some a -> k1 = k2).
  { intros k1 k2 a K1 K2. rewrite NoDup_nth_error in Hnd. apply Hnd; [|congruence].
    apply nth_error_Some. congruence. }
  destruct (agg_entries_ok metadata 0 (ag_isms x)) as [l Hl].
  { intros k Hk. destruct (nth_error (ag_isms x) k) as [a|] eqn:Ek; [|apply nth_error_None in Ek; unfold addr in *; lia].
    destruct (Hans a) as (b & k' & md & K1 & K2 & _); [now apply nth_error_In in Ek|].
    rewrite (Huniq k k' a Ek K1). exists md. now apply agg_entry_iff. }
  rewrite Hl. cbn [bind]. pose proof (agg_entries_inv _ _ _ _ Hl) as [Hf Hi].
  assert (Hmap : forall a md b, In (a, md) (om_of_list l) -> module_answer q (ag_isms x) metadata message a b ->
    ism_verify q a md message = Ok b).
  { intros a md b Hin (k & md' & K1 & K2 & K3). apply om_of_list_In, In_nth_error in Hin as [k2 Hk2].
    apply Hi in Hk2 as [J1 J2]. rewrite (Huniq k2 k a J1 K1) in J2.
    apply agg_entry_iff in K2. cbn [Nat.add] in J2. rewrite K2 in J2. apply Ok_inj in J2. subst md'.
    now apply ism_verify_iff. }
  rewrite (ag_loop_complete q message (om_of_list l) (ag_threshold x) ok); auto.
  - apply (om_sorted_NoDup (om_of_list l)). apply om_of_list_sorted.
  - intros a md Hin. pose proof Hin as Hin'. apply om_of_list_In, In_nth_error in Hin' as [k Hk].
    apply Hi in Hk as [K1 _]. apply nth_error_In in K1. destruct (Hans a K1) as [b Hb]. eauto.
  - eapply Forall_impl; [|exact HF]. intros a Ha.
    pose proof Ha as (k & md & K1 & _). apply nth_error_In in K1.
    assert (Hin : exists md0, In (a, md0) l).
    { rewrite <- Hf in K1. apply in_map_iff in K1 as ([a' md0] & E & K1). cbn in E. subst a'. eauto. }
    destruct Hin as [md0 Hin]. apply om_of_list_keys in Hin as [md' Hin]. eauto.
Qed.

Lemma modules_last_set A st h :
  is_aggregate_ism st ->
  reported_modules (c_run A st h) = replay modules_update A st h (reported_modules st).
Proof.
  intros Hm. apply (replay_run modules_update reported_modules is_aggregate_ism); [| |exact Hm].
  - clear. intros st ev H. pose proof (step_kind A ev st) as K. destruct st; try contradiction H.
    destruct (c_step A _ ev); try discriminate K; exact I.
  - clear. intros st ev Hm Ha. apply c_step_accepted in Ha as [r Ha].
    destruct st as [ | | |x| | | | | | | | | | | | | |]; try contradiction Hm.
    destruct ev as [e i m Q|]; [|discriminate]. cbn [c_apply] in Ha.
    unfold c_execute, lift in Ha. apply bind_Ok_inv in Ha as (u & _ & H).
    apply bind_Ok_inv in H as ([x' r'] & H & E). apply Ok_inj, pair_equal_spec in E as [E _].
    rewrite <- E. cbn [ev_msg]. destruct m; try discriminate H; cbn [ag_execute] in H.
    + inv_all. reflexivity.
    + unfold ag_set_isms in H. inv_all. cbn [modules_update].
      assert (Hl : v2 = isms).
      { apply mapM_Ok_Forall2 in Hr2. clear -Hr2. induction Hr2 as [|a b l l' E _ IH]; [reflexivity|].
        apply addr_validate_iff in E as [_ ->]. now rewrite IH. }
      subst v2. reflexivity.
Qed.

Lemma set_isms_guarded A st ev l t :
  accepted A st ev = true -> ev_msg ev = Some (MSetIsms l t) ->
  ev_sender ev = reported_owner st /\ 0 < t /\ t <= N.of_nat (length l).
Proof.
  intros Ha Hm. apply c_step_accepted in Ha as [r Ha].
  destruct ev as [e i m Q|]; [|discriminate]. cbn [ev_msg ev_sender] in *. apply Some_inj in Hm. subst m.
  cbn [c_apply] in Ha. unfold c_execute, lift in Ha. apply bind_Ok_inv in Ha as (u & _ & Ha).
  destruct st as [ | | |x| | | | | | | | | | | | | |];
    apply bind_Ok_inv in Ha as ([x' r'] & H & _); try discriminate H.
  cbn [ag_execute] in H. unfold ag_set_isms in H.
  apply bind_Ok_inv in H as (u1 & H1 & H). apply bind_Ok_inv in H as (u2 & H2 & H).
  apply bind_Ok_inv in H as (u3 & H3 & H). apply ensure_Ok_inv in H2, H3.
  unfold only_owner in H1. apply ensure_Ok_inv, bytes_eqb_eq in H1.
  apply N.ltb_lt in H2. apply N.leb_le in H3. rewrite reported_owner_own. cbn [own_of option_map].
  split; [congruence|auto].
Qed.

(** ** Routing *)
Lemma module_for_of x raw :
  reported_module_for (SRoutingIsm x) raw =
  match msg_decode raw with Ok m => om_get (m_origin m) (ri_modules x) | _ => None end.
Proof.
  unfold reported_module_for, c_query. cbn [qmsg_ok ensure bind ri_query]. unfold ri_module.
  destruct (msg_decode raw) as [m| |]; try reflexivity. cbn [bind].
  destruct (om_get (m_origin m) (ri_modules x)); reflexivity.
Qed.

Lemma routing_verdict A q metadata raw st b :
  is_routing_ism st ->
  (c_query A q (QVerify metadata raw) st = Ok (RVerified b) <->
   exists a, reported_module_for st raw = Some a /\ q_smart q a (QVerify metadata raw) = Ok (RVerified b)).
Proof.
  intros Hm. destruct st as [ | | | |x| | | | | | | | | | | | |]; try contradiction Hm.
  rewrite module_for_of. unfold c_query. cbn [qmsg_ok ensure bind ri_query]. unfold ri_module. split.
  - intros H. apply bind_Ok_inv in H as (a & Ha & H). apply bind_Ok_inv in Ha as (m & Hd & Ha).
    apply ok_or_Ok_inv in Ha. apply bind_Ok_inv in H as (b' & Hb & H). apply Ok_inj in H. injection H as ->.
    rewrite Hd. exists a. split; [exact Ha|]. now apply ism_verify_iff.
  - intros (a & Ha & Hb). destruct (msg_decode raw) as [m| |]; try discriminate.
    cbn [bind]. rewrite Ha. cbn [ok_or bind]. apply ism_verify_iff in Hb. rewrite Hb. reflexivity.
Qed.

Lemma routing_unrouted A q metadata raw st m :
  is_routing_ism st -> msg_decode raw = Ok m -> reported_module_for st raw = None ->
  c_query A q (QVerify metadata raw) st = Err ERouteNotFound.
Proof.
  intros Hm Hd. destruct st as [ | | | |x| | | | | | | | | | | | |]; try contradiction Hm.
  rewrite module_for_of, Hd. intros H. unfold c_query. cbn [qmsg_ok ensure bind ri_query].
  unfold ri_module. rewrite Hd. cbn [bind]. now rewrite H.
Qed.

Lemma fold_del_get ds d (m : omap N addr) :
  om_get d (fold_left (fun m d => om_del d m) ds m) = if existsb (N.eqb d) ds then None else om_get d m.
Proof.
  revert m. induction ds as [|k ds IH]; intros m; [reflexivity|]. cbn [fold_left existsb].
  rewrite IH, om_get_del. destruct (d =? k) eqn:E; cbn [orb].
  - apply N.eqb_eq in E. subst k. rewrite keqb_refl. now destruct (existsb _ ds).
  - apply N.eqb_neq in E. assert (K : keqb d k = false) by (apply keqb_neq; congruence). now rewrite K.
Qed.

Lemma module_last_set A st h raw m :
  is_routing_ism st -> msg_decode raw = Ok m ->
  reported_module_for (c_run A st h) raw
  = replay (module_update (m_origin m)) A st h (reported_module_for st raw).
Proof.
  intros Hm Hd. apply (replay_run (module_update (m_origin m)) (fun st => reported_module_for st raw) is_routing_ism);
    [| |exact Hm].
  - clear. intros st ev H. pose proof (step_kind A ev st) as K. destruct st; try contradiction H.
    destruct (c_step A _ ev); try discriminate K; exact I.
  - clear Hm h st. intros st ev Hm Ha. apply c_step_accepted in Ha as [r Ha].
    destruct st as [ | | | |x| | | | | | | | | | | | |]; try contradiction Hm.
    destruct ev as [e i mm Q|]; [|discriminate]. cbn [c_apply] in Ha.
    unfold c_execute, lift in Ha. apply bind_Ok_inv in Ha as (u & _ & H).
    apply bind_Ok_inv in H as ([x' r'] & H & E). apply Ok_inj, pair_equal_spec in E as [E _].
    rewrite <- E, !module_for_of, Hd. cbn [ev_msg]. destruct mm; try discriminate H; cbn [ri_execute] in H.
    + inv_all. reflexivity.
    + inv_all. apply addr_validate_iff in Hr0 as [_ ->]. cbn [ri_modules module_update].
      rewrite om_get_set. destruct (domain =? m_origin m) eqn:Eq.
      * apply N.eqb_eq in Eq. subst domain. now rewrite keqb_refl.
      * apply N.eqb_neq in Eq. assert (K : keqb (m_origin m) domain = false) by (apply keqb_neq; congruence).
        now rewrite K.
    + inv_all. cbn [ri_modules module_update]. apply fold_del_get.
Qed.

Lemma module_initial A q e i owner isms st0 r raw m :
  c_instantiate A q e i (IRoutingIsm owner isms) = Ok (st0, r) -> msg_decode raw = Ok m ->
  is_routing_ism st0 /\ reported_module_for st0 raw = last_entry (m_origin m) isms.
Proof.
  intros H Hd. unfold c_instantiate, lift, ri_instantiate in H. inv_all. split; [exact I|].
  rewrite module_for_of, Hd. cbn [ri_modules]. unfold ri_save_all in *. unfold last_entry.
  match goal with H : foldM _ isms [] = Ok ?f |- _ => rename H into Hf; rename f into res0 end.
  assert (G : forall l (m0 m1 : omap N addr),
    foldM (fun m p => a <- addr_validate A (snd p) ;; Ok (om_set (fst p) a m)) l m0 = Ok m1 ->
    om_get (m_origin m) m1 =
    fold_left (fun acc p => if fst p =? m_origin m then Some (snd p) else acc) l (om_get (m_origin m) m0)).
  { induction l as [|p l IH]; intros m0 m1 Hl; cbn [foldM] in Hl.
    - apply Ok_inj in Hl. now subst.
    - apply bind_Ok_inv in Hl as (m2 & H2 & Hl). apply bind_Ok_inv in H2 as (a & Ha & H2).
      apply addr_validate_iff in Ha as [_ ->]. apply Ok_inj in H2. subst m2.
      rewrite (IH _ _ Hl). cbn [fold_left]. f_equal. rewrite om_get_set.
      destruct (fst p =? m_origin m) eqn:Eq.
      + apply N.eqb_eq in Eq. rewrite <- Eq. now rewrite keqb_refl.
      + apply N.eqb_neq in Eq. assert (K : keqb (m_origin m) (fst p) = false) by (apply keqb_neq; congruence).
        now rewrite K. }
  apply G in Hf. exact Hf.
Qed.

Lemma routing_no_info A q raw st t vs :
  is_routing_ism st -> c_query A q (QVerifyInfo raw) st <> Ok (RVerifyInfo t vs).
Proof.
  intros Hm H. destruct st as [ | | | |x| | | | | | | | | | | | |]; try contradiction Hm.
  unfold c_query in H. cbn [qmsg_ok ensure bind ri_query] in H.
  apply bind_Ok_inv in H as (a & _ & H). apply bind_Ok_inv in H as (r & _ & H). destruct r; discriminate.
Qed.

(** ** Pausable *)
Lemma pausable_ism A q metadata raw st b :
  is_pausable_ism st -> reported_paused st = Some b ->
  c_query A q (QVerify metadata raw) st = if b then Err EPaused else Ok (RVerified true).
Proof.
  intros Hm H. destruct st as [ | | | | |x| | | | | | | | | | | |]; try contradiction Hm.
  cbn in H. apply Some_inj in H. subst b. unfold c_query. cbn [qmsg_ok ensure bind pi_query].
  now destruct (pi_paused x).
Qed.

Lemma pausable_hook A Q e i metadata raw st b :
  is_pausable_hook st -> reported_paused st = Some b ->
  c_execute A Q e i (MPostDispatch metadata raw) st
  = if b then Err EPaused else Ok (st, mkResp [] None).
Proof.
  intros Hm H. destruct st as [ | | | | | | | |x| | | | | | | | |]; try contradiction Hm.
  cbn in H. apply Some_inj in H. subst b. unfold c_execute, lift. cbn [emsg_ok ensure bind ph_execute].
  destruct (ph_paused x); reflexivity.
Qed.
