(** * Validator announce. *)
From Coq Require Import List NArith Lia Bool FinFun.
From Verif Require Import Base BaseFacts OMap Hex HexFacts Keccak Coins Crypto Message Bech32 Chain Ownable Router
  Mailbox Va Isms Hooks Igp Warp Cw20 Contracts Spec SpecModules StepFacts AccessFacts MailboxFacts IsmFacts HookFacts.
Import ListNotations.

Lemma va_domain_of x : reported_va_domain (SVa x) = Some (va_domain x).
Proof. reflexivity. Qed.
Lemma va_mailbox_of x : reported_va_mailbox (SVa x) = Some (va_mailbox x).
Proof. unfold reported_va_mailbox, c_query. cbn [qmsg_ok ensure bind va_query]. now rewrite hex_decode_encode. Qed.
Lemma announced_of x v :
  announced (SVa x) v = Some (match om_get v (va_locations x) with Some l => l | None => [] end).
Proof. reflexivity. Qed.

Lemma va_recover_iff A hash sg pk :
  va_recover A hash sg = Ok pk <->
  exists v, nth_error (firstn 65 sg) 64 = Some v /\ length (firstn 65 sg) = 65%nat /\ 27 <= bN v /\
    api_recover A hash (firstn 64 (firstn 65 sg)) (bN v - 27) = Some pk.
Proof.
  assert (F : firstn 64 (firstn 65 sg) = firstn 64 sg) by (rewrite firstn_firstn; reflexivity).
  rewrite F. unfold va_recover.
  assert (S1 : forall v : byte, firstn 1 (skipn 64 sg) = [v] <->
            nth_error (firstn 65 sg) 64 = Some v /\ length (firstn 65 sg) = 65%nat).
  { intros v. split.
    - intros H. assert (L : (65 <= length sg)%nat).
      { destruct (Compare_dec.le_lt_dec 65 (length sg)); [assumption|].
        rewrite skipn_all2 in H by lia. discriminate. }
      split; [|rewrite firstn_length; lia].
      replace (firstn 65 sg) with (firstn 64 sg ++ firstn 1 (skipn 64 sg)).
      + rewrite nth_error_app2 by (rewrite firstn_length; lia). rewrite firstn_length, H.
        replace (64 - Nat.min 64 (length sg))%nat with 0%nat by lia. reflexivity.
      + rewrite <- (firstn_skipn 64 (firstn 65 sg)). rewrite F. f_equal. now rewrite skipn_firstn_comm.
    - intros [H L]. rewrite firstn_length in L.
      replace (firstn 65 sg) with (firstn 64 sg ++ firstn 1 (skipn 64 sg)) in H.
      + rewrite nth_error_app2 in H by (rewrite firstn_length; lia). rewrite firstn_length in H.
        replace (64 - Nat.min 64 (length sg))%nat with 0%nat in H by lia.
        assert (L1 : length (firstn 1 (skipn 64 sg)) = 1%nat) by (rewrite firstn_length, skipn_length; lia).
        destruct (firstn 1 (skipn 64 sg)) as [|b [|]]; try discriminate L1. cbn in H. congruence.
      + rewrite <- (firstn_skipn 64 (firstn 65 sg)). rewrite F. f_equal. now rewrite skipn_firstn_comm. }
  split.
  - intros H. apply bind_Ok_inv in H as (rs & H1 & H). apply bind_Ok_inv in H as (v & H2 & H).
    apply bind_Ok_inv in H as (u & H3 & H). apply need_Ok_inv, N.leb_le in H3. apply ok_or_Ok_inv in H.
    assert (L : (65 <= length sg)%nat).
    { destruct (Compare_dec.le_lt_dec 65 (length sg)); [assumption|]. rewrite slice_panic in H2 by assumption. discriminate. }
    rewrite slice_ok in H1 by lia. rewrite slice_ok in H2 by lia. apply Ok_inj in H1, H2.
    change (firstn (65 - 64) (skipn 64 sg)) with (firstn 1 (skipn 64 sg)) in H2.
    change (firstn (64 - 0) (skipn 0 sg)) with (firstn 64 sg) in H1. subst rs.
    assert (L1 : length v = 1%nat) by (rewrite <- H2, firstn_length, skipn_length; lia).
    destruct v as [|b [|]]; try discriminate L1. exists b. apply S1 in H2 as [H2 H2'].
    rewrite of_be_cons in H3, H. change (256 ^ N.of_nat (length (@nil byte))) with 1 in H3, H.
    change (of_be []) with 0 in H3, H. rewrite N.mul_1_r, N.add_0_r in H3, H. auto.
  - intros (v & H1 & H2 & H3 & H4). pose proof (proj2 (S1 v) (conj H1 H2)) as H5. rewrite firstn_length in H2.
    rewrite slice_ok by lia. cbn [bind]. rewrite slice_ok by lia. cbn [bind].
    change (firstn (65 - 64) (skipn 64 sg)) with (firstn 1 (skipn 64 sg)). rewrite H5.
    change (firstn (64 - 0) (skipn 0 sg)) with (firstn 64 sg).
    rewrite of_be_cons. change (256 ^ N.of_nat (length (@nil byte))) with 1.
    change (of_be []) with 0. rewrite N.mul_1_r, N.add_0_r.
    rewrite (proj2 (N.leb_le _ _) H3). cbn [need bind]. rewrite H4. reflexivity.
Qed.

Lemma signer_iff A hash sg v :
  (pk <- va_recover A hash sg ;; eth_addr pk) = Ok v <-> signed_by A hash (firstn 65 sg) v.
Proof.
  unfold signed_by, eth_addr. split.
  - intros H. apply bind_Ok_inv in H as (pk & H1 & H). apply va_recover_iff in H1 as (b & H1 & H2 & H3 & H4).
    apply bind_Ok_inv in H as (k & H5 & H). apply Ok_inj in H. split; [exact H2|].
    exists b, pk. split; [exact H1|]. split; [exact H3|]. split; [exact H4|].
    destruct pk as [|c pk]; [discriminate H5|]. split; [discriminate|].
    rewrite slice_from_ok in H5 by (cbn; lia). apply Ok_inj in H5. subst k. now subst v.
  - intros (H2 & b & pk & H1 & H3 & H4 & H5 & ->).
    rewrite (proj2 (va_recover_iff A hash sg pk)) by (exists b; auto). cbn [bind].
    destruct pk as [|c pk]; [contradiction|]. rewrite slice_from_ok by (cbn; lia). reflexivity.
Qed.

Lemma digest_eq d mb l :
  (length mb <= 32)%nat ->
  va_domain_hash d mb = Ok (keccak256_hash (announce_domain_preimage d (padded mb))) /\
  eth_hash (va_announcement_hash (keccak256_hash (announce_domain_preimage d (padded mb))) l)
  = announce_digest d (padded mb) l.
Proof.
  intros L. split.
  - unfold va_domain_hash. rewrite pad32_ok by exact L. reflexivity.
  - unfold announce_digest, announce_signed_preimage. rewrite eth_hash_32 by apply keccak256_length. reflexivity.
Qed.

Definition fresh (x : va) (v : bytes) (l : str) : Prop := om_get (va_replay_hash v l) (va_replay x) = None.

Lemma va_announce_iff A v sg l x x' r :
  va_announce A v sg l x = Ok (x', r) <->
  length v = 20%nat /\ fresh x v l /\ announcement_signed A (SVa x) v sg l /\ r = resp0 /\
  x' = mkVa (va_mailbox x) (va_domain x) (om_set v tt (va_validators x))
         (om_set v (match om_get v (va_locations x) with Some l => l | None => [] end ++ [l]) (va_locations x))
         (om_set (va_replay_hash v l) tt (va_replay x)).
Proof.
  unfold announcement_signed. rewrite va_domain_of, va_mailbox_of. unfold va_announce, fresh. split.
  - intros H. apply bind_Ok_inv in H as (u1 & H1 & H). apply ensure_Ok_inv, PeanoNat.Nat.eqb_eq in H1.
    apply bind_Ok_inv in H as (u2 & H2 & H). apply ensure_Ok_inv in H2.
    apply bind_Ok_inv in H as (dh & H3 & H).
    assert (L : (length (va_mailbox x) <= 32)%nat).
    { unfold va_domain_hash in H3. apply bind_Ok_inv in H3 as (a & H3 & _). unfold pad32 in H3.
      destruct (Nat.leb (length (va_mailbox x)) 32) eqn:E; [now apply PeanoNat.Nat.leb_le in E|discriminate]. }
    destruct (digest_eq (va_domain x) (va_mailbox x) l L) as [E1 E2]. rewrite E1 in H3. apply Ok_inj in H3. subst dh.
    rewrite E2 in H. apply bind_Ok_inv in H as (pk & H4 & H). apply bind_Ok_inv in H as (a & H5 & H).
    apply bind_Ok_inv in H as (u3 & H6 & H). apply ensure_Ok_inv, bytes_eqb_eq in H6. subst a.
    apply Ok_inj, pair_equal_spec in H as [<- <-]. split; [exact H1|].
    split; [|split; [|split; reflexivity]].
    { clear -H2. cbv zeta in H2. revert H2. generalize (om_get (va_replay_hash v l) (va_replay x)). intros [u|] H2; [discriminate H2|reflexivity]. }
    exists (va_domain x), (va_mailbox x). split; [reflexivity|]. split; [reflexivity|]. split; [exact L|].
    apply signer_iff. rewrite H4. cbn [bind]. exact H5.
  - intros (H1 & H2 & (d & mb & Hd & Hm & L & H3) & -> & ->). apply Some_inj in Hd, Hm. subst d mb.
    destruct (digest_eq (va_domain x) (va_mailbox x) l L) as [E1 E2].
    rewrite H1. cbn [Nat.eqb ensure bind]. rewrite H2. cbn [ensure bind]. rewrite E1. cbn [bind]. rewrite E2.
    apply signer_iff in H3. apply bind_Ok_inv in H3 as (pk & H4 & H5). rewrite H4. cbn [bind]. rewrite H5. cbn [bind].
    rewrite bytes_eqb_refl. reflexivity.
Qed.

(** what an accepted event does to the contract *)
Lemma va_step A x ev :
  accepted A (SVa x) ev = true ->
  exists e i v sg l Q x', ev = EvExec e i (MAnnounce v sg l) Q /\ c_step A (SVa x) ev = SVa x' /\
    va_announce A v sg l x = Ok (x', resp0).
Proof.
  intros Ha. apply c_step_accepted in Ha as [r0 Ha]. open_exec Ha x' r' H.
  destruct m; try discriminate H. cbn [va_execute] in H. pose proof H as H'. apply va_announce_iff in H' as (_ & _ & _ & -> & _).
  exists e, i, validator, signature, location, Q, x'. auto.
Qed.

Lemma va_rejected_or A st ev : is_va st -> is_va (c_step A st ev).
Proof. revert st ev. keep_kind. Qed.

Lemma va_frame A st h :
  is_va st -> reported_va_domain (c_run A st h) = reported_va_domain st /\
              reported_va_mailbox (c_run A st h) = reported_va_mailbox st.
Proof.
  revert st. induction h as [|ev h IH]; intros st Hk; [auto|]. rewrite c_run_cons.
  destruct (IH (c_step A st ev) (va_rejected_or A st ev Hk)) as [-> ->].
  destruct (accepted A st ev) eqn:Ea; [|now rewrite c_step_rejected].
  destruct st as [ |x| | | | | | | | | | | | | | | |]; try contradiction Hk.
  destruct (va_step A x ev Ea) as (e & i & v & sg & l & Q & x' & -> & -> & H).
  apply va_announce_iff in H as (_ & _ & _ & _ & ->). rewrite !va_mailbox_of. split; reflexivity.
Qed.

Lemma announcements_cons A st ev h :
  announcements A st (ev :: h) =
  (if accepted A st ev then match ev_msg ev with Some (MAnnounce v _ l) => [(v, l)] | _ => [] end else [])
  ++ announcements A (c_step A st ev) h.
Proof.
  unfold announcements. cbn [accepted_calls]. rewrite flat_map_app. f_equal.
  destruct (accepted A st ev); [|reflexivity]. cbn [flat_map snd]. apply app_nil_r.
Qed.

Lemma announced_history A st h v l0 :
  is_va st -> announced st v = Some l0 ->
  announced (c_run A st h) v = Some (l0 ++ locations_of v (announcements A st h)).
Proof.
  revert st l0. induction h as [|ev h IH]; intros st l0 Hk H0; [cbn; now rewrite app_nil_r|].
  rewrite c_run_cons, announcements_cons. destruct (accepted A st ev) eqn:Ea.
  - destruct st as [ |x| | | | | | | | | | | | | | | |]; try contradiction Hk.
    destruct (va_step A x ev Ea) as (e & i & v' & sg & l & Q & x' & -> & Es & H). rewrite Es.
    apply va_announce_iff in H as (_ & _ & _ & _ & ->). cbn [ev_msg app].
    rewrite announced_of in H0. apply Some_inj in H0.
    unfold locations_of. cbn [filter fst]. destruct (bytes_eqb v' v) eqn:E.
    + apply bytes_eqb_eq in E. subst v'. cbn [map snd].
      erewrite IH; [|exact I|].
      2:{ rewrite announced_of. cbn [va_locations]. rewrite om_get_set_eq. reflexivity. }
      rewrite H0, <- app_assoc. reflexivity.
    + apply bytes_eqb_neq in E. apply IH; [exact I|]. rewrite announced_of. cbn [va_locations].
      rewrite om_get_set_neq by congruence. now rewrite H0.
  - cbn [app]. rewrite c_step_rejected by exact Ea. now apply IH.
Qed.

Lemma announcements_signed A st h v l :
  is_va st -> In (v, l) (announcements A st h) ->
  length v = 20%nat /\ exists sg, announcement_signed A st v sg l.
Proof.
  intros Hk Hin. unfold announcements in Hin. apply in_flat_map in Hin as ([st1 ev] & Hin & He).
  apply accepted_calls_In in Hin as (h1 & h2 & -> & -> & Ha). cbn [snd] in He.
  assert (Hk1 : is_va (c_run A st h1)).
  { clear -Hk. revert st Hk. induction h1 as [|e h1 IH]; intros st Hk; [exact Hk|].
    rewrite c_run_cons. apply IH. now apply va_rejected_or. }
  destruct (va_frame A st h1 Hk) as [F1 F2].
  destruct (c_run A st h1) as [ |x| | | | | | | | | | | | | | | |] eqn:Er; try contradiction Hk1.
  destruct (va_step A x ev Ha) as (e & i & v' & sg & l' & Q & x' & -> & _ & H). cbn [ev_msg] in He.
  destruct He as [He|[]]. apply pair_equal_spec in He as [-> ->].
  apply va_announce_iff in H as (H1 & _ & (d & mb & Hd & Hm & Hr) & _). split; [exact H1|].
  exists sg, d, mb. rewrite <- F1, <- F2. auto.
Qed.

(** the replay set is that of the accepted announcements *)
Lemma replay_history A x h v l :
  match c_run A (SVa x) h with
  | SVa x' => fresh x' v l <->
      (fresh x v l /\ forall v' l', In (v', l') (announcements A (SVa x) h) ->
         va_replay_hash v' l' <> va_replay_hash v l)
  | _ => False
  end.
Proof.
  revert x. induction h as [|ev h IH]; intros x.
  - cbn. split; [intros H; split; [exact H|intros ? ? []]|now intros [H _]].
  - rewrite c_run_cons, announcements_cons. destruct (accepted A (SVa x) ev) eqn:Ea.
    + destruct (va_step A x ev Ea) as (e & i & v' & sg & l' & Q & x' & -> & Es & H). rewrite Es.
      specialize (IH x'). destruct (c_run A (SVa x') h); try exact IH. rewrite IH. clear IH.
      apply va_announce_iff in H as (_ & _ & _ & _ & ->). unfold fresh. cbn [va_replay ev_msg app].
      split.
      * intros [H1 H2]. destruct (bytes_eq_dec (va_replay_hash v l) (va_replay_hash v' l')) as [E|E].
        -- rewrite E, om_get_set_eq in H1. discriminate.
        -- rewrite om_get_set_neq in H1 by exact E. split; [exact H1|]. intros v2 l2 [Hin|Hin]; [|now apply H2].
           apply pair_equal_spec in Hin as [<- <-]. congruence.
      * intros [H1 H2]. split; [|intros; apply H2; now right].
        rewrite om_get_set_neq; [exact H1|]. intros E. apply (H2 v' l'); [now left|now symmetry].
    + cbn [app]. rewrite c_step_rejected by exact Ea. apply IH.
Qed.

Lemma announce_accepted A q e0 i0 mbx st0 r0 h e i v sg l Q :
  c_instantiate A q e0 i0 (IVa mbx) = Ok (st0, r0) ->
  (accepted A (c_run A st0 h) (EvExec e i (MAnnounce v sg l) Q) = true <->
   length v = 20%nat /\ announcement_signed A st0 v sg l /\
   forall v' l', In (v', l') (announcements A st0 h) ->
     keccak256_hash (v' ++ l') <> keccak256_hash (v ++ l)).
Proof.
  intros H0. unfold c_instantiate, lift, va_instantiate in H0. cbn [imsg_ok ensure bind] in H0.
  apply bind_Ok_inv in H0 as ([x0 r1] & H0 & E). apply Ok_inj, pair_equal_spec in E as [<- <-].
  assert (Hr : va_replay x0 = []).
  { apply bind_Ok_inv in H0 as (m & _ & H0). apply bind_Ok_inv in H0 as (a & _ & H0).
    apply bind_Ok_inv in H0 as (rr & _ & H0). destruct rr; try discriminate H0.
    apply Ok_inj, pair_equal_spec in H0 as [<- _]. reflexivity. }
  clear H0. pose proof (replay_history A x0 h v l) as HR. destruct (va_frame A (SVa x0) h I) as [F1 F2].
  destruct (c_run A (SVa x0) h) as [ |x| | | | | | | | | | | | | | | |]; try contradiction HR.
  assert (Hf : fresh x0 v l) by (unfold fresh; now rewrite Hr).
  assert (HS : announcement_signed A (SVa x) v sg l <-> announcement_signed A (SVa x0) v sg l).
  { unfold announcement_signed. rewrite F1, F2. tauto. }
  rewrite <- HS. unfold va_replay_hash in HR.
  assert (HA : accepted A (SVa x) (EvExec e i (MAnnounce v sg l) Q) = true <->
               exists x', va_announce A v sg l x = Ok (x', resp0)).
  { unfold accepted. cbn [c_apply]. unfold c_execute, lift. cbn [emsg_ok ensure bind va_execute]. split.
    - intros H. destruct (va_announce A v sg l x) as [[x' r]| |] eqn:E; try discriminate H.
      pose proof E as E'. apply va_announce_iff in E' as (_ & _ & _ & -> & _). eauto.
    - intros [x' ->]. reflexivity. }
  rewrite HA. split.
  - intros [x' H]. apply va_announce_iff in H as (H1 & H2 & H3 & _). split; [exact H1|]. split; [exact H3|].
    apply HR. exact H2.
  - intros (H1 & H2 & H3). eexists. apply va_announce_iff. split; [exact H1|]. split; [apply HR; auto|].
    split; [exact H2|]. split; reflexivity.
Qed.

Lemma announcements_NoDup A st h : is_va st -> NoDup (announcements A st h).
Proof.
  revert st. induction h as [|ev h IH]; intros st Hk; [constructor|].
  rewrite announcements_cons. destruct (accepted A st ev) eqn:Ea.
  - destruct st as [ |x| | | | | | | | | | | | | | | |]; try contradiction Hk.
    destruct (va_step A x ev Ea) as (e & i & v & sg & l & Q & x' & -> & Es & H). rewrite Es.
    cbn [ev_msg app]. constructor; [|now apply IH]. intros Hin.
    apply va_announce_iff in H as (_ & _ & _ & _ & E).
    (* once announced, no longer fresh *)
    assert (Nf : ~ fresh x' v l).
    { subst x'. unfold fresh. cbn [va_replay]. rewrite om_get_set_eq. discriminate. }
    unfold announcements in Hin. apply in_flat_map in Hin as ([st1 ev1] & Hin & He).
    apply accepted_calls_In in Hin as (h1 & h2 & -> & -> & Ha1). cbn [snd] in He.
    pose proof (replay_history A x' h1 v l) as HR.
    destruct (c_run A (SVa x') h1) as [ |x1| | | | | | | | | | | | | | | |]; try contradiction HR.
    destruct (va_step A x1 ev1 Ha1) as (e1 & i1 & v1 & sg1 & l1 & Q1 & x2 & -> & _ & H1). cbn [ev_msg] in He.
    destruct He as [He|[]]. apply pair_equal_spec in He as [-> ->].
    apply va_announce_iff in H1 as (_ & H1 & _). apply HR in H1. tauto.
  - cbn [app]. rewrite c_step_rejected by exact Ea. now apply IH.
Qed.

Lemma va_initial A q e i mbx st0 r0 v :
  c_instantiate A q e i (IVa mbx) = Ok (st0, r0) ->
  is_va st0 /\ announced st0 v = Some [] /\ reported_validators st0 = Some [] /\
  (exists mb d, bech32_decode mbx = Ok mb /\ q_smart q mbx QLocalDomain = Ok (RLocalDomain d) /\
     reported_va_mailbox st0 = Some mb /\ reported_va_domain st0 = Some d).
Proof.
  intros H0. unfold c_instantiate, lift, va_instantiate in H0. cbn [imsg_ok ensure bind] in H0.
  apply bind_Ok_inv in H0 as ([x0 r1] & H0 & E). apply Ok_inj, pair_equal_spec in E as [<- <-].
  apply bind_Ok_inv in H0 as (m & Hm & H0). apply addr_validate_iff in Hm as [_ ->].
  apply bind_Ok_inv in H0 as (a & Ha & H0).
  apply bind_Ok_inv in H0 as (rr & Hr & H0). apply smart_inv in Hr as [Hr _]. destruct rr; try discriminate H0.
  apply Ok_inj, pair_equal_spec in H0 as [<- _].
  split; [exact I|]. split; [reflexivity|]. split; [reflexivity|].
  exists a. eexists. split; [exact Ha|]. split; [exact Hr|]. split; [apply va_mailbox_of|reflexivity].
Qed.

(** the validators are those with an accepted announcement *)
Lemma validators_history A x h v :
  match c_run A (SVa x) h with
  | SVa x' => om_get v (va_validators x') <> None <->
      (om_get v (va_validators x) <> None \/ exists l, In (v, l) (announcements A (SVa x) h))
  | _ => False
  end.
Proof.
  revert x. induction h as [|ev h IH]; intros x.
  - cbn. split; [now left|intros [H|[l []]]; exact H].
  - rewrite c_run_cons, announcements_cons. destruct (accepted A (SVa x) ev) eqn:Ea.
    + destruct (va_step A x ev Ea) as (e & i & v' & sg & l' & Q & x' & -> & Es & H). rewrite Es.
      specialize (IH x'). destruct (c_run A (SVa x') h); try exact IH. rewrite IH. clear IH.
      apply va_announce_iff in H as (_ & _ & _ & _ & ->). cbn [va_validators ev_msg app].
      destruct (bytes_eq_dec v v') as [E|E].
      * subst v'. rewrite om_get_set_eq. split.
        -- intros _. right. exists l'. now left.
        -- intros _. left. discriminate.
      * rewrite om_get_set_neq by exact E. split; (intros [H1|[l H1]]; [now left|right]).
        -- exists l. now right.
        -- destruct H1 as [H1|H1]; [apply pair_equal_spec in H1 as [<- _]; congruence|]. now exists l.
    + cbn [app]. rewrite c_step_rejected by exact Ea. apply IH.
Qed.

Lemma va_sorted A x h :
  om_sorted (va_validators x) ->
  match c_run A (SVa x) h with SVa x' => om_sorted (va_validators x') | _ => False end.
Proof.
  revert x. induction h as [|ev h IH]; intros x Hs; [exact Hs|].
  rewrite c_run_cons. destruct (accepted A (SVa x) ev) eqn:Ea.
  - destruct (va_step A x ev Ea) as (e & i & v' & sg & l' & Q & x' & -> & Es & H). rewrite Es.
    apply va_announce_iff in H as (_ & _ & _ & _ & ->). apply IH. cbn [va_validators]. now apply om_sorted_set.
  - rewrite c_step_rejected by exact Ea. now apply IH.
Qed.

Lemma validators_listed A q e i mbx st0 r0 h l :
  c_instantiate A q e i (IVa mbx) = Ok (st0, r0) ->
  reported_validators (c_run A st0 h) = Some l ->
  NoDup l /\ forall v, In (hex_encode v) l <-> exists loc, In (v, loc) (announcements A st0 h).
Proof.
  intros H0 Hl. unfold c_instantiate, lift, va_instantiate in H0. cbn [imsg_ok ensure bind] in H0.
  apply bind_Ok_inv in H0 as ([x0 r1] & H0 & E). apply Ok_inj, pair_equal_spec in E as [<- <-].
  assert (Hr : va_validators x0 = []).
  { apply bind_Ok_inv in H0 as (m & _ & H0). apply bind_Ok_inv in H0 as (a & _ & H0).
    apply bind_Ok_inv in H0 as (rr & _ & H0). destruct rr; try discriminate H0.
    apply Ok_inj, pair_equal_spec in H0 as [<- _]. reflexivity. }
  clear H0. assert (S0 : om_sorted (va_validators x0)) by (rewrite Hr; constructor).
  pose proof (va_sorted A x0 h S0) as Hs. pose proof (validators_history A x0 h) as HV.
  destruct (c_run A (SVa x0) h) as [ |x| | | | | | | | | | | | | | | |]; try contradiction Hs.
  unfold reported_validators, c_query in Hl. cbn [qmsg_ok ensure bind va_query] in Hl. apply Some_inj in Hl. subst l.
  assert (HK : forall v, In v (om_keys (va_validators x)) <-> om_get v (va_validators x) <> None).
  { intros v. unfold om_keys. split.
    - intros H. apply in_map_iff in H as ([v' u] & E & H). cbn [fst] in E. subst v'. rewrite (om_sorted_In_get _ _ _ Hs H). discriminate.
    - intros H. destruct (om_get v (va_validators x)) as [u|] eqn:E; [|congruence].
      apply om_get_In in E. apply in_map_iff. exists (v, u). auto. }
  split.
  - apply FinFun.Injective_map_NoDup; [intros a b; apply hex_encode_inj|]. now apply om_sorted_NoDup.
  - intros v. rewrite in_map_iff. split.
    + intros (v' & E & H). apply hex_encode_inj in E. subst v'. apply HK, HV in H. rewrite Hr in H.
      destruct H as [H|H]; [contradiction H; reflexivity|exact H].
    + intros H. exists v. split; [reflexivity|]. apply HK, HV. now right.
Qed.

(** ** The digest *)
Lemma announce_digest_inj d1 m1 l1 d2 m2 l2 :
  length m1 = 32%nat -> length m2 = 32%nat -> d1 < 2 ^ 32 -> d2 < 2 ^ 32 ->
  announce_digest d1 m1 l1 = announce_digest d2 m2 l2 ->
  (d1 = d2 /\ m1 = m2 /\ l1 = l2) \/
  (exists x y, x <> y /\ keccak256_hash x = keccak256_hash y /\
    ((x, y) = (announce_signed_preimage d1 m1 l1, announce_signed_preimage d2 m2 l2) \/
     (x, y) = (announce_preimage d1 m1 l1, announce_preimage d2 m2 l2) \/
     (x, y) = (announce_domain_preimage d1 m1, announce_domain_preimage d2 m2))).
Proof.
  intros L1 L2 B1 B2 H. unfold announce_digest in H.
  destruct (bytes_eq_dec (announce_signed_preimage d1 m1 l1) (announce_signed_preimage d2 m2 l2)) as [E|E].
  2:{ right. exists (announce_signed_preimage d1 m1 l1), (announce_signed_preimage d2 m2 l2). auto. }
  unfold announce_signed_preimage in E. apply app_inv_head, app_inv_head, app_inv_head, app_inv_head in E.
  destruct (bytes_eq_dec (announce_preimage d1 m1 l1) (announce_preimage d2 m2 l2)) as [E2|E2].
  2:{ right. exists (announce_preimage d1 m1 l1), (announce_preimage d2 m2 l2). auto. }
  unfold announce_preimage in E2. apply app_inj_len in E2 as [E2 E3]; [|unfold keccak256_hash; now rewrite !keccak256_length].
  destruct (bytes_eq_dec (announce_domain_preimage d1 m1) (announce_domain_preimage d2 m2)) as [E4|E4].
  2:{ right. exists (announce_domain_preimage d1 m1), (announce_domain_preimage d2 m2). auto 6. }
  unfold announce_domain_preimage in E4. apply app_inj_len in E4 as [E4 E5]; [|now rewrite !be_length].
  apply app_inj_len in E5 as [E5 _]; [|congruence]. apply (be_inj 4) in E4; [|exact B1|exact B2]. left. auto.
Qed.

Lemma padded_inj a b : length a = length b -> padded a = padded b -> a = b.
Proof. unfold padded. intros L H. rewrite L in H. now apply app_inv_head in H. Qed.

Lemma replay_key_inj v1 l1 v2 l2 :
  length v1 = 20%nat -> length v2 = 20%nat ->
  keccak256_hash (v1 ++ l1) = keccak256_hash (v2 ++ l2) ->
  (v1 = v2 /\ l1 = l2) \/ (v1 ++ l1 <> v2 ++ l2).
Proof.
  intros L1 L2 _. destruct (bytes_eq_dec (v1 ++ l1) (v2 ++ l2)) as [E|E]; [left|now right].
  apply app_inj_len in E; [exact E|congruence].
Qed.
