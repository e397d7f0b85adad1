(** * Vouched-for transfers can be delivered and are paid out. *)
From Coq Require Import List Arith NArith Bool Lia Permutation Relation_Operators Operators_Properties.
From Verif Require Import Base BaseFacts OMap Crypto Bech32 Message CodecFacts Coins CoinsFacts Chain Ownable Router
  Mailbox Va Isms Hooks Igp Warp Cw20 Contracts Spec SpecModules StepFacts AccessFacts MailboxConfFacts MailboxFacts
  Metadata IsmFacts HookFacts WarpFacts World SpecWorld WorldFacts WorldMailbox WorldMerkle SpecBridge WorldWarp WorldToken
  SpecRoute WorldRoute SpecVerify WorldVerify SpecLive.
Import ListNotations.

(** ** Modules that answer *)
Lemma ms_loop_answers A h vs sigs matched t :
  Forall (fun sg => exists a, ms_signer A h sg = Ok a) sigs -> 0 < t ->
  exists n, ms_loop A h vs sigs matched t = Ok n.
Proof.
  revert matched t. induction sigs as [| sg sigs IH]; intros matched t Hp Hpos; cbn [ms_loop]; [eauto |].
  inversion Hp as [| ? ? [a Ha] Hp']; subst. rewrite Ha. cbn [bind].
  destruct (mem_bytes a vs && negb (mem_bytes a matched))%bool; [| now apply IH].
  assert (E1 : (1 <=? t) = true) by (apply N.leb_le; lia). rewrite E1. cbn [need bind].
  destruct (t - 1 =? 0) eqn:Et; [eauto |]. apply N.eqb_neq in Et. apply IH; [exact Hp' | lia].
Qed.

Lemma multisig_answers A q metadata raw st m tree root index sigs vs t :
  is_multisig st ->
  msg_decode raw = Ok m -> multisig_metadata metadata tree root index sigs ->
  reported_enrolled st (m_origin m) = Some (vs, t) -> 0 < t ->
  Forall (fun sg => exists a,
    signed_by A (checkpoint_digest (m_origin m) tree root index (keccak256_hash raw)) sg a) sigs ->
  exists b, c_query A q (QVerify metadata raw) st = Ok (RVerified b).
Proof.
  intros Hk H2 Hmd He Hpos Hp.
  destruct st as [ | |x| | | | | | | | | | | | | | |]; try contradiction Hk.
  destruct (msg_decode_Ok_inv _ _ H2) as (_ & W & Hraw).
  rewrite enrolled_of in He by apply W.
  destruct (om_get (m_origin m) (ms_validators x)) as [vs'|] eqn:E1; [|discriminate].
  destruct (om_get (m_origin m) (ms_threshold x)) as [t'|] eqn:E2; [|discriminate].
  apply Some_inj, pair_equal_spec in He as [-> ->].
  unfold c_query. cbn [qmsg_ok ensure bind ms_query]. unfold ms_verify.
  rewrite (metadata_decode _ _ _ _ _ Hmd). cbn [bind]. rewrite H2. cbn [bind].
  pose proof Hmd as (tail & _ & _ & _ & Hix & Hs & _).
  rewrite (digest_spec m (mkMidMeta tree root (be 4 index) sigs) index).
  2: apply be4_length.
  2: { cbn [mid_index]. symmetry. apply of_be_be4. exact Hix. }
  cbn [bind mid_tree mid_root mid_signatures]. rewrite E1, E2. cbn [ok_or bind].
  rewrite Hraw. rewrite Forall_forall in Hs.
  destruct (ms_loop_answers A (checkpoint_digest (m_origin m) tree root index (keccak256_hash raw)) vs sigs [] t) as [n Hn];
    [| exact Hpos |].
  - apply Forall_forall. intros sg Hsg. rewrite Forall_forall in Hp. destruct (Hp sg Hsg) as [a Ha].
    exists a. apply ms_signer_iff; [|exact Ha]. now apply Hs.
  - rewrite Hn. cbn [bind]. eauto.
Qed.

Lemma in_mem (y : addr) (l : list addr) : In y l -> existsb (bytes_eqb y) l = true.
Proof. intros H. apply existsb_exists. exists y. split; [exact H | apply bytes_eqb_refl]. Qed.

Lemma others_set w (a : addr) x (y : addr) st z : om_get a (w_inst w) = Some (IC z) -> kind z = 0 -> kind st <> 0 ->
  om_get y (w_inst w) = Some (IC st) -> om_get y (w_inst (set_inst a x w)) = Some (IC st).
Proof.
  intros Ha Hz Hk Hy. cbn [w_inst set_inst]. rewrite om_get_set. destruct (keqb y a) eqn:E; [| exact Hy].
  apply keqb_eq in E. subst y. rewrite Ha in Hy. injection Hy as ->. contradiction.
Qed.

Lemma answers_query C w mb mbst mbst' : contract_at w mb mbst -> is_mailbox mbst -> is_mailbox mbst' ->
  forall n k x md raw b, answers (ch_api C) (contract_at w) (others_answer C w mb) n x md raw b -> (n <= k)%nat ->
  exists b', q_smart (wq C k (set_inst mb (IC mbst') w)) x (QVerify md raw) = Ok (RVerified b') /\
    (b = true -> b' = true).
Proof.
  intros Hmb Hmk Hmk'.
  assert (Hdom : reported_domain mbst' <> None).
  { destruct mbst'; try discriminate Hmk'. discriminate. }
  induction n as [| n IH]; intros k x md raw b H Hk.
  { inversion H; subst. eauto. }
  destruct k as [| k]; [lia |].
  inversion H as [n' x' st md' raw' m tree root index pre suf vs t signers Hc Hi Hd Hm He Hp Hs Hn Hl HF
                 | n' x' st md' raw' m tree root index sigs vs t Hc Hi Hd Hm He Hp Hs
                 | n' x' st md' raw' isms t ok Hc Hi Hp Hn Hn' Hin Hl HF
                 | n' x' st md' raw' y b' Hc Hi Hr Ha
                 | n' x' st md' raw' Hc Hi Hp
                 | n' x' md' raw' b' HO]; subst; [.. | eauto].
  all: cbn [wq q_smart]; rewrite (others_set w mb _ x st mbst Hmb Hmk); [| | exact Hc];
       [| destruct st; try contradiction Hi; try discriminate Hi; discriminate].
  - exists true. split; [| auto]. eapply multisig_complete; eauto.
  - destruct (multisig_answers (ch_api C) (wq C k (set_inst mb (IC mbst') w)) md raw st m tree root index sigs vs t) as [b Hb]; eauto.
    exists b. split; [exact Hb | discriminate].
  - exists true. split; [| auto]. eapply (aggregate_complete _ _ _ _ _ _ _ ok); eauto.
    + intros a Ha. apply In_nth_error in Ha as [j Hj]. destruct (HF j a Hj) as (md' & S1 & S2).
      destruct (IH k a md' raw _ S2) as (b' & Hb & _); [lia |]. exists b', j, md'. auto.
    + apply Forall_forall. intros a Ha. pose proof (Hin a Ha) as Ha'. apply In_nth_error in Ha' as [j Hj].
      destruct (HF j a Hj) as (md' & S1 & S2). rewrite (in_mem a ok Ha) in S2.
      destruct (IH k a md' raw _ S2) as (b' & Hb & Hb'); [lia |]. rewrite (Hb' eq_refl) in Hb. exists j, md'. auto.
  - destruct (IH k y md raw b Ha) as (b' & Hb & Hb'); [lia |]. exists b'. split; [| exact Hb'].
    apply routing_verdict; [exact Hi |]. eauto.
  - exists true. split; [| auto]. rewrite (pausable_ism _ _ _ _ _ false Hi Hp). reflexivity.
Qed.

(** ** Carrying messages out *)
Lemma wq_same C k w w' : w_inst w = w_inst w' -> w_bank w = w_bank w' -> w_height w = w_height w' -> wq C k w = wq C k w'.
Proof.
  destruct w as [i b a h n l], w' as [i' b' a' h' n' l']. cbn [w_inst w_bank w_height]. intros <- <- <-.
  induction k as [| k IH]; cbn [wq]; [reflexivity |]. rewrite IH. reflexivity.
Qed.

Lemma exec_never C k c m w w1 rr l :
  perform C k (exec C k) c m w = Ok (w1, rr) -> exec C (S k) c (mkSub m RpNever :: l) w = exec C k c l w1.
Proof. intros H. cbn [exec]. unfold run_sub. cbn [sm_msg sm_reply]. rewrite H. reflexivity. Qed.

Lemma move_none c a w : move_coins c a [] w = Ok w.
Proof. destruct w. reflexivity. Qed.

Lemma invoke_ok C k rec caller a m f w st st' r w' :
  contract_at w a st ->
  c_execute (ch_api C) (fun s => wq C k (set_inst a (IC s) w)) (mkEnv a (w_height w)) (mkInfo caller f) m st = Ok (st', r) ->
  rec a (r_msgs r) (add_log (LCall a (EvExec (mkEnv a (w_height w)) (mkInfo caller f) m
    (fun s => wq C k (set_inst a (IC s) w))) r) (set_inst a (IC st') w)) = Ok w' ->
  invoke C k rec caller a m f w = Ok w'.
Proof. intros H H1 H2. unfold invoke. rewrite H, H1. exact H2. Qed.

Lemma norm_one d n : n <> 0 -> norm_coins [mkCoin d n] = [mkCoin d n].
Proof.
  intros H. unfold norm_coins. cbn [fold_left c_amount c_denom om_get]. apply N.eqb_neq in H. rewrite H. reflexivity.
Qed.

Lemma send_ok C k rec c to d n w :
  api_valid (ch_api C) to = true -> n <> 0 -> n < 2 ^ 128 -> n <= balance w c d ->
  exists b, perform C k rec c (CBankSend to [mkCoin d n]) w
    = Ok (set_bank b (add_log (LDo c (CBankSend to [mkCoin d n])) w), RrNone) /\
    (forall a d', bal b a d' + (if (bytes_eqb a c && bytes_eqb d' d)%bool then n else 0)
       = balance w a d' + (if (bytes_eqb a to && bytes_eqb d' d)%bool then n else 0)).
Proof.
  intros Hv H0 H1 H2. unfold perform. rewrite Hv. cbn [ensure bind]. rewrite norm_one by exact H0. cbn [negb ensure bind].
  unfold move_coins. rewrite norm_one by exact H0. cbn [coins_ok forallb c_amount]. unfold u128_ok.
  change (2 ^ 128) with u128_max in H1. rewrite (proj2 (N.ltb_lt _ _) H1). cbn [andb ensure bind foldM]. unfold move_coin. cbn [c_denom c_amount].
  unfold debit. cbn [w_bank add_log]. unfold balance in *. rewrite (proj2 (N.leb_le _ _) H2). cbn [bind].
  eexists. split; [reflexivity |]. intros a d'. unfold credit. rewrite !bal_set.
  destruct (bytes_eqb a to && bytes_eqb d' d)%bool eqn:E1, (bytes_eqb a c && bytes_eqb d' d)%bool eqn:E2;
    try apply andb_true_iff in E1 as [E1 E1']; try apply andb_true_iff in E2 as [E2 E2'];
    repeat match goal with H : bytes_eqb _ _ = true |- _ => apply bytes_eqb_eq in H; subst end;
    rewrite ?bytes_eqb_refl; cbn [andb]; try lia.
  rewrite andb_true_r. destruct (bytes_eqb to c) eqn:E; [| lia]. apply bytes_eqb_eq in E. subst.
  rewrite !bytes_eqb_refl in E2. discriminate E2.
Qed.

Lemma mint_ok C k rec c n d w :
  n <> 0 -> om_get d (w_admin w) = Some c ->
  exists b, perform C k rec c (CMint c n d) w = Ok (set_bank b (add_log (LDo c (CMint c n d)) w), RrNone) /\
    (forall a d', bal b a d' = balance w a d' + (if (bytes_eqb a c && bytes_eqb d' d)%bool then n else 0)).
Proof.
  intros H0 H1. unfold perform. rewrite bytes_eqb_refl. cbn [ensure bind]. rewrite (proj2 (N.eqb_neq _ _) H0).
  cbn [negb ensure bind w_admin add_log]. rewrite H1, bytes_eqb_refl. cbn [ensure bind].
  eexists. split; [reflexivity |]. intros a d'. unfold credit. rewrite bal_set. unfold balance. cbn [w_bank add_log].
  destruct (bytes_eqb a c && bytes_eqb d' d)%bool eqn:E; [| lia].
  apply andb_true_iff in E as [E E']. apply bytes_eqb_eq in E, E'. subst. reflexivity.
Qed.

(** ** The mailbox *)
Definition handle_of (route : addr) (m : message) : response :=
  mkResp [mkSub (CExec route (MHandle (m_origin m) (m_sender m) (m_body m)) []) RpNever] None.

Lemma mailbox_domain st : is_mailbox st -> exists d h, reported_domain st = Some d /\ reported_hrp st = Some h.
Proof. intros H. destruct st; try discriminate H. cbn. eauto. Qed.

Lemma process_runs C n k w w1 mb route mbst st md raw m e i :
  deliverable C n w mb route mbst st md raw m -> is_warp st ->
  w_inst w1 = w_inst w -> w_bank w1 = w_bank w -> w_height w1 = w_height w ->
  (n <= k)%nat -> (1 <= k)%nat ->
  exists mbst', c_execute (ch_api C) (fun s => wq C k (set_inst mb (IC s) w1)) e i (MProcess md raw) mbst
      = Ok (mbst', handle_of route m) /\
    is_mailbox mbst' /\ reported_delivered mbst' (keccak256_hash raw) = Some true /\
    (forall st0, contract_at w mb st0 ->
     forall A q qm, qm <> QDelivered (keccak256_hash raw) -> c_query A q qm mbst' = c_query A q qm st0).
Proof.
  intros (Hc & Hk & Hw & Hm & Hv & Hd & (hrp & Hh & He) & Hn & x & (o & d & Ho & Hdf & ->) & Ha) Hwk Ei Eb Eh Hle Hk1.
  set (Q := fun s => wq C k (set_inst mb (IC s) w1)).
  assert (EQ : forall s, Q s = wq C k (set_inst mb (IC s) w)).
  { intros s. apply wq_same; cbn [set_inst w_inst w_bank w_height]; congruence. }
  assert (Hi : q_smart (Q mbst) route QIsmSpecifier = Ok (RIsm o)).
  { rewrite EQ. destruct k as [| k']; [lia |]. cbn [wq q_smart].
    rewrite (others_set w mb _ route st mbst Hc Hk); [| destruct st; try contradiction Hwk; discriminate | exact Hw].
    destruct st; try contradiction Hwk; cbn in Ho; apply Some_inj in Ho; rewrite <- Ho; reflexivity. }
  destruct (process_accepts (ch_api C) Q e i md raw mbst hrp (m_dest m) m route o d Hh Hd Hm Hv eq_refl He Hi Hdf Hn)
    as (mbst' & r & H).
  { intros s Hs. rewrite EQ.
    assert (Hks : is_mailbox s) by (destruct s; try discriminate Hs; reflexivity).
    destruct (answers_query C w mb mbst s Hc Hk Hks _ k _ _ _ _ Ha Hle) as (b & Hb & Hb'). rewrite (Hb' eq_refl) in Hb. exact Hb. }
  exists mbst'.
  pose proof (process_effect _ _ _ _ _ _ _ _ _ _ _ Hh Hd H) as
    (m' & route' & o' & d' & E1 & _ & _ & E2 & _ & _ & _ & _ & E3 & E4 & E5).
  rewrite Hm in E1. apply Ok_inj in E1. subst m'. rewrite He in E2. apply Ok_inj in E2. subst route'.
  split; [rewrite H, E4; reflexivity |]. split; [| split; [exact E3 |]].
  - destruct mbst'; try discriminate E3. reflexivity.
  - intros st0 H0. unfold contract_at in Hc, H0. rewrite Hc in H0. injection H0 as <-. exact E5.
Qed.

(** ** Native routes *)
Lemma handle_ok_native C e i st m recipient amount tk (Q : cstate -> querier) :
  is_warp_native st -> warp_delivery st i (m_origin m) (m_sender m) (m_body m) recipient amount ->
  reported_token st = Some tk ->
  c_execute (ch_api C) Q e i (MHandle (m_origin m) (m_sender m) (m_body m)) st
  = Ok (st, plain ((if mode_eqb (reported_mode st) Bridged then [CMint (e_contract e) amount tk] else [])
                ++ [CBankSend recipient [mkCoin tk amount]])).
Proof. intros Hk Hd Ht. apply native_delivery; [exact Hk |]. exists recipient, amount, tk. auto. Qed.

Lemma same_at w a st : contract_at w a st -> forall (y : addr), om_get y (w_inst (set_inst a (IC st) w)) = om_get y (w_inst w).
Proof. intros H y. exact (set_inst_same w a (IC st) y H). Qed.

Lemma native_paid C n k w mb route mbst st md raw m recipient amount tk relayer :
  deliverable C n w mb route mbst st md raw m -> is_warp_native st ->
  warp_delivery st (mkInfo mb []) (m_origin m) (m_sender m) (m_body m) recipient amount ->
  reported_token st = Some tk -> amount <> 0 -> api_valid (ch_api C) recipient = true ->
  (if mode_eqb (reported_mode st) Bridged then om_get tk (w_admin w) = Some route
   else amount <= balance w route tk) ->
  ch_account C relayer = true -> (n <= k)%nat -> (4 <= k)%nat ->
  exists w', tx_run C k (TExec relayer mb (MProcess md raw) []) w = Ok w' /\
    only_delivered w w' mb raw /\
    (forall a : addr, a <> mb -> om_get a (w_inst w') = om_get a (w_inst w)) /\
    (forall a d, balance w' a d
         + (if (negb (mode_eqb (reported_mode st) Bridged) && bytes_eqb a route && bytes_eqb d tk)%bool then amount else 0)
       = balance w a d + (if (bytes_eqb a recipient && bytes_eqb d tk)%bool then amount else 0)).
Proof.
  intros Hdel Hwk Hwd Ht H0 Hv Hpay Hr Hn Hk. pose proof Hwd as (_ & _ & _ & H128 & _).
  assert (Hw : is_warp st) by (destruct st; try contradiction Hwk; exact I).
  do 4 (destruct k as [| k]; [lia |]). clear Hk.
  set (w1 := add_log (LDo relayer (CExec mb (MProcess md raw) [])) w).
  destruct (process_runs C n (S (S (S (S k)))) w w1 mb route mbst st md raw m
              (mkEnv mb (w_height w1)) (mkInfo relayer (norm_coins [])) Hdel Hw eq_refl eq_refl eq_refl Hn ltac:(lia))
    as (mbst' & Hp & Hmk' & Hdl & Hoth).
  pose proof Hdel as (Hc & Hmk & Hcr & _).
  unfold tx_run. rewrite Hr. cbn [ensure bind]. unfold perform at 1. rewrite move_none. cbn [bind].
  fold w1.
  set (w2 := add_log (LCall mb (EvExec (mkEnv mb (w_height w1)) (mkInfo relayer (norm_coins [])) (MProcess md raw)
     (fun s => wq C (S (S (S (S k)))) (set_inst mb (IC s) w1))) (handle_of route m)) (set_inst mb (IC mbst') w1)).
  assert (Hcr2 : contract_at w2 route st).
  { apply (others_set w mb (IC mbst') route st mbst Hc Hmk); [| exact Hcr]. destruct st; try contradiction Hwk; discriminate. }
  assert (Hin2 : forall y : addr, y <> mb -> om_get y (w_inst w2) = om_get y (w_inst w)).
  { intros y Hy. cbn [w2 w_inst set_inst add_log w1]. now apply om_get_set_neq. }
  assert (Hmb2 : contract_at w2 mb mbst') by apply om_get_set_eq.
  set (w3 := add_log (LDo mb (CExec route (MHandle (m_origin m) (m_sender m) (m_body m)) [])) w2).
  set (Q3 := fun s => wq C (S (S (S k))) (set_inst route (IC s) w3)).
  set (msgs := (if mode_eqb (reported_mode st) Bridged then [CMint route amount tk] else [])
                ++ [CBankSend recipient [mkCoin tk amount]]).
  set (w4 := add_log (LCall route (EvExec (mkEnv route (w_height w3)) (mkInfo mb (norm_coins []))
      (MHandle (m_origin m) (m_sender m) (m_body m)) Q3) (plain msgs)) (set_inst route (IC st) w3)).
  assert (Hin4 : forall y : addr, om_get y (w_inst w4) = om_get y (w_inst w2)) by exact (same_at w3 route st Hcr2).
  assert (Hsub : exists w5, exec C (S (S (S k))) route (map (fun m => mkSub m RpNever) msgs) w4 = Ok w5 /\
    w_inst w5 = w_inst w4 /\ w_admin w5 = w_admin w /\ w_height w5 = w_height w /\
    (forall a d, balance w5 a d
         + (if (negb (mode_eqb (reported_mode st) Bridged) && bytes_eqb a route && bytes_eqb d tk)%bool then amount else 0)
       = balance w a d + (if (bytes_eqb a recipient && bytes_eqb d tk)%bool then amount else 0))).
  { subst msgs. destruct (mode_eqb (reported_mode st) Bridged).
    - destruct (mint_ok C (S (S k)) (exec C (S (S k))) route amount tk w4 H0 Hpay) as (b1 & P1 & B1).
      cbn [app map]. erewrite exec_never by exact P1.
      set (w4' := set_bank b1 (add_log (LDo route (CMint route amount tk)) w4)).
      destruct (send_ok C (S k) (exec C (S k)) route recipient tk amount w4' Hv H0 H128) as (b2 & P2 & B2).
      { change (balance w4' route tk) with (bal b1 route tk). rewrite B1, !bytes_eqb_refl. cbn [andb]. lia. }
      erewrite exec_never by exact P2. cbn [exec]. eexists. split; [reflexivity |]. split; [reflexivity |].
      split; [reflexivity |]. split; [reflexivity |]. intros a d. cbn [negb andb].
      specialize (B1 a d). specialize (B2 a d). change (balance w4' a d) with (bal b1 a d) in B2.
      change (balance w4 a d) with (balance w a d) in B1.
      match goal with |- balance ?z a d + _ = _ => change (balance z a d) with (bal b2 a d) end.
      destruct (bytes_eqb a route && bytes_eqb d tk)%bool; lia.
    - destruct (send_ok C (S (S k)) (exec C (S (S k))) route recipient tk amount w4 Hv H0 H128 Hpay) as (b2 & P2 & B2).
      cbn [app map]. erewrite exec_never by exact P2. cbn [exec]. eexists. split; [reflexivity |]. split; [reflexivity |].
      split; [reflexivity |]. split; [reflexivity |]. intros a d. cbn [negb andb].
      specialize (B2 a d). change (balance w4 a d) with (balance w a d) in B2.
      match goal with |- balance ?z a d + _ = _ => change (balance z a d) with (bal b2 a d) end. exact B2. }
  destruct Hsub as (w5 & Hrun & Hin5 & Had & Hht & Hb).
  exists w5. split; [| split; [| split]].
  - erewrite invoke_ok; [reflexivity | exact Hc | exact Hp |].
    cbn [handle_of r_msgs]. fold w2.
    erewrite exec_never; [reflexivity |].
    unfold perform. rewrite move_none. fold w3. cbn [bind].
    erewrite invoke_ok; [reflexivity | exact Hcr2 | |].
    + exact (handle_ok_native C _ (mkInfo mb (norm_coins [])) st m recipient amount tk Q3 Hwk Hwd Ht).
    + exact Hrun.
  - split; [exact Had |]. split; [exact Hht |]. exists mbst'. unfold contract_at. rewrite Hin5, Hin4. auto.
  - intros a Ha. rewrite Hin5, Hin4. now apply Hin2.
  - exact Hb.
Qed.

(** ** The books of a token contract *)
Definition cw_sum (b : omap addr N) : N := total (fun p : addr * N => snd p) b.
Lemma cw_sum_cons (p : addr * N) (b : omap addr N) : cw_sum (p :: b) = snd p + cw_sum b.
Proof. reflexivity. Qed.

Lemma cw_sum_set (b : omap addr N) (a : addr) n : om_sorted b -> cw_sum (om_set a n b) + bal_in b a = cw_sum b + n.
Proof.
  induction b as [| [k v] b IH]; intros Hs.
  - cbn [om_set]. rewrite cw_sum_cons. cbn [snd]. unfold bal_in. cbn [om_get]. lia.
  - destruct Hs as [Hk Hs]. cbn [om_set].
    destruct (klt a k) eqn:E1; [| destruct (klt k a) eqn:E2].
    + rewrite !cw_sum_cons. cbn [snd].
      assert (Hb : bal_in ((k, v) :: b) a = 0).
      { unfold bal_in. replace (om_get a ((k, v) :: b)) with (@None N); [reflexivity |].
        symmetry. cbn [om_get]. destruct (keqb a k) eqn:E.
        - apply keqb_eq in E. subst k. rewrite klt_irrefl in E1. discriminate.
        - destruct (om_get a b) eqn:G; [| reflexivity].
          apply om_get_In in G. rewrite Forall_forall in Hk. apply Hk in G. cbn [fst] in G.
          pose proof (klt_trans _ _ _ E1 G) as T. rewrite klt_irrefl in T. discriminate. }
      rewrite Hb. lia.
    + rewrite !cw_sum_cons. cbn [snd].
      assert (Hb : bal_in ((k, v) :: b) a = bal_in b a).
      { unfold bal_in. cbn [om_get]. destruct (keqb a k) eqn:E; [| reflexivity].
        apply keqb_eq in E. subst k. rewrite klt_irrefl in E2. discriminate. }
      rewrite Hb. specialize (IH Hs). lia.
    + assert (k = a) as -> by (symmetry; apply klt_total; assumption).
      rewrite !cw_sum_cons. cbn [snd].
      assert (Hb : bal_in ((a, v) :: b) a = v) by (unfold bal_in; cbn [om_get]; now rewrite keqb_refl).
      rewrite Hb. lia.
Qed.
Lemma cw_sum_bound (b : omap addr N) a : bal_in b a <= cw_sum b.
Proof.
  unfold bal_in. induction b as [| [k v] b IH]; cbn [om_get]; [lia |]. rewrite cw_sum_cons. cbn [snd].
  destruct (keqb a k); [lia |]. lia.
Qed.

Definition cw_sane (x : cw) : Prop :=
  om_sorted (cw_balances x) /\ cw_sum (cw_balances x) = cw_supply x /\ cw_supply x < u128_max.

Lemma cw_credit_sum b a n b' : om_sorted b -> cw_credit b a n = Ok b' -> om_sorted b' /\ cw_sum b' = cw_sum b + n.
Proof.
  unfold cw_credit. intros Hs H. apply bind_Ok_inv in H as (u & _ & H). apply Ok_inj in H. subst b'.
  split; [now apply om_sorted_set |]. pose proof (cw_sum_set b a (bal_in b a + n) Hs) as E. unfold bal_in in *. lia.
Qed.
Lemma cw_debit_sum b a n b' : om_sorted b -> cw_debit b a n = Ok b' -> om_sorted b' /\ cw_sum b' + n = cw_sum b.
Proof.
  unfold cw_debit. intros Hs H. apply bind_Ok_inv in H as (u & H1 & H). apply ensure_Ok_inv, N.leb_le in H1.
  apply Ok_inj in H. subst b'. split; [now apply om_sorted_set |].
  pose proof (cw_sum_set b a (bal_in b a - n) Hs) as E. unfold bal_in in *. lia.
Qed.
Lemma cw_move_sum b f a n b' : om_sorted b -> cw_move b f a n = Ok b' -> om_sorted b' /\ cw_sum b' = cw_sum b.
Proof.
  unfold cw_move. intros Hs H. apply bind_Ok_inv in H as (b1 & H1 & H).
  destruct (cw_debit_sum _ _ _ _ Hs H1) as [S1 E1]. destruct (cw_credit_sum _ _ _ _ S1 H) as [S2 E2]. split; [exact S2 | lia].
Qed.

Lemma cw_sane_step A i m x x' r : cw_sane x -> cw_execute A i m x = Ok (x', r) -> cw_sane x'.
Proof.
  intros (Hs & He & Hb) H. destruct m; try discriminate H; cbn [cw_execute] in H.
  - apply bind_Ok_inv in H as (to' & _ & H). apply bind_Ok_inv in H as (b & H1 & H).
    apply Ok_inj, pair_equal_spec in H as [<- _]. destruct (cw_move_sum _ _ _ _ _ Hs H1) as [S1 E1].
    split; [exact S1 |]. cbn [cw_balances cw_supply]. split; [congruence | exact Hb].
  - apply bind_Ok_inv in H as (to' & _ & H). apply bind_Ok_inv in H as (ow & _ & H).
    apply bind_Ok_inv in H as (al & _ & H). apply bind_Ok_inv in H as (u & _ & H). apply bind_Ok_inv in H as (b & H1 & H).
    apply Ok_inj, pair_equal_spec in H as [<- _]. destruct (cw_move_sum _ _ _ _ _ Hs H1) as [S1 E1].
    split; [exact S1 |]. cbn [cw_balances cw_supply]. split; [congruence | exact Hb].
  - apply bind_Ok_inv in H as (b & H1 & H). apply bind_Ok_inv in H as (u & H2 & H). apply ensure_Ok_inv, N.leb_le in H2.
    apply Ok_inj, pair_equal_spec in H as [<- _]. destruct (cw_debit_sum _ _ _ _ Hs H1) as [S1 E1].
    split; [exact S1 |]. cbn [cw_balances cw_supply]. lia.
  - apply bind_Ok_inv in H as (mt & _ & H). apply bind_Ok_inv in H as (u & _ & H).
    apply bind_Ok_inv in H as (u' & H2 & H). apply need_Ok_inv, N.ltb_lt in H2. apply bind_Ok_inv in H as (to' & _ & H).
    apply bind_Ok_inv in H as (b & H1 & H).
    apply Ok_inj, pair_equal_spec in H as [<- _]. destruct (cw_credit_sum _ _ _ _ Hs H1) as [S1 E1].
    split; [exact S1 |]. cbn [cw_balances cw_supply]. split; [congruence | exact H2].
  - apply bind_Ok_inv in H as (sp & _ & H). apply bind_Ok_inv in H as (u & _ & H). apply bind_Ok_inv in H as (u' & _ & H).
    apply Ok_inj, pair_equal_spec in H as [<- _]. split; [exact Hs |]. auto.
  - apply bind_Ok_inv in H as (sp & _ & H). apply bind_Ok_inv in H as (u & _ & H). apply bind_Ok_inv in H as (al & _ & H).
    apply Ok_inj, pair_equal_spec in H as [<- _]. exact (conj Hs (conj He Hb)).
  - apply bind_Ok_inv in H as (ow & _ & H). apply bind_Ok_inv in H as (al & _ & H). apply bind_Ok_inv in H as (u & _ & H).
    apply bind_Ok_inv in H as (b & H1 & H). apply bind_Ok_inv in H as (u' & H2 & H). apply ensure_Ok_inv, N.leb_le in H2.
    apply Ok_inj, pair_equal_spec in H as [<- _]. destruct (cw_debit_sum _ _ _ _ Hs H1) as [S1 E1].
    split; [exact S1 |]. cbn [cw_balances cw_supply]. lia.
  - apply bind_Ok_inv in H as (mt & _ & H). apply bind_Ok_inv in H as (u & _ & H). apply bind_Ok_inv in H as (new' & _ & H).
    apply Ok_inj, pair_equal_spec in H as [<- _]. exact (conj Hs (conj He Hb)).
Qed.

Lemma cw_sane_born A mt init x : cw_instantiate A mt init = Ok x -> cw_sane x.
Proof.
  unfold cw_instantiate. intros H. apply bind_Ok_inv in H as (b & H1 & H). apply bind_Ok_inv in H as (u & H2 & H).
  apply need_Ok_inv, N.ltb_lt in H2. apply Ok_inj in H. subst x. unfold cw_sane. cbn [cw_balances cw_supply].
  enough (om_sorted b /\ cw_sum b = cw_sum [] + fold_right (fun (p : addr * N) acc => snd p + acc) 0 init) as [E1 E2].
  { split; [exact E1 |]. split; [exact E2 | exact H2]. }
  clear H2. assert (Hs : om_sorted ([] : omap addr N)) by exact I. revert H1 Hs.
  generalize ([] : omap addr N) as b0. induction init as [| [a1 n1] init IH]; intros b0 H1 Hs; cbn [foldM] in H1.
  - apply Ok_inj in H1. subst b. cbn [fold_right]. split; [exact Hs | lia].
  - apply bind_Ok_inv in H1 as (b1 & H2 & H1).
    apply bind_Ok_inv in H2 as (a' & V & H2). apply bind_Ok_inv in H2 as (u' & _ & H2).
    destruct (om_get a' b0) eqn:G; [discriminate H2 |]. apply Ok_inj in H2. subst b1. cbn [snd] in H1.
    destruct (IH _ H1 (om_sorted_set _ _ _ Hs)) as [S1 E1]. split; [exact S1 |]. cbn [fold_right snd].
    pose proof (cw_sum_set b0 a' n1 Hs) as E. unfold bal_in in E. rewrite G in E. lia.
Qed.

Lemma cw_books C w tk tst : reachable C w -> contract_at w tk tst -> is_cw20 tst ->
  exists x, tst = SCw20 x /\ cw_sane x.
Proof.
  intros Hr Hc Hk. destruct (cw_contract C w tk tst Hr Hc Hk) as (e & i & q & mt & ini & r & x0 & x & B & Hi & -> & L).
  exists x. split; [reflexivity |].
  apply cw_sane_born in Hi. clear B Hc Hk.
  remember (SCw20 x0) as s0 eqn:E0. remember (SCw20 x) as s1 eqn:E1. revert x E1.
  induction L as [| h st1 ev st2 r' L IH H]; intros x E1.
  - assert (x = x0) by congruence. subst x. auto.
  - pose proof (lives_kind _ _ _ _ L) as Kd. subst s0. destruct st1 as [ | | | | | | | | | | | | | | | | |y]; try discriminate Kd.
    apply cw_apply_inv in H as (e' & i' & m & Q & x' & -> & H & E2). assert (x' = x) by congruence. subst x'.
    exact (cw_sane_step _ _ _ _ _ _ (IH y eq_refl) H).
Qed.

(** ** Cw20 routes *)
Lemma cw_mint_ok A i x to n : cw_sane x -> cw_minter x = Some (i_sender i) -> api_valid A to = true ->
  cw_supply x + n < 2 ^ 128 ->
  exists x', cw_execute A i (MCw20Mint to n) x = Ok (x', resp0) /\
    cw_supply x' = cw_supply x + n /\
    (forall a, cw_balance x' a = cw_balance x a + (if bytes_eqb a to then n else 0)).
Proof.
  intros (Hs & He & Hb) Hm Hv Hn. cbn [cw_execute]. rewrite Hm. cbn [ok_or bind]. rewrite bytes_eqb_refl. cbn [ensure bind].
  change (2 ^ 128) with u128_max in Hn. rewrite (proj2 (N.ltb_lt _ _) Hn). cbn [need bind].
  rewrite (proj2 (addr_validate_iff A to to) (conj Hv eq_refl)). cbn [bind].
  pose proof (cw_sum_bound (cw_balances x) to) as Bd. unfold bal_in in Bd.
  destruct (cw_credit (cw_balances x) to n) as [b | |] eqn:Ec.
  2,3: exfalso; unfold cw_credit in Ec;
       rewrite (proj2 (N.ltb_lt _ _)) in Ec; [discriminate Ec | eapply N.le_lt_trans; [| exact Hn]; lia].
  cbn [bind]. eexists. split; [reflexivity |]. split; [reflexivity |]. intros a. exact (cw_credit_spec _ _ _ _ a Ec).
Qed.

Lemma cw_transfer_ok A i x to n : cw_sane x -> api_valid A to = true -> n <= cw_balance x (i_sender i) ->
  exists x', cw_execute A i (MCw20Transfer to n) x = Ok (x', resp0) /\ cw_supply x' = cw_supply x /\
    (forall a, cw_balance x' a + (if bytes_eqb a (i_sender i) then n else 0)
       = cw_balance x a + (if bytes_eqb a to then n else 0)).
Proof.
  intros (Hs & He & Hb) Hv Hn. cbn [cw_execute].
  rewrite (proj2 (addr_validate_iff A to to) (conj Hv eq_refl)). cbn [bind].
  destruct (cw_move (cw_balances x) (i_sender i) to n) as [b | |] eqn:Ec.
  { cbn [bind]. eexists. split; [reflexivity |]. split; [reflexivity |]. intros a. exact (cw_move_spec _ _ _ _ _ a Ec). }
  all: exfalso; unfold cw_move in Ec; destruct (cw_debit (cw_balances x) (i_sender i) n) as [b1 | |] eqn:Ed.
  all: try (unfold cw_debit in Ed; unfold cw_balance in Hn; rewrite (proj2 (N.leb_le _ _) Hn) in Ed; discriminate Ed).
  all: destruct (cw_debit_sum _ _ _ _ Hs Ed) as [S1 E1]; pose proof (cw_sum_bound b1 to) as Bd; unfold bal_in in Bd;
       cbn [bind] in Ec; unfold cw_credit in Ec; rewrite (proj2 (N.ltb_lt _ _)) in Ec; [discriminate Ec |];
       eapply N.le_lt_trans; [| exact Hb]; lia.
Qed.

Lemma handle_ok_cw20 C e i st m recipient amount tk (Q : cstate -> querier) :
  is_warp_cw20 st -> warp_delivery st i (m_origin m) (m_sender m) (m_body m) recipient amount ->
  reported_token st = Some tk ->
  c_execute (ch_api C) Q e i (MHandle (m_origin m) (m_sender m) (m_body m)) st
  = Ok (st, plain [CExec tk (if mode_eqb (reported_mode st) Bridged then MCw20Mint recipient amount
                             else MCw20Transfer recipient amount) []]).
Proof. intros Hk Hd Ht. apply cw20_delivery; [exact Hk |]. exists recipient, amount, tk. auto. Qed.

Lemma cw20_paid C n k w mb route mbst st md raw m recipient amount tk x relayer :
  deliverable C n w mb route mbst st md raw m -> is_warp_cw20 st ->
  warp_delivery st (mkInfo mb []) (m_origin m) (m_sender m) (m_body m) recipient amount ->
  reported_token st = Some tk -> api_valid (ch_api C) recipient = true ->
  contract_at w tk (SCw20 x) -> cw_sane x ->
  (if mode_eqb (reported_mode st) Bridged then cw_minter x = Some route /\ cw_supply x + amount < 2 ^ 128
   else amount <= cw_balance x route) ->
  ch_account C relayer = true -> (n <= k)%nat -> (4 <= k)%nat ->
  exists w' x', tx_run C k (TExec relayer mb (MProcess md raw) []) w = Ok w' /\
    only_delivered w w' mb raw /\ contract_at w' tk (SCw20 x') /\ w_bank w' = w_bank w /\
    cw_supply x' = cw_supply x + (if mode_eqb (reported_mode st) Bridged then amount else 0) /\
    (forall a : addr, a <> mb -> a <> tk -> om_get a (w_inst w') = om_get a (w_inst w)) /\
    (forall a, cw_balance x' a
         + (if (negb (mode_eqb (reported_mode st) Bridged) && bytes_eqb a route)%bool then amount else 0)
       = cw_balance x a + (if bytes_eqb a recipient then amount else 0)).
Proof.
  intros Hdel Hwk Hwd Ht Hv Htk Hsane Hpay Hr Hn Hk. pose proof Hwd as (_ & _ & _ & H128 & _).
  assert (Hw : is_warp st) by (destruct st; try contradiction Hwk; exact I).
  do 4 (destruct k as [| k]; [lia |]). clear Hk.
  set (w1 := add_log (LDo relayer (CExec mb (MProcess md raw) [])) w).
  destruct (process_runs C n (S (S (S (S k)))) w w1 mb route mbst st md raw m
              (mkEnv mb (w_height w1)) (mkInfo relayer (norm_coins [])) Hdel Hw eq_refl eq_refl eq_refl Hn ltac:(lia))
    as (mbst' & Hp & Hmk' & Hdl & Hoth).
  pose proof Hdel as (Hc & Hmk & Hcr & _).
  unfold tx_run. rewrite Hr. cbn [ensure bind]. unfold perform at 1. rewrite move_none. cbn [bind].
  fold w1.
  set (w2 := add_log (LCall mb (EvExec (mkEnv mb (w_height w1)) (mkInfo relayer (norm_coins [])) (MProcess md raw)
     (fun s => wq C (S (S (S (S k)))) (set_inst mb (IC s) w1))) (handle_of route m)) (set_inst mb (IC mbst') w1)).
  assert (Hcr2 : contract_at w2 route st).
  { apply (others_set w mb (IC mbst') route st mbst Hc Hmk); [| exact Hcr]. destruct st; try contradiction Hwk; discriminate. }
  assert (Htk2 : contract_at w2 tk (SCw20 x)).
  { apply (others_set w mb (IC mbst') tk (SCw20 x) mbst Hc Hmk); [| exact Htk]. discriminate. }
  assert (Hin2 : forall y : addr, y <> mb -> om_get y (w_inst w2) = om_get y (w_inst w)).
  { intros y Hy. cbn [w2 w_inst set_inst add_log w1]. now apply om_get_set_neq. }
  assert (Hmb2 : contract_at w2 mb mbst') by apply om_get_set_eq.
  assert (Hne : mb <> tk).
  { intros E. unfold contract_at in *. subst tk. rewrite Htk in Hc. injection Hc as <-. discriminate Hmk. }
  set (w3 := add_log (LDo mb (CExec route (MHandle (m_origin m) (m_sender m) (m_body m)) [])) w2).
  set (Q3 := fun s => wq C (S (S (S k))) (set_inst route (IC s) w3)).
  set (msg := if mode_eqb (reported_mode st) Bridged then MCw20Mint recipient amount else MCw20Transfer recipient amount).
  set (w4 := add_log (LCall route (EvExec (mkEnv route (w_height w3)) (mkInfo mb (norm_coins []))
      (MHandle (m_origin m) (m_sender m) (m_body m)) Q3) (plain [CExec tk msg []])) (set_inst route (IC st) w3)).
  assert (Hin4 : forall y : addr, om_get y (w_inst w4) = om_get y (w_inst w2)) by exact (same_at w3 route st Hcr2).
  assert (Hcall : exists x', c_execute (ch_api C)
        (fun s => wq C (S (S k)) (set_inst tk (IC s) (add_log (LDo route (CExec tk msg [])) w4)))
        (mkEnv tk (w_height w4)) (mkInfo route []) msg (SCw20 x) = Ok (SCw20 x', resp0) /\
      cw_supply x' = cw_supply x + (if mode_eqb (reported_mode st) Bridged then amount else 0) /\
      (forall a, cw_balance x' a
         + (if (negb (mode_eqb (reported_mode st) Bridged) && bytes_eqb a route)%bool then amount else 0)
       = cw_balance x a + (if bytes_eqb a recipient then amount else 0))).
  { subst msg. destruct (mode_eqb (reported_mode st) Bridged).
    - destruct Hpay as [Hm Hs]. destruct (cw_mint_ok (ch_api C) (mkInfo route []) x recipient amount Hsane Hm Hv Hs) as (x' & E & S' & B).
      exists x'. unfold c_execute, lift. cbn [emsg_ok]. unfold u128_ok. change (2 ^ 128) with u128_max in H128.
      rewrite (proj2 (N.ltb_lt _ _) H128). cbn [ensure bind]. rewrite E. split; [reflexivity |]. split; [exact S' |].
      intros a. cbn [negb andb]. rewrite B. lia.
    - destruct (cw_transfer_ok (ch_api C) (mkInfo route []) x recipient amount Hsane Hv Hpay) as (x' & E & S' & B).
      exists x'. unfold c_execute, lift. cbn [emsg_ok]. unfold u128_ok. change (2 ^ 128) with u128_max in H128.
      rewrite (proj2 (N.ltb_lt _ _) H128). cbn [ensure bind]. rewrite E. split; [reflexivity |]. split; [rewrite S'; lia |].
      intros a. cbn [negb andb]. apply B. }
  destruct Hcall as (x' & Hcall & Hsup & Hb).
  set (w4' := add_log (LDo route (CExec tk msg [])) w4) in *.
  set (w5 := add_log (LCall tk (EvExec (mkEnv tk (w_height w4')) (mkInfo route (norm_coins [])) msg
      (fun s => wq C (S (S k)) (set_inst tk (IC s) w4'))) resp0) (set_inst tk (IC (SCw20 x')) w4')).
  assert (Hin5 : forall y : addr, y <> tk -> om_get y (w_inst w5) = om_get y (w_inst w2)).
  { intros y Hy. rewrite <- Hin4. cbn [w5 w_inst set_inst add_log]. now apply om_get_set_neq. }
  assert (Htk4 : contract_at w4' tk (SCw20 x)) by (unfold contract_at; rewrite <- Htk2; apply Hin4).
  exists w5, x'. split; [| split; [| split; [| split; [| split; [| split]]]]].
  - erewrite invoke_ok; [reflexivity | exact Hc | exact Hp |].
    cbn [handle_of r_msgs]. fold w2.
    erewrite exec_never; [reflexivity |].
    unfold perform. rewrite move_none. fold w3. cbn [bind].
    erewrite invoke_ok; [reflexivity | exact Hcr2 | |].
    + exact (handle_ok_cw20 C _ (mkInfo mb (norm_coins [])) st m recipient amount tk Q3 Hwk Hwd Ht).
    + fold msg. fold Q3. fold w4. cbn [plain r_msgs map].
      erewrite exec_never; [reflexivity |].
      unfold perform. rewrite move_none. fold w4'. cbn [bind].
      erewrite invoke_ok; [reflexivity | exact Htk4 | exact Hcall | reflexivity].
  - split; [reflexivity |]. split; [reflexivity |]. exists mbst'. unfold contract_at. rewrite Hin5 by exact Hne. auto.
  - apply om_get_set_eq.
  - reflexivity.
  - exact Hsup.
  - intros a Ha Ha'. rewrite Hin5 by exact Ha'. now apply Hin2.
  - exact Hb.
Qed.

(** ** Both kinds *)
Lemma mode_cases st : is_warp st -> mode_eqb (reported_mode st) Collateral = negb (mode_eqb (reported_mode st) Bridged) /\
  (mode_eqb (reported_mode st) Bridged = true -> reported_mode st = Some Bridged) /\
  (mode_eqb (reported_mode st) Bridged = false -> reported_mode st = Some Collateral).
Proof.
  intros Hk. destruct st as [ | | | | | | | | | | | | | | |x|x|]; try contradiction Hk.
  - change (reported_mode (SWarpNative x)) with (Some (wp_mode x)). destruct (wp_mode x); repeat split; auto; discriminate.
  - change (reported_mode (SWarpCw20 x)) with (Some (wp_mode x)). destruct (wp_mode x); repeat split; auto; discriminate.
Qed.
Lemma warp_kinds st : is_warp st -> (is_warp_native st /\ ~ is_warp_cw20 st) \/ (is_warp_cw20 st /\ ~ is_warp_native st).
Proof. intros Hk. destruct st; try contradiction Hk; [left | right]; split; auto; exact I. Qed.

Lemma transfer_paid C n k w mb route mbst st md raw m recipient amount relayer held :
  chain_ok C -> reachable C w ->
  deliverable C n w mb route mbst st md raw m -> is_warp st ->
  warp_delivery st (mkInfo mb []) (m_origin m) (m_sender m) (m_body m) recipient amount ->
  amount <> 0 -> api_valid (ch_api C) recipient = true ->
  holds w st route held -> (reported_mode st = Some Collateral -> amount <= held) -> can_issue w st amount ->
  ch_account C relayer = true -> (n <= k)%nat -> (4 <= k)%nat ->
  exists w', tx_run C k (TExec relayer mb (MProcess md raw) []) w = Ok w' /\
    only_delivered w w' mb raw /\ paid_out w w' mb route st recipient amount.
Proof.
  intros HC Hr Hdel Hk Hwd H0 Hv (tk & Ht & Hh) Hcol Hiss Hrel Hn H4.
  pose proof Hdel as (_ & _ & Hcr & _).
  destruct (mode_cases st Hk) as (Em & Eb & Ec).
  destruct (warp_kinds st Hk) as [[Hk1 Hk2] | [Hk1 Hk2]].
  - destruct Hh as [[_ ->] | [X _]]; [| contradiction (Hk2 X)].
    destruct (native_route C w route st tk HC Hr Hcr Hk1 Ht) as [_ Hadm].
    destruct (native_paid C n k w mb route mbst st md raw m recipient amount tk relayer Hdel Hk1 Hwd Ht H0 Hv)
      as (w' & E1 & E2 & E3 & E4); auto.
    { destruct (mode_eqb (reported_mode st) Bridged); [| exact (Hcol (Ec eq_refl))].
      rewrite (Eb eq_refl) in Hadm. apply Hadm. }
    exists w'. split; [exact E1 |]. split; [exact E2 |]. split; [| split; [| split]].
    + intros a x (tk' & Ht' & Hx). rewrite Ht in Ht'. injection Ht' as <-.
      destruct Hx as [[_ ->] | [X _]]; [| contradiction (Hk2 X)].
      exists (balance w' a tk). split; [exists tk; auto |]. specialize (E4 a tk). rewrite bytes_eqb_refl, !andb_true_r in E4.
      rewrite Em. exact E4.
    + intros a d [X | X]; [contradiction (Hk2 X) |]. specialize (E4 a d).
      destruct (bytes_eqb d tk) eqn:E; [apply bytes_eqb_eq in E; subst d; contradiction |].
      rewrite !andb_false_r in E4. lia.
    + intros X. contradiction (Hk2 X).
    + intros a Ha _. exact (E3 a Ha).
  - destruct Hh as [[X _] | [_ (tst & Hct & Hkt & ->)]]; [contradiction (Hk2 X) |].
    destruct (cw_books C w tk tst Hr Hct Hkt) as (x & -> & Hs).
    destruct (cw20_paid C n k w mb route mbst st md raw m recipient amount tk x relayer Hdel Hk1 Hwd Ht Hv Hct Hs)
      as (w' & x' & E1 & E2 & E3 & E4 & E7 & E5 & E6); auto.
    { destruct (mode_eqb (reported_mode st) Bridged); [| exact (Hcol (Ec eq_refl))].
      specialize (Hiss Hk1 (Eb eq_refl) tk _ Ht Hct). split; [| exact Hiss].
      destruct (cw_bridged_books C w route st tk HC Hr Hcr Hk1 (Eb eq_refl) Ht) as (tst & Hct' & _ & (y & -> & Hy) & _).
      unfold contract_at in Hct, Hct'. rewrite Hct in Hct'. injection Hct' as <-. exact Hy. }
    exists w'. split; [exact E1 |]. split; [exact E2 |]. split; [| split; [| split]].
    + intros a z (tk' & Ht' & Hx). rewrite Ht in Ht'. injection Ht' as <-.
      destruct Hx as [[X _] | [_ (tst & Hct' & _ & ->)]]; [contradiction (Hk2 X) |].
      unfold contract_at in Hct, Hct'. rewrite Hct in Hct'. injection Hct' as <-.
      exists (cw_balance x' a). split.
      * exists tk. split; [exact Ht |]. right. split; [exact Hk1 |]. exists (SCw20 x'). split; [exact E3 |]. split; [exact I | reflexivity].
      * rewrite Em. exact (E6 a).
    + intros a d _. unfold balance. now rewrite E4.
    + intros _ tk' tst' Ht' Hct'. rewrite Ht in Ht'. injection Ht' as <-.
      unfold contract_at in Hct, Hct'. rewrite Hct in Hct'. injection Hct' as <-. exists (SCw20 x'). split; [exact E3 |].
      change (cw_supply x' = cw_supply x + (if mode_eqb (reported_mode st) Collateral then 0 else amount)). rewrite E7, Em.
      destruct (mode_eqb (reported_mode st) Bridged); reflexivity.
    + intros a Ha Ha'. apply E5; [exact Ha |]. intros ->. exact (Ha' Hk1 Ht).
Qed.

(** ** A locked token can always be paid back *)
Lemma total_in {X} (f : X -> N) x l : In x l -> f x <= total f l.
Proof.
  unfold total. induction l as [| y l IH]; intros H; [destruct H |]. cbn [fold_right]. destruct H as [-> | H]; [lia |].
  specialize (IH H). lia.
Qed.

Lemma held_paid S T held base raw m n k mbst st md recipient relayer :
  side_ok S -> side_ok T -> enrolled T S -> proper_recipients T -> custody S held base ->
  (In raw (travelling T S) -> message_amount raw <= held) ->
  In raw (dispatched_at (sd_mailbox T) (sd_log T)) -> sent_by (sd_name T) (sd_domain S) raw = true ->
  msg_decode raw = Ok m -> message_amount raw <> 0 ->
  contract_at (sd_world S) (sd_mailbox S) mbst -> reported_delivered mbst (keccak256_hash raw) = Some false ->
  contract_at (sd_world S) (sd_route S) st ->
  reported_route st (sd_domain T) = Some (Some (sd_name T)) ->
  bech32_encode (warp_hrp st) (firstn 32 (m_body m)) = Ok recipient ->
  api_valid (ch_api (sd_chain S)) recipient = true ->
  (exists x, consulted st mbst x /\
     answers (ch_api (sd_chain S)) (contract_at (sd_world S)) (others_answer (sd_chain S) (sd_world S) (sd_mailbox S))
       n x md raw true) ->
  ch_account (sd_chain S) relayer = true -> (n <= k)%nat -> (4 <= k)%nat ->
  exists w', tx_run (sd_chain S) k (TExec relayer (sd_mailbox S) (MProcess md raw) []) (sd_world S) = Ok w' /\
    only_delivered (sd_world S) w' (sd_mailbox S) raw /\
    paid_out (sd_world S) w' (sd_mailbox S) (sd_route S) st recipient (message_amount raw).
Proof.
  intros HS HT E2 P2 Hcus Hbound Hin Hsent Hdec H0 Hmc Hund Hwc Hrt Henc Hval Hmod Hacc Hnk H4.
  destruct HS as (HC & Hr & (mb & hrp & Hmc1 & Hmm & Hmd & Hmh & Hme) & (st1 & Hwc1 & Hwk & Hwm) & Hn & Ho).
  unfold contract_at in Hmc, Hmc1, Hwc, Hwc1. rewrite Hmc in Hmc1. injection Hmc1 as <-. rewrite Hwc in Hwc1. injection Hwc1 as <-.
  destruct HT as (HC' & Hr' & (mb' & hrp' & Hmc' & Hmm' & Hmd' & Hmh' & Henc') & (st' & Hwc' & Hwk' & Hwm') & Hn' & Ho').
  unfold sd_log in *.
  destruct (sending_names _ _ _ _ _ _ _ _ HC' Hr' Hmc' Hmm' Hmd' Hwc' Hwk' Hwm' Hn' Ho' raw _ Hin Hsent)
    as (m' & M1 & M2 & M3 & r & U1 & U2 & U3).
  rewrite Hdec in M1. apply Ok_inj in M1. subst m'.
  destruct (sending_payload _ _ _ _ _ _ _ _ HC' Hr' Hmc' Hmm' Hmd' Hwc' Hwk' Hwm' Hn' Ho' raw _ m Hin Hsent Hdec)
    as (V3 & Vs & rcp & am & Vt & Vb & V128).
  pose proof (E2 r _ U1 U2 U3) as Hrcp.
  pose proof (P2 _ _ _ Vt) as Lrcp.
  assert (Ham : message_amount raw = am).
  { unfold message_amount. rewrite Hdec, Vb. now apply named_amount_proper. }
  assert (Htr : In raw (travelling T S)).
  { unfold travelling. apply filter_In. split; [exact Hin |]. rewrite Hsent. cbn [andb]. apply negb_true_iff.
    destruct (existsb (bytes_eqb raw) (processed_at (sd_mailbox S) (sd_log S))) eqn:E; [| reflexivity].
    apply existsb_bytes in E. destruct (chain_deliveries _ _ _ _ HC Hr Hmc Hmm) as (_ & D & _).
    assert (X : reported_delivered mbst (keccak256_hash raw) = Some true) by (apply D; exists raw; auto). congruence. }
  assert (Hle : am <= held) by (rewrite <- Ham; exact (Hbound Htr)).
  assert (Hcol : reported_mode st = Some Collateral /\ holds (sd_world S) st (sd_route S) held).
  { destruct Hcus as [bank l st2 tk Q1 Q2 Q3 Q4 Q5 Q6 | st2 tk tst Q3 Q4 Q5 Q6 Q7 Q8];
      unfold contract_at in Q3; rewrite Hwc in Q3; injection Q3 as <-; (split; [assumption |]); exists tk.
    - auto.
    - split; [exact Q6 |]. right. eauto. }
  rewrite Ham in *.
  apply (transfer_paid (sd_chain S) n k (sd_world S) (sd_mailbox S) (sd_route S) mbst st md raw m recipient am relayer held); auto.
  - repeat (split; [assumption |]). split; [rewrite M3; exact Hmd |].
    split; [exists hrp; rewrite Hrcp; auto |]. split; [exact Hund | exact Hmod].
  - rewrite M2, Vs. destruct (msg_decode_Ok_inv _ _ Hdec) as (_ & (_ & _ & W & _) & _).
    rewrite M2 in W. split; [exact W |]. split; [exact Hwm |]. split; [exact Hrt |]. split; [exact V128 |].
    exists rcp, []. rewrite app_nil_r. split; [exact Vb |]. split; [exact Lrcp |].
    rewrite Vb in Henc. rewrite firstn_app, Lrcp, firstn_O, app_nil_r in Henc.
    rewrite firstn_all2 in Henc by lia. exact Henc.
  - apply Hcol.
  - intros _ X. destruct Hcol as [Y _]. rewrite X in Y. discriminate Y.
Qed.

Lemma backed_paid S T held base out raw m n k mbst st md recipient relayer :
  linked S T -> custody S held base -> issued T out 0 ->
  In raw (dispatched_at (sd_mailbox T) (sd_log T)) -> sent_by (sd_name T) (sd_domain S) raw = true ->
  msg_decode raw = Ok m -> message_amount raw <> 0 ->
  contract_at (sd_world S) (sd_mailbox S) mbst -> reported_delivered mbst (keccak256_hash raw) = Some false ->
  contract_at (sd_world S) (sd_route S) st ->
  reported_route st (sd_domain T) = Some (Some (sd_name T)) ->
  bech32_encode (warp_hrp st) (firstn 32 (m_body m)) = Ok recipient ->
  api_valid (ch_api (sd_chain S)) recipient = true ->
  (exists x, consulted st mbst x /\
     answers (ch_api (sd_chain S)) (contract_at (sd_world S)) (others_answer (sd_chain S) (sd_world S) (sd_mailbox S))
       n x md raw true) ->
  ch_account (sd_chain S) relayer = true -> (n <= k)%nat -> (4 <= k)%nat ->
  exists w', tx_run (sd_chain S) k (TExec relayer (sd_mailbox S) (MProcess md raw) []) (sd_world S) = Ok w' /\
    only_delivered (sd_world S) w' (sd_mailbox S) raw /\
    paid_out (sd_world S) w' (sd_mailbox S) (sd_route S) st recipient (message_amount raw).
Proof.
  intros HL Hcus Hiss Hin Hsent Hdec H0 Hmc Hund Hwc Hrt Henc Hval Hmod Hacc Hnk H4.
  pose proof (linked_locked_issued S T held base out 0 HL Hcus Hiss) as Hbal.
  destruct HL as (HS & HT & E1 & E2 & O1 & O2 & H1 & H2 & P1 & P2).
  apply (held_paid S T held base raw m n k mbst st md recipient relayer); auto.
  intros Htr. pose proof (total_in message_amount raw _ Htr) as X. fold (in_flight T S) in X. lia.
Qed.
