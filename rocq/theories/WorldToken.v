(** * The tokens of warp routes on a chain. *)
From Coq Require Import List NArith Bool Lia Permutation.
From Verif Require Import Base BaseFacts OMap Crypto Bech32 Message CodecFacts Coins CoinsFacts Chain Ownable Router
  Mailbox Va Isms Hooks Igp Warp Cw20 Contracts Spec SpecModules StepFacts AccessFacts MailboxConfFacts MailboxFacts
  IsmFacts HookFacts WarpFacts World SpecWorld WorldFacts WorldMailbox WorldMerkle SpecBridge WorldWarp.
Import ListNotations.

(** ** The log tells the truth about mints, burns and replies *)
Definition entry_true (w : world) (x : entry) : Prop :=
  match x with
  | LDo c (CMint y _ d) | LDo c (CBurn y _ d) => y = c /\ om_get d (w_admin w) = Some c
  | LCall a (EvReply _ rr) _ => done_reply w a rr
  | LCall a (EvExec e _ _ _) _ => e_contract e = a
  | _ => True
  end.
Definition grows (w w' : world) : Prop :=
  (exists new, w_log w' = w_log w ++ new) /\
  (forall d a, om_get d (w_admin w) = Some a -> om_get d (w_admin w') = Some a).

Lemma done_reply_grows w w' a rr : grows w w' -> done_reply w a rr -> done_reply w' a rr.
Proof.
  intros [(new & L) G]. unfold done_reply. destruct rr as [[] | |]; auto; rewrite L.
  - intros (sub & H1 & H2 & H3). exists sub. split; [apply in_or_app; now left |]. auto.
  - intros (mt & ini & e & q & r & H1 & H2). exists mt, ini, e, q, r. split; apply in_or_app; now left.
Qed.
Lemma entry_true_grows w w' x : grows w w' -> entry_true w x -> entry_true w' x.
Proof.
  intros G. destruct x as [c m | | | a ev r]; cbn [entry_true]; auto.
  - destruct m; auto; intros [-> H]; (split; [reflexivity | now apply G]).
  - destruct ev; auto. now apply done_reply_grows.
Qed.

Lemma astep_true C w w' : astep C w w' ->
  grows w w' /\ exists new, w_log w' = w_log w ++ new /\ Forall (entry_true w') new.
Proof.
  intros H. assert (G : grows w w').
  { split; [exact (asteps_extends C w w' (asteps_one C w w' H)) |]. intros d0 a0 Hd. destruct H; subst;
      repeat match goal with
      | M : move_coins _ _ _ _ = Ok _ |- _ =>
          apply move_coins_same in M as (_ & _ & M & _); cbn [w_admin add_log bump] in M
      end; cbn [w_admin add_log bump set_inst set_admin set_bank set_height];
      repeat match goal with M : w_admin ?x = _ |- context [w_admin ?x] => rewrite M end; try exact Hd.
    rewrite om_get_set. destruct (keqb d0 (factory_denom caller sub)) eqn:E; [| exact Hd].
    apply keqb_eq in E. subst d0. congruence. }
  split; [exact G |]. destruct H; subst;
    repeat match goal with
    | M : move_coins _ _ _ _ = Ok _ |- _ =>
        apply move_coins_same in M as (_ & ML & _); cbn [w_log add_log bump] in ML
    end; cbn [w_log add_log bump set_inst set_admin set_bank set_height] in *;
    try rewrite ML; rewrite <- ?app_assoc; cbn [app];
    try (eexists; split; [reflexivity |]; repeat constructor; fail).
  - eexists. split; [reflexivity |]. constructor; [| constructor].
    eapply entry_true_grows; [exact G |]. exact H0.
  - eexists. split; [reflexivity |]. constructor; [| constructor].
    eapply entry_true_grows; [exact G |]. exact H0.
  - eexists. split; [reflexivity |]. constructor; [| constructor]. split; [reflexivity | exact H0].
  - eexists. split; [reflexivity |]. constructor; [| constructor]. split; [reflexivity | exact H0].
  - exists []. split; [now rewrite app_nil_r | constructor].
Qed.

Lemma log_true C w x : reachable C w -> In x (w_log w) -> entry_true w x.
Proof.
  intros H. apply reachable_steps in H as (bank & _ & H).
  revert x. rewrite <- Forall_forall.
  refine (asteps_inv C (fun w => Forall (entry_true w) (w_log w)) _ (genesis bank) w H (Forall_nil _)).
  clear. intros w w' F Hs. destruct (astep_true C w w' Hs) as (G & new & L & F').
  rewrite L. apply Forall_app. split; [| exact F'].
  eapply Forall_impl; [| exact F]. intros x. now apply entry_true_grows.
Qed.

(** ** Token contracts deployed for a contract *)
Definition cw_births (a : addr) (l : list entry) : list (addr * (addr * list (addr * N))) :=
  flat_map (fun x => match x with
                     | LNew b _ i _ (ICw20 (Some mt) ini) _ => if bytes_eqb a (i_sender i) then [(b, (mt, ini))] else []
                     | _ => [] end) l.
Definition cw_request (m : cmsg) : list (addr * list (addr * N)) :=
  match m with CInstantiateCw20 mt ini => [(mt, ini)] | _ => [] end.

Lemma cw_births_step C w w' a : ch_account C a = false -> astep C w w' ->
  map snd (cw_births a (w_log w)) = flat_map cw_request (done_for a (w_log w)) ->
  map snd (cw_births a (w_log w')) = flat_map cw_request (done_for a (w_log w')).
Proof.
  intros Ha H E. unfold cw_births, done_for in *. destruct H; subst;
    repeat match goal with
    | M : move_coins _ _ _ _ = Ok _ |- _ =>
        apply move_coins_same in M as (_ & ML & _); cbn [w_log add_log bump] in ML
    end; cbn [w_log add_log bump set_inst set_admin set_bank set_height] in *;
    try rewrite ML; rewrite ?flat_map_app, ?map_app, ?flat_map_app, ?E; cbn [flat_map map app i_sender];
    rewrite ?app_nil_r; try reflexivity; try exact E.
  all: try (destruct (bytes_eqb a caller); cbn [flat_map cw_request app]; rewrite ?app_nil_r; reflexivity).
  - destruct m; cbn [map]; rewrite ?app_nil_r; try reflexivity. destruct minter as [mt |]; cbn [map]; rewrite ?app_nil_r; try reflexivity.
    destruct (bytes_eqb a caller) eqn:Ec; [| cbn [map]; now rewrite app_nil_r].
    apply bytes_eqb_eq in Ec. subst a. congruence.
Qed.

Lemma cw_births_done C w a : reachable C w -> ch_account C a = false ->
  map snd (cw_births a (w_log w)) = flat_map cw_request (done_for a (w_log w)).
Proof.
  intros H Ha. apply reachable_steps in H as (bank & _ & H).
  refine (asteps_inv C (fun w => map snd (cw_births a (w_log w)) = flat_map cw_request (done_for a (w_log w)))
    _ (genesis bank) w H eq_refl).
  intros u v E Hs. eapply cw_births_step; eauto.
Qed.

(** ** What one answer of a native route moves *)
Definition sent_n (p : event * response) : N := total (fun t : N * bytes * N => snd t) (transfer_of p).
Definition got_n (p : event * response) : N := total (fun t : N * bytes => named_amount (snd t)) (arrival_of p).
Definition paid_n (d : str) (p : event * response) : N :=
  match p with (EvExec _ i (MTransferRemote _ _ _ _ _) _, _) => amount_of d (i_funds i) | _ => 0 end.
Definition asks (p : event * response) : list cmsg := map sm_msg (r_msgs (snd p)).
Definition mints (d : str) (m : cmsg) : N := match m with CMint _ n d' => if bytes_eqb d d' then n else 0 | _ => 0 end.
Definition burns (d : str) (m : cmsg) : N := match m with CBurn _ n d' => if bytes_eqb d d' then n else 0 | _ => 0 end.
Definition creates (m : cmsg) : bool := match m with CCreateDenom _ _ | CInstantiateCw20 _ _ => true | _ => false end.

Definition native_moves (mode : option token_mode) (tk : str) (p : event * response) : Prop :=
  match mode with
  | Some Bridged => summ (mints tk) (asks p) = got_n p /\ summ (burns tk) (asks p) = sent_n p
  | _ => existsb minting (map (LDo []) (asks p)) = false /\
         summ (msg_out tk) (asks p) + sent_n p = paid_n tk p + got_n p
  end.

Lemma plain_asks ev l : asks (ev, plain l) = l.
Proof. unfold asks, plain. cbn [snd r_msgs]. rewrite map_map. cbn [sm_msg]. apply map_id. Qed.

Lemma silent_moves mode tk ev r : r_msgs r = [] -> transfer_of (ev, r) = [] -> arrival_of (ev, r) = [] ->
  paid_n tk (ev, r) = 0 -> native_moves mode tk (ev, r).
Proof.
  intros H T V P. unfold native_moves, sent_n, got_n. rewrite T, V, P. unfold asks. cbn [snd]. rewrite H.
  destruct mode as [[] |]; split; reflexivity.
Qed.

Lemma native_answer A st ev st' r tk :
  is_warp_native st -> c_apply A ev st = Ok (st', r) ->
  (reported_token st = None \/ reported_token st = Some tk) ->
  native_moves (reported_mode st) tk (ev, r).
Proof.
  intros Hn H Ht. assert (Hk : is_warp st) by (destruct st; try contradiction Hn; exact I).
  destruct ev as [e i m Q | id rr].
  2: { apply silent_moves; try reflexivity. exact (silent_warp _ _ _ _ _ Hk H eq_refl eq_refl). }
  destruct m; try (apply silent_moves; try reflexivity; exact (silent_warp _ _ _ _ _ Hk H eq_refl eq_refl)).
  - cbn [c_apply] in H. apply native_delivery in H; [| exact Hn].
    destruct H as (rc & am & tk' & (_ & _ & _ & B & rcp & tail & -> & L & _) & T & _ & ->).
    assert (tk' = tk) by (destruct Ht; congruence). subst tk'.
    unfold native_moves, sent_n, got_n. rewrite plain_asks. cbn [transfer_of arrival_of paid_n].
    rewrite total_one. cbn [snd]. rewrite named_amount_parts; [| exact L | eapply N.lt_trans; [exact B | reflexivity]].
    destruct (reported_mode st) as [[] |]; cbn [mode_eqb app existsb map minting];
      split; try reflexivity; unfold total; cbn [fold_right mints burns msg_out];
      rewrite ?amount_of_cons; cbn [c_denom c_amount]; change (amount_of tk []) with 0; rewrite ?bytes_eqb_refl; lia.
  - cbn [c_apply] in H. apply native_transfer in H; [| exact Hn].
    destruct H as (_ & _ & _ & _ & tk' & rt & mb & rest & T & _ & _ & K & ->).
    assert (tk' = tk) by (destruct Ht; congruence). subst tk'.
    pose proof (taken_amounts _ _ _ _ tk K) as E. rewrite bytes_eqb_refl in E.
    unfold native_moves, sent_n, got_n. rewrite plain_asks. cbn [transfer_of arrival_of paid_n].
    rewrite total_one. cbn [snd].
    destruct (reported_mode st) as [[] |]; cbn [mode_eqb app existsb map minting transfer_dispatch];
      split; try reflexivity; unfold total; cbn [fold_right mints burns msg_out transfer_dispatch];
      rewrite ?bytes_eqb_refl; lia.
Qed.

(** routes ask for tokens at birth only *)
Lemma warp_creates A st ev st' r : is_warp st -> c_apply A ev st = Ok (st', r) -> existsb creates (asks (ev, r)) = false.
Proof.
  intros Hk H. destruct ev as [e i m Q | id rr].
  2: { unfold asks. cbn [snd]. now rewrite (silent_warp _ _ _ _ _ Hk H eq_refl eq_refl). }
  destruct m; try (unfold asks; cbn [snd]; now rewrite (silent_warp _ _ _ _ _ Hk H eq_refl eq_refl)).
  - destruct st as [ | | | | | | | | | | | | | | |x|x|] eqn:Es; try contradiction Hk; rewrite <- Es in *; cbn [c_apply] in H.
    + apply native_delivery in H as (rc & am & tk' & _ & _ & _ & ->); [| subst st; exact I].
      rewrite plain_asks. destruct (mode_eqb _ _); reflexivity.
    + apply cw20_delivery in H as (rc & am & tk' & _ & _ & _ & ->); [| subst st; exact I].
      rewrite plain_asks. destruct (mode_eqb _ _); reflexivity.
  - destruct st as [ | | | | | | | | | | | | | | |x|x|] eqn:Es; try contradiction Hk; rewrite <- Es in *; cbn [c_apply] in H.
    + apply native_transfer in H as (_ & _ & _ & _ & tk' & rt & mb & rest & _ & _ & _ & _ & ->); [| subst st; exact I].
      rewrite plain_asks. destruct (mode_eqb _ _); reflexivity.
    + apply cw20_transfer in H as (_ & _ & _ & _ & tk' & rt & mb & _ & _ & _ & ->); [| subst st; exact I].
      rewrite plain_asks. destruct (mode_eqb _ _); reflexivity.
Qed.

Lemma lives_creates A st0 h st : is_warp st0 -> lives A st0 h st ->
  is_warp st /\ Forall (fun p => existsb creates (asks p) = false) h.
Proof.
  intros Hk0. induction 1 as [| h st1 ev st2 r L [Hk IH] H]; [split; [exact Hk0 | constructor] |].
  split; [exact (proj1 (warp_apply _ _ _ _ _ Hk H)) |].
  apply Forall_app. split; [exact IH |]. constructor; [| constructor]. exact (warp_creates _ _ _ _ _ Hk H).
Qed.

Lemma native_reply A id rr st st' r : is_warp_native st -> c_apply A (EvReply id rr) st = Ok (st', r) ->
  exists d, rr = Ok (RrDenom d) /\ is_warp_native st' /\ reported_mode st' = reported_mode st /\ reported_token st' = Some d.
Proof.
  intros Hk H. destruct st as [ | | | | | | | | | | | | | | |x| |]; try contradiction Hk.
  cbn [c_apply c_reply] in H. unfold lift in H. apply bind_Ok_inv in H as ([x' r'] & H & E).
  apply Ok_inj, pair_equal_spec in E as [<- <-]. unfold wn_reply in H. destruct rr as [[] | |]; try discriminate H.
  destruct (id =? REPLY_ID_CREATE_DENOM); [| discriminate H]. apply Ok_inj, pair_equal_spec in H as [<- <-].
  eexists. split; [reflexivity |]. split; [exact I |]. split; [reflexivity |]. now rewrite (proj1 (wtoken_of _)).
Qed.

Lemma native_keep A st ev st' r : is_warp_native st -> c_apply A ev st = Ok (st', r) -> is_warp_native st'.
Proof.
  intros Hn H. destruct st as [ | | | | | | | | | | | | | | |x| |]; try contradiction Hn.
  destruct ev; cbn [c_apply c_reply] in H; unfold c_execute, lift in H; inv_all; exact I.
Qed.

Lemma native_lives A st0 h st tk :
  is_warp_native st0 -> (reported_token st0 = None \/ reported_token st0 = Some tk) -> lives A st0 h st ->
  (forall id d r, In (EvReply id (Ok (RrDenom d)), r) h -> d = tk) ->
  is_warp_native st /\ reported_mode st = reported_mode st0 /\
  (reported_token st = None \/ reported_token st = Some tk) /\
  Forall (native_moves (reported_mode st0) tk) h.
Proof.
  intros Hn0 Ht0. induction 1 as [| h st1 ev st2 r L IH H]; intros Hr.
  - repeat split; auto.
  - destruct IH as (Hn & Hm & Ht & F).
    { intros id d r' Hin. eapply Hr. apply in_or_app. left. exact Hin. }
    assert (Hk : is_warp st1) by (destruct st1; try contradiction Hn; exact I).
    assert (E : st2 = c_step A st1 ev) by (unfold c_step; now rewrite H).
    pose proof (warp_fixed_step A st1 ev Hk) as (_ & _ & F3 & F4). rewrite <- E in F3, F4.
    split; [exact (native_keep _ _ _ _ _ Hn H) |]. split; [congruence |]. split.
    + destruct ev as [e i m Q | id rr]; [rewrite F4; [exact Ht | discriminate] |].
      destruct (native_reply _ _ _ _ _ _ Hn H) as (d & -> & _ & _ & Hd). right. rewrite Hd. f_equal.
      eapply Hr. apply in_or_app. right. left. reflexivity.
    + apply Forall_app. split; [exact F |]. constructor; [| constructor]. rewrite <- Hm.
      exact (native_answer _ _ _ _ _ _ Hn H Ht).
Qed.

(** ** Births of native routes *)
Lemma native_born A q e i m st r :
  c_instantiate A q e i m = Ok (st, r) -> is_warp_native st ->
  (reported_mode st = Some Collateral /\ r_msgs r = [] /\ reported_token st <> None) \/
  (reported_mode st = Some Bridged /\ reported_token st = None /\
   exists sub rest, map sm_msg (r_msgs r) = CCreateDenom (e_contract e) sub :: rest /\
     existsb creates rest = false /\ existsb minting (map (LDo []) rest) = false).
Proof.
  intros H Hn. unfold c_instantiate, lift in H. destruct m; inv_all; try contradiction Hn.
  unfold wn_instantiate in *. inv_all. split_matches; inv_all; [right | left].
  - split; [reflexivity |]. split; [now rewrite (proj1 (wtoken_of _)) |]. eexists _, _. split; [reflexivity |].
    destruct md; split; reflexivity.
  - split; [reflexivity |]. split; [reflexivity |]. rewrite (proj1 (wtoken_of _)). discriminate.
Qed.

(** ** The token of a native route never changes once set *)
Lemma lives_token_reply A st0 h st tk :
  is_warp_native st0 -> lives A st0 h st -> reported_token st = Some tk ->
  reported_token st0 = Some tk \/ exists id r, In (EvReply id (Ok (RrDenom tk)), r) h.
Proof.
  intros Hn0 L. revert tk. enough (is_warp_native st /\ forall tk, reported_token st = Some tk ->
    reported_token st0 = Some tk \/ exists id r, In (EvReply id (Ok (RrDenom tk)), r) h) as [_ G] by exact G.
  induction L as [| h st1 ev st2 r L [Hn IH] H]; [auto |].
  split; [exact (native_keep _ _ _ _ _ Hn H) |]. intros tk T.
  assert (Hk : is_warp st1) by (destruct st1; try contradiction Hn; exact I).
  assert (E : st2 = c_step A st1 ev) by (unfold c_step; now rewrite H).
  pose proof (warp_fixed_step A st1 ev Hk) as (_ & _ & _ & F4). rewrite <- E in F4.
  destruct ev as [e i m Q | id rr].
  - rewrite F4 in T by discriminate. destruct (IH tk T) as [G | (id & r' & G)]; [now left | right].
    exists id, r'. apply in_or_app. now left.
  - destruct (native_reply _ _ _ _ _ _ Hn H) as (d & -> & _ & _ & Hd). right.
    exists id, r. apply in_or_app. right. left. congruence.
Qed.

Lemma creates_not m l : existsb creates l = false -> In m l -> creates m = false.
Proof.
  intros H Hin. destruct (creates m) eqn:E; [| reflexivity].
  assert (existsb creates l = true) by (apply existsb_exists; eauto). congruence.
Qed.

(** a token is asked for only at birth *)
Lemma created_at_birth C w a st m e i q im r :
  chain_ok C -> reachable C w -> contract_at w a st -> is_warp st ->
  births_at a (w_log w) = [(e, i, q, im, r)] ->
  In (LDo a m) (w_log w) -> creates m = true -> In m (map sm_msg (r_msgs r)).
Proof.
  intros HC Hr Hc Hk B Hin Hm.
  assert (D : In m (done_for a (w_log w))).
  { unfold done_for. apply in_flat_map. exists (LDo a m). split; [exact Hin |]. rewrite bytes_eqb_refl. now left. }
  apply (Permutation_in m (messages_settled C w a st HC Hr Hc)) in D.
  apply (Permutation_in m (asked_split a (w_log w))) in D. rewrite B in D. cbn [flat_map snd] in D.
  rewrite app_nil_r in D. apply in_app_or in D as [D | D]; [exact D |]. exfalso.
  apply in_flat_map in D as (p & P1 & P2).
  destruct (contract_known C w a st Hr Hc) as (e' & i' & q' & m' & r' & st0 & _ & _ & _ & L).
  assert (Hk0 : is_warp st0) by exact (kind_is_warp _ _ (lives_kind _ _ _ _ L) Hk).
  destruct (lives_creates _ _ _ _ Hk0 L) as [_ F]. rewrite Forall_forall in F.
  rewrite (creates_not m _ (F p P1) P2) in Hm. discriminate.
Qed.

Definition birth_asks (a : addr) (l : list entry) : list cmsg :=
  flat_map (fun b => map sm_msg (r_msgs (snd b))) (births_at a l).

Lemma asked_sum f a l :
  summ f (asked_by a l) = summ f (birth_asks a l) + total (fun p => summ f (asks p)) (answers_at a l).
Proof.
  rewrite (summ_perm f _ _ (asked_split a l)), total_app. fold (birth_asks a l). f_equal.
  induction (answers_at a l) as [| p h IH]; [reflexivity |]. cbn [flat_map]. rewrite total_app, IH. reflexivity.
Qed.

Lemma reply_in_log a ev r l : In (ev, r) (answers_at a l) -> In (LCall a ev r) l.
Proof.
  unfold answers_at. intros H. apply in_flat_map in H as (x & H1 & H2). destruct x as [| | | b ev' r']; try contradiction H2.
  destruct (bytes_eqb a b) eqn:E; [| contradiction H2]. apply bytes_eqb_eq in E. subst b.
  destruct H2 as [H2 | []]. injection H2 as -> ->. exact H1.
Qed.

Lemma native_route C w a st tk :
  chain_ok C -> reachable C w -> contract_at w a st -> is_warp_native st -> reported_token st = Some tk ->
  Forall (native_moves (reported_mode st) tk) (answers_at a (w_log w)) /\
  match reported_mode st with
  | Some Bridged => om_get tk (w_admin w) = Some a /\ existsb minting (map (LDo []) (birth_asks a (w_log w))) = false
  | _ => birth_asks a (w_log w) = []
  end.
Proof.
  intros HC Hr Hc Hn Ht.
  destruct (contract_known C w a st Hr Hc) as (e & i & q & m & r & st0 & B & He & Hi & L).
  assert (Hn0 : is_warp_native st0).
  { pose proof (lives_kind _ _ _ _ L) as K. destruct st0, st; try contradiction Hn; try discriminate K; exact I. }
  assert (Hk : is_warp st) by (destruct st; try contradiction Hn; exact I).
  assert (Hk0 : is_warp st0) by (destruct st0; try contradiction Hn0; exact I).
  assert (Hm : reported_mode st = reported_mode st0).
  { rewrite <- (lives_run _ _ _ _ L). apply (warp_fixed (ch_api C) st0 _ Hk0). }
  assert (RR : forall id d r', In (EvReply id (Ok (RrDenom d)), r') (answers_at a (w_log w)) ->
    exists sub, In (CCreateDenom a sub) (map sm_msg (r_msgs r)) /\ d = factory_denom a sub /\ om_get d (w_admin w) = Some a).
  { intros id d r' Hin. apply reply_in_log in Hin. apply (log_true C w _ Hr) in Hin. cbn [entry_true done_reply] in Hin.
    destruct Hin as (sub & D & E1 & E2). exists sub. split; [| auto].
    exact (created_at_birth C w a st _ e i q m r HC Hr Hc Hk B D eq_refl). }
  unfold birth_asks. rewrite B. cbn [flat_map snd]. rewrite app_nil_r.
  destruct (native_born _ _ _ _ _ _ _ Hi Hn0) as [(M & E & T0) | (M & T0 & sub & rest & E & C1 & C2)].
  - assert (NR : forall id d r', ~ In (EvReply id (Ok (RrDenom d)), r') (answers_at a (w_log w))).
    { intros id d r' Hin. apply RR in Hin as (sub & Hin & _). rewrite E in Hin. contradiction Hin. }
    destruct (reported_token st0) as [tk0 |] eqn:T0'; [| congruence].
    destruct (native_lives _ _ _ _ tk0 Hn0 (or_intror T0') L) as (_ & _ & Ht' & F).
    { intros id d r' Hin. destruct (NR _ _ _ Hin). }
    assert (tk0 = tk) by (destruct Ht'; congruence). subst tk0.
    rewrite Hm. split; [exact F |]. rewrite M, E. reflexivity.
  - assert (RU : forall id d r', In (EvReply id (Ok (RrDenom d)), r') (answers_at a (w_log w)) ->
      d = factory_denom a sub /\ om_get d (w_admin w) = Some a).
    { intros id d r' Hin. apply RR in Hin as (sub' & Hin & E1 & E2). split; [| exact E2]. rewrite E in Hin.
      destruct Hin as [Hin | Hin]; [injection Hin as _ <-; exact E1 |].
      exfalso. pose proof (creates_not _ _ C1 Hin) as X. discriminate X. }
    destruct (lives_token_reply _ _ _ _ tk Hn0 L Ht) as [X | (id & r' & X)]; [congruence |].
    destruct (RU _ _ _ X) as [Etk Ead].
    destruct (native_lives _ _ _ _ tk Hn0 (or_introl T0) L) as (_ & _ & _ & F).
    { intros id' d r'' Hin. rewrite (proj1 (RU _ _ _ Hin)). symmetry. exact Etk. }
    rewrite Hm. split; [exact F |]. rewrite M, E. split; [exact Ead |].
    cbn [map existsb minting orb]. exact C2.
Qed.

(** ** The supply of a bridged native route's token *)
Lemma route_sums a l :
  sent_all a l = total sent_n (answers_at a l) /\ received_all a l = total got_n (answers_at a l).
Proof.
  unfold sent_all, received_all, transfers_at, arrivals_at.
  induction (answers_at a l) as [| p h [IH1 IH2]]; [split; reflexivity |]. cbn [flat_map]. rewrite !total_app, IH1, IH2.
  split; reflexivity.
Qed.

Lemma mint_done C w tk a : reachable C w -> om_get tk (w_admin w) = Some a ->
  minted tk (w_log w) = summ (mints tk) (done_for a (w_log w)) /\
  burned tk (w_log w) = summ (burns tk) (done_for a (w_log w)).
Proof.
  intros Hr Ha. pose proof (fun x => log_true C w x Hr) as T. revert T. unfold minted, burned.
  generalize (w_log w) as l. induction l as [| x l IH]; intros T; [split; reflexivity |].
  destruct IH as [IH1 IH2]; [intros y Hy; apply T; now right |].
  specialize (T x (or_introl eq_refl)). unfold done_for in *. cbn [flat_map].
  rewrite !total_app, <- IH1, <- IH2. unfold total. cbn [fold_right].
  destruct x as [c m | | | ]; cbn [mint_of burn_of fold_right]; try (split; reflexivity).
  destruct m; try (cbn [mint_of burn_of]; destruct (bytes_eqb a c); cbn [fold_right mints burns]; split; lia).
  - cbn [entry_true] in T. destruct T as [_ T]. cbn [mint_of burn_of].
    destruct (bytes_eqb tk denom) eqn:E.
    + apply bytes_eqb_eq in E. subst denom. assert (c = a) by congruence. subst c. rewrite bytes_eqb_refl.
      cbn [fold_right mints burns]. rewrite bytes_eqb_refl. split; lia.
    + destruct (bytes_eqb a c); cbn [fold_right mints burns]; rewrite ?E; split; lia.
  - cbn [entry_true] in T. destruct T as [_ T]. cbn [mint_of burn_of].
    destruct (bytes_eqb tk denom) eqn:E.
    + apply bytes_eqb_eq in E. subst denom. assert (c = a) by congruence. subst c. rewrite bytes_eqb_refl.
      cbn [fold_right mints burns]. rewrite bytes_eqb_refl. split; lia.
    + destruct (bytes_eqb a c); cbn [fold_right mints burns]; rewrite ?E; split; lia.
Qed.

Lemma total_Forall {X} (f g : X -> N) l : Forall (fun x => f x = g x) l -> total f l = total g l.
Proof. intros H. apply total_ext. rewrite Forall_forall in H. exact H. Qed.

Lemma no_mint_sum tk l : existsb minting (map (LDo []) l) = false -> summ (mints tk) l = 0 /\ summ (burns tk) l = 0.
Proof.
  induction l as [| m l IH]; intros H; [split; reflexivity |]. cbn [map existsb] in H. apply orb_false_iff in H as [H1 H2].
  destruct (IH H2) as [E1 E2]. unfold total in *. cbn [fold_right]. rewrite E1, E2.
  destruct m; try discriminate H1; split; reflexivity.
Qed.

Lemma native_bridged_supply C bank l w a st tk :
  chain_ok C -> om_sorted bank -> w = chain_run C (genesis bank) l ->
  contract_at w a st -> is_warp_native st -> reported_mode st = Some Bridged -> reported_token st = Some tk ->
  supply w tk + sent_all a (w_log w) = supply_of tk bank + received_all a (w_log w).
Proof.
  intros HC Hs Hw Hc Hn Hm Ht.
  assert (Hr : reachable C w) by (exists bank, l; auto).
  destruct (native_route C w a st tk HC Hr Hc Hn Ht) as [F B]. rewrite Hm in F, B. destruct B as [Ha B].
  destruct (mint_done C w tk a Hr Ha) as [D1 D2].
  rewrite (summ_perm _ _ _ (messages_settled C w a st HC Hr Hc)), asked_sum in D1.
  rewrite (summ_perm _ _ _ (messages_settled C w a st HC Hr Hc)), asked_sum in D2.
  destruct (no_mint_sum tk _ B) as [B1 B2]. rewrite B1 in D1. rewrite B2 in D2.
  destruct (route_sums a (w_log w)) as [R1 R2]. rewrite R1, R2.
  rewrite (total_Forall (fun p => summ (mints tk) (asks p)) got_n) in D1
    by (eapply Forall_impl; [| exact F]; intros p [X _]; exact X).
  rewrite (total_Forall (fun p => summ (burns tk) (asks p)) sent_n) in D2
    by (eapply Forall_impl; [| exact F]; intros p [_ X]; exact X).
  assert (M : money bank w) by (apply money_reachable with C; [exact Hs |]; rewrite Hw; apply chain_run_steps).
  destruct M as (_ & M & _). specialize (M tk). lia.
Qed.

(** ** The balance of a collateral native route *)
Definition call_paid (a : addr) (d : str) (x : addr * addr * emsg * list coin) : N :=
  match x with
  | (_, b, MTransferRemote _ _ _ _ _, f) => if bytes_eqb a b then amount_of d f else 0
  | _ => 0
  end.

Lemma inflow_gifts a d l :
  inflow a d l = gifts a d l + total (call_paid a d) (calls_sent l).
Proof.
  unfold inflow, gifts, calls_sent. induction l as [| x l IH]; [reflexivity |]. cbn [flat_map]. rewrite total_app.
  unfold total in *. cbn [fold_right]. rewrite IH.
  destruct x as [c m | | | ]; cbn [gift_of fold_right]; try lia.
  destruct m; cbn [gift_of fold_right]; try lia.
  destruct m; cbn [gift_of fold_right call_paid entry_in msg_in]; rewrite ?norm_amount; try lia.
Qed.

Lemma calls_paid a d l : total (call_paid a d) (calls_seen l) = total (paid_n d) (answers_at a l).
Proof.
  unfold calls_seen, answers_at. induction l as [| x l IH]; [reflexivity |]. cbn [flat_map]. rewrite !total_app, IH. f_equal.
  destruct x as [| | | b ev r]; try reflexivity. destruct ev as [e i m Q | id rr].
  - rewrite total_one. destruct (bytes_eqb a b) eqn:E; [rewrite total_one |];
      destruct m; cbn [call_paid paid_n]; rewrite ?E; reflexivity.
  - destruct (bytes_eqb a b); reflexivity.
Qed.

Lemma native_collateral_balance C bank l w a st tk :
  chain_ok C -> om_sorted bank -> w = chain_run C (genesis bank) l ->
  contract_at w a st -> is_warp_native st -> reported_mode st = Some Collateral -> reported_token st = Some tk ->
  balance w a tk + received_all a (w_log w) = bal bank a tk + gifts a tk (w_log w) + sent_all a (w_log w).
Proof.
  intros HC Hs Hw Hc Hn Hm Ht.
  assert (Hr : reachable C w) by (exists bank, l; auto).
  destruct (native_route C w a st tk HC Hr Hc Hn Ht) as [F B]. rewrite Hm in F, B.
  pose proof (contract_money C bank l w a st tk HC Hs Hw Hc) as M.
  rewrite asked_sum, B, inflow_gifts, (calls_reachable C w Hr), calls_paid in M. cbn [total fold_right] in M.
  destruct (route_sums a (w_log w)) as [R1 R2]. rewrite R1, R2.
  assert (E : total (fun p => summ (msg_out tk) (asks p)) (answers_at a (w_log w)) + total sent_n (answers_at a (w_log w))
            = total (paid_n tk) (answers_at a (w_log w)) + total got_n (answers_at a (w_log w))).
  { clear - F. unfold total at 1 3 4 5. induction F as [| p h [_ X] F IH]; [reflexivity |]. cbn [fold_right]. lia. }
  change (summ (msg_out tk) []) with 0 in M. lia.
Qed.

(** ** cw20 routes *)
(** what a route's messages do to the token contract [tk] *)
Definition to_cw (tk : addr) (h : emsg -> N) (m : cmsg) : N :=
  match m with CExec b em _ => if bytes_eqb tk b then h em else 0 | _ => 0 end.
Definition h_mint (m : emsg) : N := match m with MCw20Mint _ n => n | _ => 0 end.
Definition h_burn (m : emsg) : N := match m with MCw20Burn n => n | _ => 0 end.
Definition h_give (m : emsg) : N := match m with MCw20Transfer _ n => n | _ => 0 end.
Definition h_take (a : addr) (m : emsg) : N :=
  match m with MCw20TransferFrom _ to n => if bytes_eqb a to then n else 0 | _ => 0 end.
Definition h_hand (m : emsg) : N := match m with MCw20UpdateMinter _ => 1 | _ => 0 end.
Definition h_allow (m : emsg) : N := match m with MCw20IncreaseAllowance _ _ => 1 | _ => 0 end.

Definition cw_moves (mode : option token_mode) (a tk : addr) (p : event * response) : Prop :=
  match mode with
  | Some Bridged => summ (to_cw tk h_mint) (asks p) = got_n p /\ summ (to_cw tk h_burn) (asks p) = sent_n p /\
      summ (to_cw tk h_hand) (asks p) = 0
  | _ => summ (to_cw tk h_give) (asks p) = got_n p /\ summ (to_cw tk (h_take a)) (asks p) = sent_n p /\
         summ (to_cw tk h_burn) (asks p) = 0 /\ summ (to_cw tk h_allow) (asks p) = 0
  end.

Lemma silent_cw mode a tk ev r : r_msgs r = [] -> transfer_of (ev, r) = [] -> arrival_of (ev, r) = [] ->
  cw_moves mode a tk (ev, r).
Proof.
  intros H T V. unfold cw_moves, sent_n, got_n. rewrite T, V. unfold asks. cbn [snd]. rewrite H.
  destruct mode as [[] |]; repeat split; reflexivity.
Qed.

Lemma cw_answer A st ev st' r a tk :
  is_warp_cw20 st -> c_apply A ev st = Ok (st', r) ->
  match ev with EvExec e _ _ _ => e_contract e = a | _ => True end ->
  (reported_token st = None \/ reported_token st = Some tk) ->
  cw_moves (reported_mode st) a tk (ev, r).
Proof.
  intros Hn H Ha Ht. assert (Hk : is_warp st) by (destruct st; try contradiction Hn; exact I).
  destruct ev as [e i m Q | id rr].
  2: { apply silent_cw; try reflexivity. exact (silent_warp _ _ _ _ _ Hk H eq_refl eq_refl). }
  destruct m; try (apply silent_cw; try reflexivity; exact (silent_warp _ _ _ _ _ Hk H eq_refl eq_refl)).
  - cbn [c_apply] in H. apply cw20_delivery in H; [| exact Hn].
    destruct H as (rc & am & tk' & (_ & _ & _ & B & rcp & tail & -> & L & _) & T & _ & ->).
    assert (tk' = tk) by (destruct Ht; congruence). subst tk'.
    unfold cw_moves, sent_n, got_n. rewrite plain_asks. cbn [transfer_of arrival_of].
    unfold total. cbn [fold_right snd]. rewrite named_amount_parts; [| exact L | eapply N.lt_trans; [exact B | reflexivity]].
    destruct (reported_mode st) as [[] |]; cbn [mode_eqb fold_right to_cw]; rewrite bytes_eqb_refl;
      cbn [h_mint h_burn h_give h_take h_allow h_hand]; repeat split; lia.
  - cbn [c_apply] in H. apply cw20_transfer in H; [| exact Hn].
    destruct H as (_ & _ & _ & _ & tk' & rt & mb & T & _ & _ & ->).
    assert (tk' = tk) by (destruct Ht; congruence). subst tk'. subst a.
    unfold cw_moves, sent_n, got_n. rewrite plain_asks. cbn [transfer_of arrival_of].
    unfold total. cbn [fold_right snd].
    destruct (reported_mode st) as [[] |]; cbn [mode_eqb app fold_right to_cw transfer_dispatch];
      rewrite bytes_eqb_refl; cbn [h_mint h_burn h_give h_take h_allow h_hand]; rewrite ?bytes_eqb_refl;
      destruct (bytes_eqb tk mb); repeat split; lia.
Qed.

Lemma cw_reply_inv A id rr st st' r : is_warp_cw20 st -> c_apply A (EvReply id rr) st = Ok (st', r) ->
  exists d, rr = Ok (RrContract d) /\ reported_token st' = Some d.
Proof.
  intros Hk H. destruct st as [ | | | | | | | | | | | | | | | |x|]; try contradiction Hk.
  cbn [c_apply c_reply] in H. unfold lift in H. apply bind_Ok_inv in H as ([x' r'] & H & E).
  apply Ok_inj, pair_equal_spec in E as [<- <-]. unfold wc_reply in H.
  destruct (id =? REPLY_ID_CREATE_DENOM); [| discriminate H]. destruct rr as [[] | |]; try discriminate H.
  apply bind_Ok_inv in H as (a' & H1 & H). apply Ok_inj, pair_equal_spec in H as [<- <-].
  unfold addr_validate in H1. destruct (api_valid A _); [| discriminate H1]. apply Ok_inj in H1. subst a'.
  eexists. split; [reflexivity |]. now rewrite (proj2 (wtoken_of _)).
Qed.

Lemma cw_keep A st ev st' r : is_warp_cw20 st -> c_apply A ev st = Ok (st', r) -> is_warp_cw20 st'.
Proof.
  intros Hn H. destruct st as [ | | | | | | | | | | | | | | | |x|]; try contradiction Hn.
  destruct ev; cbn [c_apply c_reply] in H; unfold c_execute, lift in H; inv_all; exact I.
Qed.

Lemma cw_lives A st0 h st a tk :
  is_warp_cw20 st0 -> (reported_token st0 = None \/ reported_token st0 = Some tk) -> lives A st0 h st ->
  (forall id d r, In (EvReply id (Ok (RrContract d)), r) h -> d = tk) ->
  (forall e i m Q r, In (EvExec e i m Q, r) h -> e_contract e = a) ->
  is_warp_cw20 st /\ reported_mode st = reported_mode st0 /\
  (reported_token st = None \/ reported_token st = Some tk) /\
  Forall (cw_moves (reported_mode st0) a tk) h.
Proof.
  intros Hn0 Ht0. induction 1 as [| h st1 ev st2 r L IH H]; intros Hr He.
  - repeat split; auto.
  - destruct IH as (Hn & Hm & Ht & F).
    { intros id d r' Hin. eapply Hr. apply in_or_app. left. exact Hin. }
    { intros e i m Q r' Hin. eapply He. apply in_or_app. left. exact Hin. }
    assert (Hk : is_warp st1) by (destruct st1; try contradiction Hn; exact I).
    assert (E : st2 = c_step A st1 ev) by (unfold c_step; now rewrite H).
    pose proof (warp_fixed_step A st1 ev Hk) as (_ & _ & F3 & F4). rewrite <- E in F3, F4.
    split; [exact (cw_keep _ _ _ _ _ Hn H) |]. split; [congruence |]. split.
    + destruct ev as [e i m Q | id rr]; [rewrite F4; [exact Ht | discriminate] |].
      destruct (cw_reply_inv _ _ _ _ _ _ Hn H) as (d & -> & Hd). right. rewrite Hd. f_equal.
      eapply Hr. apply in_or_app. right. left. reflexivity.
    + apply Forall_app. split; [exact F |]. constructor; [| constructor]. rewrite <- Hm.
      apply (cw_answer _ _ _ _ _ a tk Hn H); [| exact Ht].
      destruct ev as [e i m Q | id rr]; [| exact I]. eapply He. apply in_or_app. right. left. reflexivity.
Qed.

Lemma cw_token_reply A st0 h st tk :
  is_warp_cw20 st0 -> lives A st0 h st -> reported_token st = Some tk ->
  reported_token st0 = Some tk \/ exists id r, In (EvReply id (Ok (RrContract tk)), r) h.
Proof.
  intros Hn0 L. revert tk. enough (is_warp_cw20 st /\ forall tk, reported_token st = Some tk ->
    reported_token st0 = Some tk \/ exists id r, In (EvReply id (Ok (RrContract tk)), r) h) as [_ G] by exact G.
  induction L as [| h st1 ev st2 r L [Hn IH] H]; [auto |].
  split; [exact (cw_keep _ _ _ _ _ Hn H) |]. intros tk T.
  assert (Hk : is_warp st1) by (destruct st1; try contradiction Hn; exact I).
  assert (E : st2 = c_step A st1 ev) by (unfold c_step; now rewrite H).
  pose proof (warp_fixed_step A st1 ev Hk) as (_ & _ & _ & F4). rewrite <- E in F4.
  destruct ev as [e i m Q | id rr].
  - rewrite F4 in T by discriminate. destruct (IH tk T) as [G | (id & r' & G)]; [now left | right].
    exists id, r'. apply in_or_app. now left.
  - destruct (cw_reply_inv _ _ _ _ _ _ Hn H) as (d & -> & Hd). right.
    exists id, r. apply in_or_app. right. left. congruence.
Qed.

Lemma cw_born A q e i m st r :
  c_instantiate A q e i m = Ok (st, r) -> is_warp_cw20 st ->
  (reported_mode st = Some Collateral /\ r_msgs r = [] /\ reported_token st <> None) \/
  (reported_mode st = Some Bridged /\ reported_token st = None /\
   exists init, map sm_msg (r_msgs r) = [CInstantiateCw20 (e_contract e) init]).
Proof.
  intros H Hn. unfold c_instantiate, lift in H. destruct m; inv_all; try contradiction Hn.
  unfold wc_instantiate in *. inv_all. split_matches; inv_all; [right | left].
  - split; [reflexivity |]. split; [now rewrite (proj2 (wtoken_of _)) |]. eexists. reflexivity.
  - split; [reflexivity |]. split; [reflexivity |]. rewrite (proj2 (wtoken_of _)). discriminate.
Qed.

Lemma requests_at_birth C w a st e i q im r :
  chain_ok C -> reachable C w -> contract_at w a st -> is_warp st ->
  births_at a (w_log w) = [(e, i, q, im, r)] ->
  Permutation (flat_map cw_request (done_for a (w_log w))) (flat_map cw_request (map sm_msg (r_msgs r))).
Proof.
  intros HC Hr Hc Hk B.
  assert (X : forall l1 l2, Permutation l1 l2 -> Permutation (flat_map cw_request l1) (flat_map cw_request l2))
    by (intros; now apply Permutation_flat_map).
  rewrite (X _ _ (messages_settled C w a st HC Hr Hc)), (X _ _ (asked_split a (w_log w))).
  rewrite B. cbn [flat_map snd]. rewrite app_nil_r, flat_map_app.
  destruct (contract_known C w a st Hr Hc) as (e' & i' & q' & m' & r' & st0 & _ & _ & _ & L).
  assert (Hk0 : is_warp st0) by exact (kind_is_warp _ _ (lives_kind _ _ _ _ L) Hk).
  destruct (lives_creates _ _ _ _ Hk0 L) as [_ F].
  assert (E : flat_map cw_request (flat_map (fun p => map sm_msg (r_msgs (snd p))) (answers_at a (w_log w))) = []).
  { clear - F. induction F as [| p h X F IH]; [reflexivity |]. cbn [flat_map]. rewrite flat_map_app, IH, app_nil_r.
    unfold asks in X. induction (map sm_msg (r_msgs (snd p))) as [| m l IHl]; [reflexivity |].
    cbn [existsb] in X. apply orb_false_iff in X as [X1 X2]. cbn [flat_map]. rewrite (IHl X2).
    destruct m; try discriminate X1; reflexivity. }
  rewrite E, app_nil_r. apply Permutation_refl.
Qed.

Lemma cw_births_in a b e q mt ini r l :
  In (LNew b e (mkInfo a []) q (ICw20 (Some mt) ini) r) l -> In (b, (mt, ini)) (cw_births a l).
Proof.
  intros H. unfold cw_births. apply in_flat_map. eexists. split; [exact H |]. cbn [i_sender].
  rewrite bytes_eqb_refl. now left.
Qed.

Lemma births_one C w (b : addr) x : reachable C w -> In x (births_at b (w_log w)) -> births_at b (w_log w) = [x].
Proof.
  intros Hr Bi. pose proof (known_reachable C w b Hr) as K. unfold known in K.
  destruct (om_get b (w_inst w)) as [[st' | ] |].
  - destruct K as (e2 & i2 & q2 & m2 & r2 & st2 & K & _). rewrite K in Bi |- *. destruct Bi as [Bi | []]. now rewrite Bi.
  - rewrite K in Bi. contradiction Bi.
  - destruct K as [K _]. rewrite K in Bi. contradiction Bi.
Qed.

Lemma cw_route C w a st tk :
  chain_ok C -> reachable C w -> contract_at w a st -> is_warp_cw20 st -> reported_token st = Some tk ->
  Forall (cw_moves (reported_mode st) a tk) (answers_at a (w_log w)) /\
  match reported_mode st with
  | Some Bridged => (exists e i q ini r, births_at tk (w_log w) = [(e, i, q, ICw20 (Some a) ini, r)]) /\
      exists ini, birth_asks a (w_log w) = [CInstantiateCw20 a ini]
  | _ => birth_asks a (w_log w) = []
  end.
Proof.
  intros HC Hr Hc Hn Ht.
  destruct (contract_known C w a st Hr Hc) as (e & i & q & m & r & st0 & B & He & Hi & L).
  assert (Hn0 : is_warp_cw20 st0).
  { pose proof (lives_kind _ _ _ _ L) as K. destruct st0, st; try contradiction Hn; try discriminate K; exact I. }
  assert (Hk : is_warp st) by (destruct st; try contradiction Hn; exact I).
  assert (Hk0 : is_warp st0) by (destruct st0; try contradiction Hn0; exact I).
  assert (Hm : reported_mode st = reported_mode st0).
  { rewrite <- (lives_run _ _ _ _ L). apply (warp_fixed (ch_api C) st0 _ Hk0). }
  assert (He' : forall e' i' m' Q r', In (EvExec e' i' m' Q, r') (answers_at a (w_log w)) -> e_contract e' = a).
  { intros e' i' m' Q r' Hin. apply reply_in_log in Hin. exact (log_true C w _ Hr Hin). }
  assert (RR : forall id d r', In (EvReply id (Ok (RrContract d)), r') (answers_at a (w_log w)) ->
    exists mt ini e' q' r'', In (CInstantiateCw20 mt ini) (map sm_msg (r_msgs r)) /\
      In (LNew d e' (mkInfo a []) q' (ICw20 (Some mt) ini) r'') (w_log w)).
  { intros id d r' Hin. apply reply_in_log in Hin. apply (log_true C w _ Hr) in Hin. cbn [entry_true done_reply] in Hin.
    destruct Hin as (mt & ini & e' & q' & r'' & D & E1). exists mt, ini, e', q', r''. split; [| exact E1].
    exact (created_at_birth C w a st _ e i q m r HC Hr Hc Hk B D eq_refl). }
  unfold birth_asks. rewrite B. cbn [flat_map snd]. rewrite app_nil_r.
  destruct (cw_born _ _ _ _ _ _ _ Hi Hn0) as [(M & E & T0) | (M & T0 & ini & E)].
  - assert (NR : forall id d r', ~ In (EvReply id (Ok (RrContract d)), r') (answers_at a (w_log w))).
    { intros id d r' Hin. apply RR in Hin as (mt & ini & e' & q' & r'' & Hin & _). rewrite E in Hin. contradiction Hin. }
    destruct (reported_token st0) as [tk0 |] eqn:T0'; [| congruence].
    destruct (cw_lives _ _ _ _ a tk0 Hn0 (or_intror T0') L) as (_ & _ & Ht' & F).
    { intros id d r' Hin. destruct (NR _ _ _ Hin). }
    { exact He'. }
    assert (tk0 = tk) by (destruct Ht'; congruence). subst tk0.
    rewrite Hm. split; [exact F |]. rewrite M, E. reflexivity.
  - rewrite He in E.
    pose proof (requests_at_birth C w a st e i q m r HC Hr Hc Hk B) as P. rewrite E in P. cbn [flat_map cw_request app] in P.
    rewrite <- (cw_births_done C w a Hr (contract_account C w a st HC Hr Hc)) in P.
    apply Permutation_sym, Permutation_length_1_inv in P.
    destruct (cw_births a (w_log w)) as [| [b0 p0] [| ]] eqn:EB; try discriminate P.
    cbn [map snd] in P. assert (p0 = (a, ini)) by congruence. subst p0.
    assert (RU : forall id d r', In (EvReply id (Ok (RrContract d)), r') (answers_at a (w_log w)) ->
      d = b0 /\ exists e' q' r'', In (LNew d e' (mkInfo a []) q' (ICw20 (Some a) ini) r'') (w_log w)).
    { intros id d r' Hin. apply RR in Hin as (mt & ini' & e' & q' & r'' & _ & Hin).
      pose proof (cw_births_in _ _ _ _ _ _ _ _ Hin) as X. rewrite EB in X. destruct X as [X | []].
      injection X as <- <- <-. split; [reflexivity |]. eauto. }
    destruct (cw_token_reply _ _ _ _ tk Hn0 L Ht) as [X | (id & r' & X)]; [congruence |].
    destruct (RU _ _ _ X) as (Etk & e' & q' & r'' & Eln).
    destruct (cw_lives _ _ _ _ a tk Hn0 (or_introl T0) L) as (_ & _ & _ & F).
    { intros id' d r3 Hin. rewrite (proj1 (RU _ _ _ Hin)). symmetry. exact Etk. }
    { exact He'. }
    rewrite Hm. split; [exact F |]. rewrite M, E. split; [| eauto].
    assert (Bi : In (e', mkInfo a [], q', ICw20 (Some a) ini, r'') (births_at tk (w_log w))).
    { unfold births_at. apply in_flat_map. eexists. split; [exact Eln |]. cbn beta iota. rewrite bytes_eqb_refl. now left. }
    rewrite (births_one C w tk _ Hr Bi). eauto 10.
Qed.

(** ** Ledgers of token contracts *)
Definition seen_by (a : addr) (h : emsg -> N) (p : event * response) : N :=
  match p with (EvExec _ i m _, _) => if bytes_eqb a (i_sender i) then h m else 0 | _ => 0 end.
Definition call_by (a tk : addr) (h : emsg -> N) (x : addr * addr * emsg * list coin) : N :=
  match x with (c, b, m, _) => if bytes_eqb a c then if bytes_eqb tk b then h m else 0 else 0 end.

Lemma calls_by_seen a tk h l : total (call_by a tk h) (calls_seen l) = total (seen_by a h) (answers_at tk l).
Proof.
  unfold calls_seen, answers_at. induction l as [| x l IH]; [reflexivity |]. cbn [flat_map]. rewrite !total_app, IH. f_equal.
  destruct x as [| | | b ev r]; try reflexivity. destruct ev as [e i m Q | id rr].
  - rewrite total_one. cbn [call_by]. destruct (bytes_eqb tk b); [rewrite total_one; reflexivity |].
    destruct (bytes_eqb a (i_sender i)); reflexivity.
  - destruct (bytes_eqb tk b); reflexivity.
Qed.
Lemma calls_by_sent a tk h l : total (call_by a tk h) (calls_sent l) = summ (to_cw tk h) (done_for a l).
Proof.
  unfold calls_sent, done_for. induction l as [| x l IH]; [reflexivity |]. cbn [flat_map]. rewrite !total_app, IH. f_equal.
  destruct x as [c m | | | ]; try reflexivity.
  destruct m; try (destruct (bytes_eqb a c); reflexivity).
  rewrite total_one. cbn [call_by]. destruct (bytes_eqb a c); [rewrite total_one |]; reflexivity.
Qed.
Lemma calls_to_token C w a st tk h :
  chain_ok C -> reachable C w -> contract_at w a st ->
  total (seen_by a h) (answers_at tk (w_log w)) =
  summ (to_cw tk h) (birth_asks a (w_log w)) + total (fun p => summ (to_cw tk h) (asks p)) (answers_at a (w_log w)).
Proof.
  intros HC Hr Hc. rewrite <- calls_by_seen, <- (calls_reachable C w Hr), calls_by_sent.
  rewrite (summ_perm _ _ _ (messages_settled C w a st HC Hr Hc)). apply asked_sum.
Qed.

Lemma cw_query_holding x a : cw_holding (SCw20 x) a = cw_balance x a.
Proof. reflexivity. Qed.
Lemma cw_query_total x : cw_total (SCw20 x) = cw_supply x.
Proof. reflexivity. Qed.

Definition bal_in (b : omap addr N) (a : addr) : N := match om_get a b with Some n => n | None => 0 end.
Lemma keqb_bytes (a b : addr) : keqb a b = bytes_eqb a b.
Proof.
  destruct (bytes_eqb a b) eqn:E.
  - apply bytes_eqb_eq in E. subst. apply keqb_refl.
  - destruct (keqb a b) eqn:K; [| reflexivity]. apply keqb_eq in K. subst. rewrite bytes_eqb_refl in E. discriminate.
Qed.
Lemma cw_credit_spec b to n b' a : cw_credit b to n = Ok b' ->
  bal_in b' a = bal_in b a + (if bytes_eqb a to then n else 0).
Proof.
  unfold cw_credit. intros H. apply bind_Ok_inv in H as (u & _ & H). apply Ok_inj in H. subst b'. unfold bal_in.
  rewrite om_get_set, keqb_bytes. destruct (bytes_eqb a to) eqn:E; [| lia]. apply bytes_eqb_eq in E. subst to. reflexivity.
Qed.
Lemma cw_debit_spec b from n b' a : cw_debit b from n = Ok b' ->
  bal_in b' a + (if bytes_eqb a from then n else 0) = bal_in b a.
Proof.
  unfold cw_debit. intros H. apply bind_Ok_inv in H as (u & H1 & H). apply ensure_Ok_inv, N.leb_le in H1.
  apply Ok_inj in H. subst b'. unfold bal_in.
  rewrite om_get_set, keqb_bytes. destruct (bytes_eqb a from) eqn:E; [| lia]. apply bytes_eqb_eq in E. subst from. lia.
Qed.
Lemma cw_move_spec b from to n b' a : cw_move b from to n = Ok b' ->
  bal_in b' a + (if bytes_eqb a from then n else 0) = bal_in b a + (if bytes_eqb a to then n else 0).
Proof.
  unfold cw_move. intros H. apply bind_Ok_inv in H as (b1 & H1 & H).
  pose proof (cw_debit_spec _ _ _ _ a H1). pose proof (cw_credit_spec _ _ _ _ a H). lia.
Qed.
Lemma validate_same A x y : addr_validate A x = Ok y -> y = x.
Proof. unfold addr_validate. destruct (api_valid A x); [| discriminate]. intros H. apply Ok_inj in H. now symmetry. Qed.

(** no allowance was ever granted by [a] *)
Definition ungranted (x : cw) (a : addr) : Prop := forall sp, om_get (a, sp) (cw_allowances x) = None.
Lemma pair_keqb (a b c d : addr) : keqb (a, b) (c, d) = (bytes_eqb a c && bytes_eqb b d)%bool.
Proof.
  destruct (bytes_eqb a c && bytes_eqb b d)%bool eqn:E.
  - apply andb_true_iff in E as [E1 E2]. apply bytes_eqb_eq in E1, E2. subst. apply keqb_refl.
  - destruct (keqb (a, b) (c, d)) eqn:K; [| reflexivity]. apply keqb_eq in K. injection K as -> ->.
    rewrite !bytes_eqb_refl in E. discriminate.
Qed.

Lemma cw_apply_inv A ev x st' r : c_apply A ev (SCw20 x) = Ok (st', r) ->
  exists e i m Q x', ev = EvExec e i m Q /\ cw_execute A i m x = Ok (x', r) /\ st' = SCw20 x'.
Proof.
  destruct ev as [e i m Q | id rr]; cbn [c_apply]; [| cbn [c_reply]; discriminate].
  unfold c_execute, lift. intros H. apply bind_Ok_inv in H as (u & _ & H).
  apply bind_Ok_inv in H as ([x' r'] & H & E). apply Ok_inj, pair_equal_spec in E as [<- <-]. eauto 10.
Qed.

Definition minted_by (p : event * response) : N :=
  match p with (EvExec _ _ (MCw20Mint _ n) _, _) => n | _ => 0 end.

Lemma cw_ledger_step A e i m Q x x' r a :
  cw_execute A i m x = Ok (x', r) ->
  (cw_minter x = Some a -> seen_by a h_hand (EvExec e i m Q, r) = 0 -> cw_minter x' = Some a) /\
  cw_supply x' + seen_by a h_burn (EvExec e i m Q, r) + cw_burn_of a (EvExec e i m Q, r)
    = cw_supply x + minted_by (EvExec e i m Q, r) /\
  (cw_minter x = Some a -> minted_by (EvExec e i m Q, r) = seen_by a h_mint (EvExec e i m Q, r)) /\
  (ungranted x a -> seen_by a h_allow (EvExec e i m Q, r) = 0 ->
   ungranted x' a /\
   bal_in (cw_balances x') a + seen_by a h_give (EvExec e i m Q, r) + seen_by a h_burn (EvExec e i m Q, r)
   = bal_in (cw_balances x) a + cw_gift_of a (EvExec e i m Q, r) + seen_by a (h_take a) (EvExec e i m Q, r)).
Proof.
  intros H. destruct m; try discriminate H; cbn [cw_execute] in H;
    cbn [seen_by h_burn h_mint h_give h_take h_allow h_hand cw_burn_of cw_gift_of minted_by].
  - (* transfer *)
    apply bind_Ok_inv in H as (to' & V & H). apply validate_same in V. subst to'.
    apply bind_Ok_inv in H as (b & H1 & H). apply Ok_inj, pair_equal_spec in H as [<- _].
    cbn [cw_minter cw_supply cw_balances cw_allowances].
    pose proof (cw_move_spec _ _ _ _ _ a H1).
    split; [intros E _; exact E |]. split; [destruct (bytes_eqb a (i_sender i)); lia |].
    split; [intros _; destruct (bytes_eqb a (i_sender i)); reflexivity |].
    intros U _. split; [exact U |]. repeat match goal with |- context [bytes_eqb a ?z] => destruct (bytes_eqb a z) end; lia.
  - (* transfer from *)
    apply bind_Ok_inv in H as (to' & V & H). apply validate_same in V. subst to'.
    apply bind_Ok_inv in H as (ow & V & H). apply validate_same in V. subst ow.
    apply bind_Ok_inv in H as (al & H2 & H). apply ok_or_Ok_inv in H2.
    apply bind_Ok_inv in H as (u & _ & H).
    apply bind_Ok_inv in H as (b & H1 & H). apply Ok_inj, pair_equal_spec in H as [<- _].
    cbn [cw_minter cw_supply cw_balances cw_allowances].
    pose proof (cw_move_spec _ _ _ _ _ a H1) as Hb.
    split; [intros E _; exact E |]. split; [destruct (bytes_eqb a (i_sender i)); lia |].
    split; [intros _; destruct (bytes_eqb a (i_sender i)); reflexivity |].
    intros U _.
    assert (No : bytes_eqb a owner = false).
    { destruct (bytes_eqb a owner) eqn:E; [| reflexivity]. apply bytes_eqb_eq in E. subst owner. rewrite U in H2. discriminate. }
    split.
    + intros sp. cbn [cw_allowances]. rewrite om_get_set, pair_keqb, No. apply U.
    + rewrite No in Hb. repeat match goal with |- context [bytes_eqb a ?z] => destruct (bytes_eqb a z) end; lia.
  - (* burn *)
    apply bind_Ok_inv in H as (b & H1 & H). apply bind_Ok_inv in H as (u & H2 & H).
    apply ensure_Ok_inv, N.leb_le in H2. apply Ok_inj, pair_equal_spec in H as [<- _].
    cbn [cw_minter cw_supply cw_balances cw_allowances].
    pose proof (cw_debit_spec _ _ _ _ a H1).
    split; [intros E _; exact E |]. split; [destruct (bytes_eqb a (i_sender i)); lia |].
    split; [intros _; destruct (bytes_eqb a (i_sender i)); reflexivity |].
    intros U _. split; [exact U |]. destruct (bytes_eqb a (i_sender i)); lia.
  - (* mint *)
    apply bind_Ok_inv in H as (mt & H1 & H). apply ok_or_Ok_inv in H1.
    apply bind_Ok_inv in H as (u & H2 & H). apply ensure_Ok_inv, bytes_eqb_eq in H2. subst mt.
    apply bind_Ok_inv in H as (u' & _ & H).
    apply bind_Ok_inv in H as (to' & V & H). apply validate_same in V. subst to'.
    apply bind_Ok_inv in H as (b & H3 & H). apply Ok_inj, pair_equal_spec in H as [<- _].
    cbn [cw_minter cw_supply cw_balances cw_allowances].
    pose proof (cw_credit_spec _ _ _ _ a H3).
    split; [intros E _; exact E |]. split; [destruct (bytes_eqb a (i_sender i)); lia |].
    split.
    + intros E. assert (E' : i_sender i = a) by congruence. rewrite E', bytes_eqb_refl. reflexivity.
    + intros U _. split; [exact U |]. repeat match goal with |- context [bytes_eqb a ?z] => destruct (bytes_eqb a z) end; lia.
  - (* allowance *)
    apply bind_Ok_inv in H as (sp & V & H). apply validate_same in V. subst sp.
    apply bind_Ok_inv in H as (u & _ & H). apply bind_Ok_inv in H as (u' & _ & H).
    apply Ok_inj, pair_equal_spec in H as [<- _].
    cbn [cw_minter cw_supply cw_balances cw_allowances].
    split; [intros E _; exact E |]. split; [destruct (bytes_eqb a (i_sender i)); lia |].
    split; [intros _; destruct (bytes_eqb a (i_sender i)); reflexivity |].
    intros U No. destruct (bytes_eqb a (i_sender i)) eqn:E; [discriminate No |].
    split; [| lia]. intros sp. cbn [cw_allowances]. rewrite om_get_set, pair_keqb, E. apply U.
  - (* less of an allowance *)
    apply bind_Ok_inv in H as (sp & V & H). apply validate_same in V. subst sp.
    apply bind_Ok_inv in H as (u & _ & H). apply bind_Ok_inv in H as (al & H1 & H). apply ok_or_Ok_inv in H1.
    apply Ok_inj, pair_equal_spec in H as [<- _].
    cbn [cw_minter cw_supply cw_balances cw_allowances].
    split; [intros E _; exact E |]. split; [destruct (bytes_eqb a (i_sender i)); lia |].
    split; [intros _; destruct (bytes_eqb a (i_sender i)); reflexivity |].
    intros U _. assert (No : bytes_eqb a (i_sender i) = false).
    { destruct (bytes_eqb a (i_sender i)) eqn:E; [| reflexivity]. apply bytes_eqb_eq in E. subst a. rewrite U in H1. discriminate. }
    rewrite No. split; [| lia]. intros sp. cbn [cw_allowances].
    destruct (amount <? al); rewrite ?om_get_set, ?om_get_del, pair_keqb, No; apply U.
  - (* burn from *)
    apply bind_Ok_inv in H as (ow & V & H). apply validate_same in V. subst ow.
    apply bind_Ok_inv in H as (al & H1 & H). apply ok_or_Ok_inv in H1. apply bind_Ok_inv in H as (u & _ & H).
    apply bind_Ok_inv in H as (b & H2 & H). apply bind_Ok_inv in H as (u' & H3 & H).
    apply ensure_Ok_inv, N.leb_le in H3. apply Ok_inj, pair_equal_spec in H as [<- _].
    cbn [cw_minter cw_supply cw_balances cw_allowances].
    pose proof (cw_debit_spec _ _ _ _ a H2) as Hb.
    split; [intros E _; exact E |]. split; [destruct (bytes_eqb a (i_sender i)); lia |].
    split; [intros _; destruct (bytes_eqb a (i_sender i)); reflexivity |].
    intros U _.
    assert (No : bytes_eqb a owner = false).
    { destruct (bytes_eqb a owner) eqn:E; [| reflexivity]. apply bytes_eqb_eq in E. subst owner. rewrite U in H1. discriminate. }
    split.
    + intros sp. cbn [cw_allowances]. rewrite om_get_set, pair_keqb, No. apply U.
    + rewrite No in Hb. destruct (bytes_eqb a (i_sender i)); lia.
  - (* another minter *)
    apply bind_Ok_inv in H as (mt & H1 & H). apply ok_or_Ok_inv in H1.
    apply bind_Ok_inv in H as (u & H2 & H). apply ensure_Ok_inv, bytes_eqb_eq in H2. subst mt.
    apply bind_Ok_inv in H as (new' & _ & H). apply Ok_inj, pair_equal_spec in H as [<- _].
    cbn [cw_minter cw_supply cw_balances cw_allowances]. split.
    { intros E. assert (E' : i_sender i = a) by congruence. rewrite E', bytes_eqb_refl. discriminate. }
    split; [destruct (bytes_eqb a (i_sender i)); lia |].
    split; [intros _; destruct (bytes_eqb a (i_sender i)); reflexivity |].
    intros U _. split; [exact U |]. destruct (bytes_eqb a (i_sender i)); lia.
Qed.

Lemma cw_ledger A x0 h st a :
  lives A (SCw20 x0) h st ->
  exists x, st = SCw20 x /\
    (cw_minter x0 = Some a -> total (seen_by a h_hand) h = 0 -> cw_minter x = Some a /\
     cw_supply x + total (seen_by a h_burn) h + total (cw_burn_of a) h = cw_supply x0 + total (seen_by a h_mint) h) /\
    (ungranted x0 a -> total (seen_by a h_allow) h = 0 ->
     ungranted x a /\
     bal_in (cw_balances x) a + total (seen_by a h_give) h + total (seen_by a h_burn) h
     = bal_in (cw_balances x0) a + total (cw_gift_of a) h + total (seen_by a (h_take a)) h).
Proof.
  intros L. remember (SCw20 x0) as s0 eqn:E0. induction L as [| h st1 ev st2 r L IH H].
  - exists x0. subst s0. split; [reflexivity |]. split.
    + intros E _. split; [exact E |]. unfold total. cbn [fold_right]. lia.
    + intros U _. split; [exact U |]. unfold total. cbn [fold_right]. lia.
  - destruct IH as (x & -> & Hs & Hb).
    apply cw_apply_inv in H as (e & i & m & Q & x' & -> & H & ->).
    destruct (cw_ledger_step A e i m Q x x' r a H) as (M & S1 & S2 & S3).
    exists x'. split; [reflexivity |]. rewrite !total_app, !total_one. split.
    + intros Ha Z. destruct (Hs Ha) as [Hm Hs']; [lia |]. split; [apply M; [exact Hm | lia] |]. rewrite S2 in S1 by exact Hm. lia.
    + intros U Z. destruct (Hb U) as [U1 B1]; [lia |]. destruct (S3 U1) as [U2 B2]; [lia |]. split; [exact U2 | lia].
Qed.

Lemma cw_born_ledger A mt init x a :
  cw_instantiate A mt init = Ok x ->
  cw_minter x = mt /\ ungranted x a /\ bal_in (cw_balances x) a = initial_of a (ICw20 mt init) /\
  cw_supply x = initial_sum (ICw20 mt init).
Proof.
  unfold cw_instantiate. intros H. apply bind_Ok_inv in H as (b & H1 & H). apply bind_Ok_inv in H as (u & _ & H).
  apply Ok_inj in H. subst x. cbn [cw_minter cw_balances cw_supply]. split; [reflexivity |].
  split; [intros sp; reflexivity |]. split; [| reflexivity]. cbn [initial_of].
  change (total (fun p : addr * N => if bytes_eqb a (fst p) then snd p else 0) init)
    with (bal_in [] a + total (fun p : addr * N => if bytes_eqb a (fst p) then snd p else 0) init).
  revert H1. generalize ([] : omap addr N) as b0. induction init as [| [a1 n1] init IH]; intros b0 H1.
  - cbn [foldM] in H1. apply Ok_inj in H1. subst b. unfold total. cbn [fold_right]. lia.
  - cbn [foldM] in H1. apply bind_Ok_inv in H1 as (b1 & H2 & H1). apply IH in H1. rewrite H1. clear H1 IH.
    apply bind_Ok_inv in H2 as (a' & V & H2). apply validate_same in V. cbn [fst snd] in *. subst a'.
    apply bind_Ok_inv in H2 as (u' & _ & H2). destruct (om_get a1 b0) eqn:G; [discriminate H2 |].
    apply Ok_inj in H2. subst b1. unfold total at 2. cbn [fold_right fst snd]. fold (@total (addr * N)).
    unfold bal_in. rewrite om_get_set, keqb_bytes. destruct (bytes_eqb a a1) eqn:E.
    + apply bytes_eqb_eq in E. subst a1. rewrite G. unfold total. lia.
    + unfold total. destruct (om_get a b0); lia.
Qed.

Lemma cw_contract C w tk tst :
  reachable C w -> contract_at w tk tst -> is_cw20 tst ->
  exists e i q mt ini r x0 x, births_at tk (w_log w) = [(e, i, q, ICw20 mt ini, r)] /\
    cw_instantiate (ch_api C) mt ini = Ok x0 /\ tst = SCw20 x /\
    lives (ch_api C) (SCw20 x0) (answers_at tk (w_log w)) (SCw20 x).
Proof.
  intros Hr Hc Hk. destruct (contract_known C w tk tst Hr Hc) as (e & i & q & m & r & st0 & B & _ & Hi & L).
  pose proof (lives_kind _ _ _ _ L) as K. destruct tst as [ | | | | | | | | | | | | | | | | |x]; try contradiction Hk.
  destruct st0 as [ | | | | | | | | | | | | | | | | |x0]; try discriminate K.
  assert (exists mt ini, m = ICw20 mt ini /\ cw_instantiate (ch_api C) mt ini = Ok x0) as (mt & ini & -> & Hi').
  { unfold c_instantiate, lift in Hi. destruct m; try (exfalso; inv_all; discriminate).
    apply bind_Ok_inv in Hi as (u & _ & Hi). apply bind_Ok_inv in Hi as (y & Hy & Hi).
    apply Ok_inj, pair_equal_spec in Hi as [Hi _]. injection Hi as <-. eauto. }
  exists e, i, q, mt, ini, r, x0, x. auto.
Qed.

(** ** Custody and supply for cw20 routes *)
Lemma total_zero {X} (f : X -> N) l : Forall (fun x => f x = 0) l -> total f l = 0.
Proof. intros H. unfold total. induction H as [| x l E H IH]; [reflexivity |]. cbn [fold_right]. lia. Qed.

Lemma cw_collateral_balance C w a st tk tst :
  chain_ok C -> reachable C w ->
  contract_at w a st -> is_warp_cw20 st -> reported_mode st = Some Collateral -> reported_token st = Some tk ->
  contract_at w tk tst -> is_cw20 tst ->
  cw_holding tst a + received_all a (w_log w)
  = cw_start a tk (w_log w) + cw_gifts a tk (w_log w) + sent_all a (w_log w).
Proof.
  intros HC Hr Hc Hn Hm Ht Hc' Hk'.
  destruct (cw_route C w a st tk HC Hr Hc Hn Ht) as [F B]. rewrite Hm in F, B.
  destruct (cw_contract C w tk tst Hr Hc' Hk') as (e & i & q & mt & ini & r & x0 & x & B' & Hi & -> & L).
  destruct (cw_ledger _ _ _ _ a L) as (x' & E & _ & G). injection E as <-.
  destruct (cw_born_ledger _ _ _ _ a Hi) as (_ & U & I1 & _).
  assert (S : forall h, total (seen_by a h) (answers_at tk (w_log w)) =
    total (fun p => summ (to_cw tk h) (asks p)) (answers_at a (w_log w))).
  { intros h. rewrite (calls_to_token C w a st tk h HC Hr Hc), B. reflexivity. }
  rewrite !S in G.
  rewrite (total_zero (fun p => summ (to_cw tk h_allow) (asks p))) in G
    by (eapply Forall_impl; [| exact F]; intros p (_ & _ & _ & X); exact X).
  rewrite (total_zero (fun p => summ (to_cw tk h_burn) (asks p))) in G
    by (eapply Forall_impl; [| exact F]; intros p (_ & _ & X & _); exact X).
  rewrite (total_Forall (fun p => summ (to_cw tk h_give) (asks p)) got_n) in G
    by (eapply Forall_impl; [| exact F]; intros p (X & _); exact X).
  rewrite (total_Forall (fun p => summ (to_cw tk (h_take a)) (asks p)) sent_n) in G
    by (eapply Forall_impl; [| exact F]; intros p (_ & X & _); exact X).
  destruct (G U eq_refl) as [_ G']. destruct (route_sums a (w_log w)) as [R1 R2]. rewrite R1, R2.
  rewrite cw_query_holding. unfold cw_start. rewrite B', total_one. cbn [birth_msg fst snd]. unfold cw_gifts.
  change (cw_balance x a) with (bal_in (cw_balances x) a). lia.
Qed.

Lemma cw_bridged_books C w a st tk :
  chain_ok C -> reachable C w ->
  contract_at w a st -> is_warp_cw20 st -> reported_mode st = Some Bridged -> reported_token st = Some tk ->
  exists tst, contract_at w tk tst /\ is_cw20 tst /\
  (exists x, tst = SCw20 x /\ cw_minter x = Some a) /\
  cw_total tst + cw_burns a tk (w_log w) + sent_all a (w_log w) = cw_start_all tk (w_log w) + received_all a (w_log w).
Proof.
  intros HC Hr Hc Hn Hm Ht.
  destruct (cw_route C w a st tk HC Hr Hc Hn Ht) as [F B]. rewrite Hm in F, B.
  destruct B as [(e & i & q & ini & r & B') (ini' & B)].
  assert (exists tst, contract_at w tk tst /\ is_cw20 tst) as (tst & Hc' & Hk').
  { pose proof (known_reachable C w tk Hr) as K. unfold known in K. unfold contract_at.
    destruct (om_get (tk : addr) (w_inst w)) as [[tst | ] |].
    - destruct K as (e2 & i2 & q2 & m2 & r2 & st2 & K & _ & Hi & L). exists tst. split; [reflexivity |].
      rewrite B' in K. injection K as <- <- <- <- <-.
      unfold c_instantiate in Hi. apply bind_Ok_inv in Hi as (u & _ & Hi). apply bind_Ok_inv in Hi as (y & _ & Hi).
      apply Ok_inj, pair_equal_spec in Hi as [<- _]. pose proof (lives_kind _ _ _ _ L) as Kd.
      destruct tst; try discriminate Kd. exact I.
    - rewrite B' in K. discriminate K.
    - destruct K as [K _]. rewrite B' in K. discriminate K. }
  exists tst. split; [exact Hc' |]. split; [exact Hk' |].
  destruct (cw_contract C w tk tst Hr Hc' Hk') as (e1 & i1 & q1 & mt & ini1 & r1 & x0 & x & B1 & Hi & -> & L).
  rewrite B' in B1. injection B1 as <- <- <- <- <- <-.
  destruct (cw_ledger _ _ _ _ a L) as (x' & E & G & _). injection E as <-.
  destruct (cw_born_ledger _ _ _ _ a Hi) as (M & _ & _ & I1). specialize (G M).
  assert (S : forall h, total (seen_by a h) (answers_at tk (w_log w)) =
    total (fun p => summ (to_cw tk h) (asks p)) (answers_at a (w_log w))).
  { intros h. rewrite (calls_to_token C w a st tk h HC Hr Hc), B. reflexivity. }
  rewrite !S in G.
  rewrite (total_Forall (fun p => summ (to_cw tk h_mint) (asks p)) got_n) in G
    by (eapply Forall_impl; [| exact F]; intros p (X & _); exact X).
  rewrite (total_Forall (fun p => summ (to_cw tk h_burn) (asks p)) sent_n) in G
    by (eapply Forall_impl; [| exact F]; intros p (_ & X & _); exact X).
  rewrite (total_zero (fun p => summ (to_cw tk h_hand) (asks p))) in G
    by (eapply Forall_impl; [| exact F]; intros p (_ & _ & X); exact X).
  destruct (G eq_refl) as [Mt G']. split; [exists x; auto |].
  destruct (route_sums a (w_log w)) as [R1 R2]. rewrite R1, R2.
  rewrite cw_query_total. unfold cw_start_all. rewrite B', total_one. cbn [birth_msg fst snd]. unfold cw_burns. lia.
Qed.

Lemma cw_bridged_supply C w a st tk :
  chain_ok C -> reachable C w ->
  contract_at w a st -> is_warp_cw20 st -> reported_mode st = Some Bridged -> reported_token st = Some tk ->
  exists tst, contract_at w tk tst /\ is_cw20 tst /\
  cw_total tst + cw_burns a tk (w_log w) + sent_all a (w_log w) = cw_start_all tk (w_log w) + received_all a (w_log w).
Proof.
  intros HC Hr Hc Hn Hm Ht. destruct (cw_bridged_books C w a st tk HC Hr Hc Hn Hm Ht) as (tst & H1 & H2 & _ & H3). eauto.
Qed.

Lemma route_alone_mints C w a st tk A Q e i m tst p :
  chain_ok C -> reachable C w ->
  contract_at w a st -> is_warp_cw20 st -> reported_mode st = Some Bridged -> reported_token st = Some tk ->
  contract_at w tk tst ->
  match m with MCw20Mint _ _ | MCw20UpdateMinter _ => True | _ => False end ->
  c_execute A Q e i m tst = Ok p -> i_sender i = a.
Proof.
  intros HC Hr Hc Hn Hm Ht Htk Hmint H.
  destruct (cw_bridged_books C w a st tk HC Hr Hc Hn Hm Ht) as (tst' & Htk' & _ & (x & -> & Hx) & _).
  unfold contract_at in Htk, Htk'. rewrite Htk in Htk'. injection Htk' as ->.
  unfold c_execute, lift in H. apply bind_Ok_inv in H as (u & _ & H). apply bind_Ok_inv in H as (q & H & _).
  destruct m; try contradiction Hmint; cbn [cw_execute] in H; rewrite Hx in H; cbn [ok_or bind] in H;
    apply bind_Ok_inv in H as (v & H & _); apply ensure_Ok_inv, bytes_eqb_eq in H; symmetry; exact H.
Qed.

(** ** Both kinds at once *)
Lemma custody_law S held base : chain_ok (sd_chain S) -> reachable (sd_chain S) (sd_world S) -> custody S held base ->
  held + received_all (sd_route S) (sd_log S) = base + sent_all (sd_route S) (sd_log S).
Proof.
  intros HC Hr H. destruct H as [bank l st tk Hs Hw Hc Hn Hm Ht | st tk tst Hc Hn Hm Ht Hc' Hk'].
  - exact (native_collateral_balance _ _ _ _ _ _ _ HC Hs Hw Hc Hn Hm Ht).
  - exact (cw_collateral_balance _ _ _ _ _ _ HC Hr Hc Hn Hm Ht Hc' Hk').
Qed.
Lemma issued_law S out base : chain_ok (sd_chain S) -> reachable (sd_chain S) (sd_world S) -> issued S out base ->
  out + sent_all (sd_route S) (sd_log S) = base + received_all (sd_route S) (sd_log S).
Proof.
  intros HC Hr H. destruct H as [bank l st tk Hs Hw Hc Hn Hm Ht | st tk tst Hc Hn Hm Ht Hc'].
  - exact (native_bridged_supply _ _ _ _ _ _ _ HC Hs Hw Hc Hn Hm Ht).
  - destruct (cw_bridged_supply _ _ _ _ _ HC Hr Hc Hn Hm Ht) as (tst' & Hc2 & _ & E).
    assert (tst' = tst) by (unfold contract_at in Hc', Hc2; congruence). subst tst'. exact E.
Qed.


(** every route with a token falls under one of the laws *)
Lemma route_covered S st tk :
  side_ok S -> contract_at (sd_world S) (sd_route S) st -> reported_token st = Some tk ->
  (is_warp_cw20 st -> reported_mode st = Some Collateral ->
   exists tst, contract_at (sd_world S) tk tst /\ is_cw20 tst) ->
  (exists held base, custody S held base) \/ (exists out base, issued S out base).
Proof.
  intros (HC & Hr & _ & (st' & Hc & Hk & _) & _) Hc' Ht Hcol.
  assert (st' = st) by (unfold contract_at in *; congruence). subst st'.
  destruct Hr as (bank & l & Hs & Hw). assert (Hr : reachable (sd_chain S) (sd_world S)) by (exists bank, l; auto).
  destruct (reported_mode st) as [[] |] eqn:Hm.
  - right. destruct st as [ | | | | | | | | | | | | | | |x|x|] eqn:Es; try contradiction Hk.
    + eexists _, _. eapply (issued_native S bank l _ tk); eauto; exact I.
    + destruct (cw_bridged_supply _ _ _ _ tk HC Hr Hc I Hm Ht) as (tst & H1 & _).
      eexists _, _. eapply (issued_cw20 S _ tk tst); eauto; exact I.
  - left. destruct st as [ | | | | | | | | | | | | | | |x|x|] eqn:Es; try contradiction Hk.
    + eexists _, _. eapply (custody_native S bank l _ tk); eauto; exact I.
    + destruct (Hcol I eq_refl) as (tst & H1 & H2).
      eexists _, _. eapply (custody_cw20 S _ tk tst); eauto; exact I.
  - exfalso. destruct st; try contradiction Hk; discriminate Hm.
Qed.

(** ** Two routes with no other peers *)
Lemma only_peer_sums S T : side_ok S -> only_peer S T ->
  sent_all (sd_route S) (sd_log S) = sent_to (sd_route S) (sd_domain T) (sd_log S) /\
  received_all (sd_route S) (sd_log S) = received_from (sd_route S) (sd_domain T) (sd_log S).
Proof.
  intros (HC & Hr & _ & (st & Hc & Hk & Hm) & _) Ho. unfold sd_log in *.
  destruct (route_life _ _ _ _ _ Hr Hc Hk Hm) as (e & i & q & m & r & st0 & B & He & Hi & Hk0 & Hm0 & L).
  destruct (lives_transfers _ _ _ _ _ _ _ _ _ _ Hi Hk0 Hm0 L) as (_ & _ & F & G). split.
  - unfold sent_all, sent_to. apply total_ext. intros t Hin.
    destruct (Forall2_in_left _ _ _ _ F Hin) as (p & _ & (_ & E1 & _ & _ & ru & U1 & U2 & U3)).
    rewrite <- E1, <- U2, (Ho ru _ U1 U3), N.eqb_refl. reflexivity.
  - unfold received_all, received_from. apply total_ext. intros [o bd] Hin. cbn [fst snd].
    unfold arrivals_at in Hin. apply in_flat_map in Hin as ([ev r'] & P1 & P2). rewrite Forall_forall in G.
    specialize (G _ P1). destruct ev as [e' i' m' Q | id rr]; [| contradiction P2].
    destruct m'; try contradiction P2. destruct P2 as [P2 | []]. injection P2 as -> ->.
    destruct G as (_ & _ & ru & U1 & U2 & U3). rewrite <- U2, (Ho ru _ U1 U3), N.eqb_refl. reflexivity.
Qed.

Lemma linked_sums S T : linked S T ->
  sent_all (sd_route S) (sd_log S) = received_all (sd_route T) (sd_log T) + in_flight S T /\
  sent_all (sd_route T) (sd_log T) = received_all (sd_route S) (sd_log S) + in_flight T S.
Proof.
  intros (HS & HT & E1 & E2 & O1 & O2 & H1 & H2 & P1 & P2).
  destruct (only_peer_sums S T HS O1) as [-> ->]. destruct (only_peer_sums T S HT O2) as [-> ->]. split.
  - exact (bridge_amounts S T HS HT E1 E2 H1 P1).
  - exact (bridge_amounts T S HT HS E2 E1 H2 P2).
Qed.

Lemma linked_locked_issued S T held base out base' :
  linked S T -> custody S held base -> issued T out base' ->
  held + base' = base + out + in_flight S T + in_flight T S.
Proof.
  intros HL Hc Hi. destruct (linked_sums S T HL) as [X1 X2]. destruct HL as ((HC & Hr & _) & (HC' & Hr' & _) & _).
  pose proof (custody_law S _ _ HC Hr Hc). pose proof (issued_law T _ _ HC' Hr' Hi). lia.
Qed.
Lemma linked_locked_locked S T held base held' base' :
  linked S T -> custody S held base -> custody T held' base' ->
  held + held' = base + base' + in_flight S T + in_flight T S.
Proof.
  intros HL Hc Hi. destruct (linked_sums S T HL) as [X1 X2]. destruct HL as ((HC & Hr & _) & (HC' & Hr' & _) & _).
  pose proof (custody_law S _ _ HC Hr Hc). pose proof (custody_law T _ _ HC' Hr' Hi). lia.
Qed.
Lemma linked_issued_issued S T out base out' base' :
  linked S T -> issued S out base -> issued T out' base' ->
  out + out' + in_flight S T + in_flight T S = base + base'.
Proof.
  intros HL Hc Hi. destruct (linked_sums S T HL) as [X1 X2]. destruct HL as ((HC & Hr & _) & (HC' & Hr' & _) & _).
  pose proof (issued_law S _ _ HC Hr Hc). pose proof (issued_law T _ _ HC' Hr' Hi). lia.
Qed.
