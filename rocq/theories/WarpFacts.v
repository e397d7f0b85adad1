(** * Warp routes. *)
From Coq Require Import List NArith Lia Bool.
From Verif Require Import Base BaseFacts OMap Coins CoinsFacts Crypto Message CodecFacts Bech32 Chain Ownable Router
  Mailbox Va Isms Hooks Igp Warp Cw20 Contracts Spec SpecModules StepFacts AccessFacts MailboxConfFacts MailboxFacts
  IsmFacts HookFacts.
Import ListNotations.

Lemma warp_body body w :
  warp_decode body = Ok w <->
  exists tail, body = w_recipient w ++ be 32 (w_amount w) ++ tail /\ length (w_recipient w) = 32%nat /\
    w_amount w < u256_max /\ w_metadata w = tail.
Proof.
  split.
  - intros H. apply warp_decode_Ok_inv in H as (_ & [W1 W2] & <-). exists (w_metadata w). auto.
  - intros (tail & -> & H1 & H2 & <-). change (w_recipient w ++ be 32 (w_amount w) ++ w_metadata w) with (warp_encode w).
    apply warp_decode_encode. split; assumption.
Qed.

Lemma to_uint128_iff n m : to_uint128 n = Ok m <-> n < u128_max /\ m = n.
Proof.
  unfold to_uint128. destruct (n <? u128_max) eqn:E; split.
  - intros H. apply Ok_inj in H. apply (proj1 (N.ltb_lt _ _)) in E. auto.
  - now intros [_ ->].
  - discriminate.
  - intros [H _]. rewrite (proj2 (N.ltb_lt _ _) H) in E. discriminate.
Qed.

Lemma check_handle_iff i origin sender body x w :
  wp_check_handle i origin sender body x = Ok w <->
  i_sender i = wp_mailbox x /\ rs_route (get_route (wp_routes x) origin) = Some sender /\ warp_decode body = Ok w.
Proof.
  unfold wp_check_handle. split.
  - intros H. apply bind_Ok_inv in H as (u & H1 & H). apply ensure_Ok_inv, bytes_eqb_eq in H1.
    apply bind_Ok_inv in H as (r & H2 & H). apply expect_Ok_inv in H2.
    apply bind_Ok_inv in H as (u' & H3 & H). apply ensure_Ok_inv, bytes_eqb_eq in H3. now subst r.
  - intros (H1 & H2 & H3). rewrite H1, bytes_eqb_refl. cbn [ensure bind]. rewrite H2. cbn [expect bind].
    rewrite bytes_eqb_refl. exact H3.
Qed.

Lemma handled st x i origin sender body (F : str -> str -> N -> res (cstate * response)) st' r :
  (st = SWarpNative x \/ st = SWarpCw20 x) -> origin < u32_max ->
  ((exists w recipient token amount, wp_check_handle i origin sender body x = Ok w /\
     bech32_encode (wp_hrp x) (w_recipient w) = Ok recipient /\ wp_token x = Some token /\
     to_uint128 (w_amount w) = Ok amount /\ F recipient token amount = Ok (st', r)) <->
   (exists recipient amount token, warp_delivery st i origin sender body recipient amount /\
     reported_token st = Some token /\ F recipient token amount = Ok (st', r))).
Proof.
  intros Hst Ho.
  assert (E1 : reported_route st origin = Some (rs_route (get_route (wp_routes x) origin)))
    by (rewrite reported_route_of by exact Ho; destruct Hst as [-> | ->]; reflexivity).
  assert (E2 : reported_token st = wp_token x)
    by (destruct Hst as [-> | ->]; unfold reported_token, c_query; cbn [qmsg_ok ensure bind wn_query wc_query wp_query];
        destruct (wp_token x); reflexivity).
  assert (E3 : warp_mailbox st = Some (wp_mailbox x)) by (destruct Hst as [-> | ->]; reflexivity).
  assert (E4 : warp_hrp st = wp_hrp x) by (destruct Hst as [-> | ->]; reflexivity).
  unfold warp_delivery. rewrite E1, E2, E3, E4. split.
  - intros (w & recipient & token & amount & H1 & H2 & H3 & H4 & H5).
    apply check_handle_iff in H1 as (M1 & M2 & M3). apply warp_body in M3 as (tail & M3 & M4 & M5 & _).
    apply to_uint128_iff in H4 as [H4 ->]. exists recipient, (w_amount w), token.
    split; [|auto]. split; [exact Ho|]. split; [now rewrite M1|]. split; [now rewrite M2|].
    split; [exact H4|]. exists (w_recipient w), tail. auto.
  - intros (recipient & amount & token & (_ & M1 & M2 & M3 & rcp & tail & M4 & M5 & M6) & H3 & H5).
    apply Some_inj in M1, M2. exists (mkWarp rcp amount tail), recipient, token, amount.
    split; [apply check_handle_iff; split; [now symmetry|]; split; [exact M2|]|].
    + apply warp_body. exists tail. cbn [w_recipient w_amount w_metadata]. split; [exact M4|]. split; [exact M5|].
      split; [|reflexivity]. eapply N.lt_trans; [exact M3|]. reflexivity.
    + cbn [w_recipient w_amount]. split; [exact M6|]. split; [exact H3|]. split; [|exact H5].
      apply to_uint128_iff. auto.
Qed.

Lemma native_delivery A Q e i origin sender body st st' r :
  is_warp_native st ->
  (c_execute A Q e i (MHandle origin sender body) st = Ok (st', r) <->
   exists recipient amount token, warp_delivery st i origin sender body recipient amount /\
     reported_token st = Some token /\ st' = st /\
     r = plain ((if mode_eqb (reported_mode st) Bridged then [CMint (e_contract e) amount token] else [])
                ++ [CBankSend recipient [mkCoin token amount]])).
Proof.
  intros Hk. destruct st as [ | | | | | | | | | | | | | | |x| |]; try contradiction Hk.
  change (reported_mode (SWarpNative x)) with (Some (wp_mode x)).
  set (F := fun recipient token amount =>
    Ok (SWarpNative x, plain ((if mode_eqb (Some (wp_mode x)) Bridged then [CMint (e_contract e) amount token] else [])
                ++ [CBankSend recipient [mkCoin token amount]])) : res (cstate * response)).
  assert (G : c_execute A Q e i (MHandle origin sender body) (SWarpNative x) = Ok (st', r) <->
    origin < u32_max /\
    exists w recipient token amount, wp_check_handle i origin sender body x = Ok w /\
     bech32_encode (wp_hrp x) (w_recipient w) = Ok recipient /\ wp_token x = Some token /\
     to_uint128 (w_amount w) = Ok amount /\ F recipient token amount = Ok (st', r)).
  { unfold c_execute, lift. cbn [emsg_ok wn_execute]. unfold wn_handle, u32_ok. split.
    - intros H. apply bind_Ok_inv in H as (u & H0 & H). apply ensure_Ok_inv in H0. apply (proj1 (N.ltb_lt _ _)) in H0.
      apply bind_Ok_inv in H as ([x' r'] & H & E). apply Ok_inj, pair_equal_spec in E as [<- <-].
      apply bind_Ok_inv in H as (w & H1 & H). apply bind_Ok_inv in H as (rc & H2 & H).
      apply bind_Ok_inv in H as (tk & H3 & H). apply ok_or_Ok_inv in H3.
      apply bind_Ok_inv in H as (am & H4 & H). apply Ok_inj, pair_equal_spec in H as [<- <-].
      split; [exact H0|]. exists w, rc, tk, am. repeat match goal with |- _ /\ _ => split end; try assumption.
      apply to_uint128_iff in H4 as [_ ->]. unfold F, plain, resp. cbn [mode_eqb]. destruct (wp_mode x); reflexivity.
    - intros (H0 & w & rc & tk & am & H1 & H2 & H3 & H4 & H5).
      rewrite (proj2 (N.ltb_lt _ _) H0 : (_ <? u32_max) = true). cbn [ensure bind].
      rewrite H1. cbn [bind]. rewrite H2. cbn [bind]. rewrite H3. cbn [ok_or bind]. rewrite H4. cbn [bind].
      apply to_uint128_iff in H4 as [_ ->]. unfold F, plain in H5. apply Ok_inj, pair_equal_spec in H5 as [<- <-].
      unfold resp. destruct (wp_mode x); reflexivity. }
  rewrite G. split.
  - intros [H0 H]. apply (handled (SWarpNative x) x i origin sender body F st' r (or_introl eq_refl) H0) in H as (rc & am & tk & H1 & H2 & H3).
    exists rc, am, tk. unfold F in H3. apply Ok_inj, pair_equal_spec in H3 as [<- <-]. auto.
  - intros (rc & am & tk & H1 & H2 & -> & ->). pose proof H1 as [H0 _]. split; [exact H0|].
    apply (handled (SWarpNative x) x i origin sender body F _ _ (or_introl eq_refl) H0). exists rc, am, tk. auto.
Qed.

Lemma cw20_delivery A Q e i origin sender body st st' r :
  is_warp_cw20 st ->
  (c_execute A Q e i (MHandle origin sender body) st = Ok (st', r) <->
   exists recipient amount token, warp_delivery st i origin sender body recipient amount /\
     reported_token st = Some token /\ st' = st /\
     r = plain [CExec token (if mode_eqb (reported_mode st) Bridged then MCw20Mint recipient amount
                             else MCw20Transfer recipient amount) []]).
Proof.
  intros Hk. destruct st as [ | | | | | | | | | | | | | | | |x|]; try contradiction Hk.
  change (reported_mode (SWarpCw20 x)) with (Some (wp_mode x)).
  set (F := fun recipient token amount =>
    Ok (SWarpCw20 x, plain [CExec token (if mode_eqb (Some (wp_mode x)) Bridged then MCw20Mint recipient amount
                             else MCw20Transfer recipient amount) []]) : res (cstate * response)).
  assert (G : c_execute A Q e i (MHandle origin sender body) (SWarpCw20 x) = Ok (st', r) <->
    origin < u32_max /\
    exists w recipient token amount, wp_check_handle i origin sender body x = Ok w /\
     bech32_encode (wp_hrp x) (w_recipient w) = Ok recipient /\ wp_token x = Some token /\
     to_uint128 (w_amount w) = Ok amount /\ F recipient token amount = Ok (st', r)).
  { unfold c_execute, lift. cbn [emsg_ok wc_execute]. unfold wc_handle, u32_ok. split.
    - intros H. apply bind_Ok_inv in H as (u & H0 & H). apply ensure_Ok_inv in H0. apply (proj1 (N.ltb_lt _ _)) in H0.
      apply bind_Ok_inv in H as ([x' r'] & H & E). apply Ok_inj, pair_equal_spec in E as [<- <-].
      apply bind_Ok_inv in H as (w & H1 & H). apply bind_Ok_inv in H as (rc & H2 & H).
      apply bind_Ok_inv in H as (tk & H3 & H). apply ok_or_Ok_inv in H3.
      apply bind_Ok_inv in H as (am & H4 & H). apply Ok_inj, pair_equal_spec in H as [<- <-].
      split; [exact H0|]. exists w, rc, tk, am. repeat match goal with |- _ /\ _ => split end; try assumption.
      unfold F, plain, resp. cbn [mode_eqb]. destruct (wp_mode x); reflexivity.
    - intros (H0 & w & rc & tk & am & H1 & H2 & H3 & H4 & H5).
      rewrite (proj2 (N.ltb_lt _ _) H0 : (_ <? u32_max) = true). cbn [ensure bind].
      rewrite H1. cbn [bind]. rewrite H2. cbn [bind]. rewrite H3. cbn [ok_or bind]. rewrite H4. cbn [bind].
      unfold F, plain in H5. apply Ok_inj, pair_equal_spec in H5 as [<- <-].
      unfold resp. destruct (wp_mode x); reflexivity. }
  rewrite G. split.
  - intros [H0 H]. apply (handled (SWarpCw20 x) x i origin sender body F st' r (or_intror eq_refl) H0) in H as (rc & am & tk & H1 & H2 & H3).
    exists rc, am, tk. unfold F in H3. apply Ok_inj, pair_equal_spec in H3 as [<- <-]. auto.
  - intros (rc & am & tk & H1 & H2 & -> & ->). pose proof H1 as [H0 _]. split; [exact H0|].
    apply (handled (SWarpCw20 x) x i origin sender body F _ _ (or_intror eq_refl) H0). exists rc, am, tk. auto.
Qed.

(** ** Remote transfers *)
Lemma take_token_iff token amount funds rest :
  take_token token amount funds = Ok rest <-> taken token amount funds rest.
Proof.
  unfold taken. revert rest. induction funds as [|c l IH]; intros rest; cbn [take_token].
  - split; [discriminate|]. intros (pre & a & post & H & _). destruct pre; discriminate.
  - destruct (bytes_eqb (c_denom c) token) eqn:E.
    + apply bytes_eqb_eq in E. destruct c as [cd ca]. cbn [c_denom c_amount] in *. subst cd. split.
      * destruct (amount <=? ca) eqn:El; [|discriminate]. intros H. apply Ok_inj in H. subst rest.
        apply N.leb_le in El. exists [], ca, l. split; [reflexivity|]. split; [constructor|]. split; [exact El|reflexivity].
      * intros (pre & a & post & H & Hp & Ha & ->). destruct pre as [|c pre].
        -- cbn [app] in H. injection H as -> ->. rewrite (proj2 (N.leb_le _ _) Ha). reflexivity.
        -- cbn [app] in H. injection H as <- ->. apply Forall_inv in Hp. cbn [c_denom] in Hp. congruence.
    + apply bytes_eqb_neq in E. split.
      * intros H. apply bind_Ok_inv in H as (r & H1 & H). apply Ok_inj in H. subst rest.
        apply IH in H1 as (pre & a & post & -> & Hp & Ha & ->).
        exists (c :: pre), a, post. split; [reflexivity|]. split; [now constructor|]. split; [exact Ha|reflexivity].
      * intros (pre & a & post & H & Hp & Ha & ->). destruct pre as [|c' pre].
        -- cbn [app] in H. injection H as -> ->. cbn [c_denom] in E. congruence.
        -- cbn [app] in H. injection H as <- ->. apply Forall_inv_tail in Hp.
           rewrite (proj2 (IH (pre ++ mkCoin token (a - amount) :: post))) by (exists pre, a, post; auto). reflexivity.
Qed.

Lemma taken_amounts token amount funds rest x :
  taken token amount funds rest ->
  amount_of x funds = (if bytes_eqb x token then amount else 0) + amount_of x rest.
Proof.
  intros (pre & a & post & -> & _ & Ha & ->). rewrite !amount_of_app, !amount_of_cons. cbn [c_denom c_amount].
  destruct (bytes_eqb x token); lia.
Qed.

Lemma check_hook_iff A hook u : check_hook A hook = Ok u <-> u = tt /\ forall h, hook = Some h -> api_valid A h = true.
Proof.
  unfold check_hook. destruct hook as [h|].
  - unfold addr_validate. destruct (api_valid A h) eqn:E; cbn [bind].
    + split; [intros H; apply Ok_inj in H; split; [now symmetry|]; intros h' Hh; apply Some_inj in Hh; now subst|].
      now intros [-> _].
    + split; [discriminate|]. intros [_ H]. rewrite (H h eq_refl) in E. discriminate.
  - split; [intros H; apply Ok_inj in H; split; [now symmetry|discriminate]|now intros [-> _]].
Qed.

Lemma conn_hook_of x : reported_conn_hook (SWarpNative x) = cn_hook (wp_conn x) /\
                       reported_conn_hook (SWarpCw20 x) = cn_hook (wp_conn x).
Proof. split; reflexivity. Qed.

Lemma wtoken_of x : reported_token (SWarpNative x) = wp_token x /\ reported_token (SWarpCw20 x) = wp_token x.
Proof.
  split; unfold reported_token, c_query; cbn [qmsg_ok ensure bind wn_query wc_query wp_query];
    destruct (wp_token x); reflexivity.
Qed.

Lemma payload_bytes rcp amount : warp_encode (mkWarp rcp amount []) = rcp ++ be 32 amount.
Proof. unfold warp_encode. cbn [w_recipient w_amount w_metadata]. rewrite app_nil_r. reflexivity. Qed.

Lemma native_transfer A Q e i d rcp amount hook md st st' r :
  is_warp_native st ->
  (c_execute A Q e i (MTransferRemote d rcp amount hook md) st = Ok (st', r) <->
   d < 2 ^ 32 /\ amount < 2 ^ 128 /\ (forall h, hook = Some h -> api_valid A h = true) /\ st' = st /\
   exists token router mailbox rest,
     reported_token st = Some token /\ reported_route st d = Some (Some router) /\ warp_mailbox st = Some mailbox /\
     taken token amount (i_funds i) rest /\
     r = plain ((if mode_eqb (reported_mode st) Bridged then [CBurn (e_contract e) amount token] else [])
                ++ [transfer_dispatch st mailbox d router rcp amount hook md rest])).
Proof.
  intros Hk. destruct st as [ | | | | | | | | | | | | | | |x| |]; try contradiction Hk.
  change (reported_mode (SWarpNative x)) with (Some (wp_mode x)). rewrite (proj1 (wtoken_of x)).
  cbn [warp_mailbox]. unfold transfer_dispatch. rewrite (proj1 (conn_hook_of x)).
  unfold c_execute, lift. cbn [emsg_ok wn_execute]. unfold wn_transfer_remote, u32_ok, u128_ok. rewrite payload_bytes.
  split.
  - intros H. apply bind_Ok_inv in H as (u & H0 & H). apply ensure_Ok_inv, andb_true_iff in H0 as [H0 H0'].
    apply (proj1 (N.ltb_lt _ _)) in H0. apply (proj1 (N.ltb_lt _ _)) in H0'.
    apply bind_Ok_inv in H as ([x' r'] & H & E). apply Ok_inj, pair_equal_spec in E as [<- <-].
    apply bind_Ok_inv in H as (tk & H1 & H). apply ok_or_Ok_inv in H1.
    apply bind_Ok_inv in H as (rest & H2 & H). apply take_token_iff in H2.
    apply bind_Ok_inv in H as (rt & H3 & H). apply expect_Ok_inv in H3.
    apply bind_Ok_inv in H as (u' & H4 & H). apply check_hook_iff in H4 as [_ H4].
    apply Ok_inj, pair_equal_spec in H as [<- <-].
    split; [exact H0|]. split; [exact H0'|]. split; [exact H4|]. split; [reflexivity|].
    exists tk, rt, (wp_mailbox x), rest. split; [exact H1|].
    split; [rewrite reported_route_of by exact H0; cbn [routes_of option_map]; now rewrite H3|].
    split; [reflexivity|]. split; [exact H2|]. unfold resp, plain. cbn [mode_eqb]. destruct (wp_mode x); reflexivity.
  - intros (H0 & H0' & H4 & -> & tk & rt & mb & rest & H1 & H3 & Hm & H2 & ->). apply Some_inj in Hm. subst mb.
    rewrite (proj2 (N.ltb_lt _ _) H0 : (_ <? u32_max) = true).
    rewrite (proj2 (N.ltb_lt _ _) H0' : (_ <? u128_max) = true). cbn [andb ensure bind].
    rewrite H1. cbn [ok_or bind]. apply take_token_iff in H2. rewrite H2. cbn [bind].
    rewrite reported_route_of in H3 by exact H0. cbn [routes_of option_map] in H3. apply Some_inj in H3.
    rewrite H3. cbn [expect bind]. rewrite (proj2 (check_hook_iff A hook tt) (conj eq_refl H4)). cbn [bind].
    unfold resp, plain. cbn [mode_eqb]. destruct (wp_mode x); reflexivity.
Qed.

Lemma cw20_transfer A Q e i d rcp amount hook md st st' r :
  is_warp_cw20 st ->
  (c_execute A Q e i (MTransferRemote d rcp amount hook md) st = Ok (st', r) <->
   d < 2 ^ 32 /\ amount < 2 ^ 128 /\ (forall h, hook = Some h -> api_valid A h = true) /\ st' = st /\
   exists token router mailbox,
     reported_token st = Some token /\ reported_route st d = Some (Some router) /\ warp_mailbox st = Some mailbox /\
     r = plain (CExec token (MCw20TransferFrom (i_sender i) (e_contract e) amount) []
                :: (if mode_eqb (reported_mode st) Bridged then [CExec token (MCw20Burn amount) []] else [])
                ++ [transfer_dispatch st mailbox d router rcp amount hook md (i_funds i)])).
Proof.
  intros Hk. destruct st as [ | | | | | | | | | | | | | | | |x|]; try contradiction Hk.
  change (reported_mode (SWarpCw20 x)) with (Some (wp_mode x)). rewrite (proj2 (wtoken_of x)).
  cbn [warp_mailbox]. unfold transfer_dispatch. rewrite (proj2 (conn_hook_of x)).
  unfold c_execute, lift. cbn [emsg_ok wc_execute]. unfold wc_transfer_remote, u32_ok, u128_ok. rewrite payload_bytes.
  split.
  - intros H. apply bind_Ok_inv in H as (u & H0 & H). apply ensure_Ok_inv, andb_true_iff in H0 as [H0 H0'].
    apply (proj1 (N.ltb_lt _ _)) in H0. apply (proj1 (N.ltb_lt _ _)) in H0'.
    apply bind_Ok_inv in H as ([x' r'] & H & E). apply Ok_inj, pair_equal_spec in E as [<- <-].
    apply bind_Ok_inv in H as (tk & H1 & H). apply ok_or_Ok_inv in H1.
    apply bind_Ok_inv in H as (rt & H3 & H). apply expect_Ok_inv in H3.
    apply bind_Ok_inv in H as (u' & H4 & H). apply check_hook_iff in H4 as [_ H4].
    apply Ok_inj, pair_equal_spec in H as [<- <-].
    split; [exact H0|]. split; [exact H0'|]. split; [exact H4|]. split; [reflexivity|].
    exists tk, rt, (wp_mailbox x). split; [exact H1|].
    split; [rewrite reported_route_of by exact H0; cbn [routes_of option_map]; now rewrite H3|].
    split; [reflexivity|]. unfold resp, plain. cbn [mode_eqb]. destruct (wp_mode x); reflexivity.
  - intros (H0 & H0' & H4 & -> & tk & rt & mb & H1 & H3 & Hm & ->). apply Some_inj in Hm. subst mb.
    rewrite (proj2 (N.ltb_lt _ _) H0 : (_ <? u32_max) = true).
    rewrite (proj2 (N.ltb_lt _ _) H0' : (_ <? u128_max) = true). cbn [andb ensure bind].
    rewrite H1. cbn [ok_or bind].
    rewrite reported_route_of in H3 by exact H0. cbn [routes_of option_map] in H3. apply Some_inj in H3.
    rewrite H3. cbn [expect bind]. rewrite (proj2 (check_hook_iff A hook tt) (conj eq_refl H4)). cbn [bind].
    unfold resp, plain. cbn [mode_eqb]. destruct (wp_mode x); reflexivity.
Qed.

(** ** Only deliveries give out tokens *)
Lemma common_silent A i m x x' r : wp_common A i m x = Ok (x', r) -> r_msgs r = [].
Proof. intros H. destruct m; try discriminate H; cbn [wp_common] in H; inv_all; reflexivity. Qed.

Lemma gives_only_delivery A st ev st' r sm :
  is_warp st -> c_apply A ev st = Ok (st', r) -> In sm (r_msgs r) -> gives_tokens (sm_msg sm) = true ->
  exists e i origin sender body Q, ev = EvExec e i (MHandle origin sender body) Q.
Proof.
  intros Hk H Hin Hg. destruct ev as [e i m Q|id rr].
  - destruct m; try (eauto 10; fail); exfalso;
      destruct st as [ | | | | | | | | | | | | | | |x|x|]; try contradiction Hk;
      cbn [c_apply] in H; unfold c_execute, lift in H; inv_all;
      cbn [wn_execute wc_execute] in *;
      try match goal with Hc : wp_common _ _ _ _ = Ok _ |- _ => apply common_silent in Hc; rewrite Hc in Hin; contradiction Hin end.
    + unfold wn_transfer_remote in *. inv_all. cbn [r_msgs resp] in Hin. unfold resp in Hin. cbn [r_msgs] in Hin.
      match type of Hin with context [wp_mode ?y] => destruct (wp_mode y) end; cbn [map app] in Hin; repeat (destruct Hin as [<-|Hin]; [discriminate Hg|]); exact Hin.
    + unfold wc_transfer_remote in *. inv_all. unfold resp in Hin. cbn [r_msgs] in Hin.
      match type of Hin with context [wp_mode ?y] => destruct (wp_mode y) end; cbn [map app] in Hin; repeat (destruct Hin as [<-|Hin]; [discriminate Hg|]); exact Hin.
  - exfalso. destruct st as [ | | | | | | | | | | | | | | |x|x|]; try contradiction Hk;
      cbn [c_apply c_reply] in H; unfold lift in H; inv_all; unfold wn_reply, wc_reply in *.
    + destruct rr as [[]| |]; try discriminate; split_matches; inv_all; contradiction Hin.
    + split_matches; inv_all; contradiction Hin.
Qed.

(** ** What never changes *)
Lemma warp_keep A st ev : is_warp st -> is_warp (c_step A st ev).
Proof. revert st ev. keep_kind. Qed.

Lemma warp_fixed_step A st ev :
  is_warp st ->
  warp_mailbox (c_step A st ev) = warp_mailbox st /\ warp_hrp (c_step A st ev) = warp_hrp st /\
  reported_mode (c_step A st ev) = reported_mode st /\
  (ev_msg ev <> None -> reported_token (c_step A st ev) = reported_token st).
Proof.
  intros Hk. destruct (accepted A st ev) eqn:Ea; [|rewrite c_step_rejected by exact Ea; auto].
  apply c_step_accepted in Ea as [r H]. destruct ev as [e i m Q|id rr].
  - destruct st as [ | | | | | | | | | | | | | | |x|x|]; try contradiction Hk; cbn [c_apply] in H;
      unfold c_execute, lift in H; inv_all;
      match goal with Hs : _ = c_step _ _ _ |- _ => rewrite <- Hs end;
      match goal with Hx : _ = Ok (?x', _) |- _ =>
        enough (wp_mailbox x' = wp_mailbox x /\ wp_hrp x' = wp_hrp x /\ wp_mode x' = wp_mode x /\ wp_token x' = wp_token x)
          as (E1 & E2 & E3 & E4);
        [cbn [warp_mailbox warp_hrp]; change (reported_mode (SWarpNative x')) with (Some (wp_mode x'));
         change (reported_mode (SWarpCw20 x')) with (Some (wp_mode x'));
         change (reported_mode (SWarpNative x)) with (Some (wp_mode x));
         change (reported_mode (SWarpCw20 x)) with (Some (wp_mode x));
         rewrite ?(proj1 (wtoken_of _)), ?(proj2 (wtoken_of _)); rewrite E1, E2, E3, E4; auto|
         destruct m; cbn [wn_execute wc_execute wp_common] in Hx; try discriminate Hx;
         unfold wn_handle, wc_handle, wn_transfer_remote, wc_transfer_remote in Hx; inv_all; auto] end.
  - destruct st as [ | | | | | | | | | | | | | | |x|x|]; try contradiction Hk;
      cbn [c_apply c_reply] in H; unfold lift in H; inv_all;
      match goal with Hs : _ = c_step _ _ _ |- _ => rewrite <- Hs end;
      unfold wn_reply, wc_reply in *; split_matches; inv_all; cbn [ev_msg]; repeat split; contradiction || reflexivity.
Qed.

Lemma warp_fixed A st h :
  is_warp st ->
  warp_mailbox (c_run A st h) = warp_mailbox st /\ warp_hrp (c_run A st h) = warp_hrp st /\
  reported_mode (c_run A st h) = reported_mode st.
Proof.
  revert st. induction h as [|ev h IH]; intros st Hk; [auto|]. rewrite c_run_cons.
  destruct (IH (c_step A st ev) (warp_keep A st ev Hk)) as (-> & -> & ->).
  destruct (warp_fixed_step A st ev Hk) as (E1 & E2 & E3 & _). auto.
Qed.

(** ** Payloads *)
Lemma payload_read rcp amount :
  length rcp = 32%nat -> amount < 2 ^ 128 -> warp_decode (rcp ++ be 32 amount) = Ok (mkWarp rcp amount []).
Proof.
  intros L B. rewrite <- payload_bytes. apply warp_decode_encode. split; [exact L|]. cbn [w_amount].
  eapply N.lt_trans; [exact B|]. reflexivity.
Qed.

Lemma payload_misread rcp amount w :
  warp_decode (rcp ++ be 32 amount) = Ok w ->
  length rcp <> 32%nat -> w_recipient w <> rcp.
Proof. intros H L E. apply warp_body in H as (_ & _ & H & _). now rewrite E in H. Qed.

Lemma payload_short rcp amount : (length rcp < 32)%nat -> warp_decode (rcp ++ be 32 amount) = Panic.
Proof. intros L. apply warp_decode_short. rewrite app_length, be_length. lia. Qed.

Lemma payload_forged rcp forged amount :
  length rcp = 32%nat -> forged < 2 ^ 256 ->
  warp_decode ((rcp ++ be 32 forged) ++ be 32 amount) = Ok (mkWarp rcp forged (be 32 amount)).
Proof.
  intros L B. rewrite <- app_assoc. rewrite warp_decode_parts; [|exact L|apply be_length].
  change (be 32 forged) with (be32 forged). rewrite of_be_be32 by exact B. reflexivity.
Qed.

Lemma transfer_sends A Q e i d rcp amount hook md st st' r :
  is_warp st ->
  c_execute A Q e i (MTransferRemote d rcp amount hook md) st = Ok (st', r) ->
  amount < 2 ^ 128 /\
  exists sm mailbox dm funds, In sm (r_msgs r) /\ sm_msg sm = CExec mailbox (MDispatch dm) funds /\
    warp_mailbox st = Some mailbox /\ d_dest dm = d /\ reported_route st d = Some (Some (d_recipient dm)) /\
    d_body dm = rcp ++ be 32 amount.
Proof.
  intros Hk H. destruct st as [ | | | | | | | | | | | | | | |x|x|] eqn:Es; try contradiction Hk; rewrite <- Es in *.
  - apply native_transfer in H; [|subst st; exact I].
    destruct H as (_ & B & _ & _ & tk & rt & mb & rest & _ & H3 & Hm & _ & ->). split; [exact B|].
    eexists _, mb, _, rest. split.
    { unfold plain. cbn [r_msgs]. rewrite map_app. apply in_or_app. right. left. reflexivity. }
    cbn [sm_msg]. unfold transfer_dispatch. split; [reflexivity|]. cbn [d_dest d_recipient d_body]. auto.
  - apply cw20_transfer in H; [|subst st; exact I].
    destruct H as (_ & B & _ & _ & tk & rt & mb & _ & H3 & Hm & ->). split; [exact B|].
    eexists _, mb, _, (i_funds i). split.
    { unfold plain. cbn [r_msgs map]. right. rewrite map_app. apply in_or_app. right. left. reflexivity. }
    cbn [sm_msg]. unfold transfer_dispatch. split; [reflexivity|]. cbn [d_dest d_recipient d_body]. auto.
Qed.

Lemma payload_correct A Q e i d rcp amount hook md st st' r :
  is_warp st -> length rcp = 32%nat ->
  c_execute A Q e i (MTransferRemote d rcp amount hook md) st = Ok (st', r) ->
  exists sm mailbox dm funds, In sm (r_msgs r) /\ sm_msg sm = CExec mailbox (MDispatch dm) funds /\
    warp_mailbox st = Some mailbox /\ d_dest dm = d /\ reported_route st d = Some (Some (d_recipient dm)) /\
    warp_decode (d_body dm) = Ok (mkWarp rcp amount []).
Proof.
  intros Hk L H. apply transfer_sends in H as (B & sm & mb & dm & f & H1 & H2 & H3 & H4 & H5 & H6); [|exact Hk].
  exists sm, mb, dm, f. rewrite H6. pose proof (payload_read rcp amount L B). auto 10.
Qed.

Lemma payload_forgeable A Q e i d rcp forged amount hook md st st' r :
  is_warp st -> length rcp = 32%nat -> forged < 2 ^ 256 ->
  c_execute A Q e i (MTransferRemote d (rcp ++ be 32 forged) amount hook md) st = Ok (st', r) ->
  exists sm mailbox dm funds, In sm (r_msgs r) /\ sm_msg sm = CExec mailbox (MDispatch dm) funds /\
    warp_mailbox st = Some mailbox /\ reported_route st d = Some (Some (d_recipient dm)) /\
    warp_decode (d_body dm) = Ok (mkWarp rcp forged (be 32 amount)).
Proof.
  intros Hk L B' H. apply transfer_sends in H as (B & sm & mb & dm & f & H1 & H2 & H3 & H4 & H5 & H6); [|exact Hk].
  exists sm, mb, dm, f. rewrite H6. pose proof (payload_forged rcp forged amount L B'). auto 10.
Qed.

Lemma payload_unreadable A Q e i d rcp amount hook md st st' r :
  is_warp st -> (length rcp < 32)%nat ->
  c_execute A Q e i (MTransferRemote d rcp amount hook md) st = Ok (st', r) ->
  exists sm mailbox dm funds, In sm (r_msgs r) /\ sm_msg sm = CExec mailbox (MDispatch dm) funds /\
    warp_mailbox st = Some mailbox /\ warp_decode (d_body dm) = Panic.
Proof.
  intros Hk L H. apply transfer_sends in H as (B & sm & mb & dm & f & H1 & H2 & H3 & H4 & H5 & H6); [|exact Hk].
  exists sm, mb, dm, f. rewrite H6. pose proof (payload_short rcp amount L). auto 10.
Qed.

(** ** Replies *)
(** what a warp route tells, apart from its token *)
Lemma reply_exactly A id ans st st' r :
  is_warp st ->
  (c_reply A id ans st = Ok (st', r) <->
   id = 0 /\
   (exists token, reply_names A st ans token /\ reported_token st' = Some token) /\
   same_but_token st st' /\ r = plain []).
Proof.
  intros Hk. destruct st as [| | | | | | | | | | | | | | | x | x |]; try contradiction Hk; clear Hk; unfold c_reply, lift.
  - unfold wn_reply. split.
    + intros H. destruct ans as [[ | d | a] | |]; try discriminate H.
      destruct (id =? REPLY_ID_CREATE_DENOM) eqn:E; [| discriminate H]. apply N.eqb_eq in E. cbn [bind] in H.
      apply Ok_inj in H. apply pair_equal_spec in H as [<- <-]. split; [exact E |].
      split; [exists d; split; reflexivity |]. split; [| reflexivity]. destruct x. repeat split.
    + intros (-> & (token & Hn & Ht) & Hs & ->). cbn [reply_names] in Hn. subst ans. cbn [N.eqb REPLY_ID_CREATE_DENOM bind].
      destruct st' as [| | | | | | | | | | | | | | | y | y |]; try contradiction Hs. destruct x, y.
      unfold same_but_token in Hs. cbn in Hs, Ht. destruct Hs as (-> & -> & -> & -> & -> & ->).
      destruct wp_token0; [| discriminate Ht]. injection Ht as ->. reflexivity.
  - unfold wc_reply. split.
    + intros H. destruct (id =? REPLY_ID_CREATE_DENOM) eqn:E; [| discriminate H]. apply N.eqb_eq in E.
      destruct ans as [[ | d | a] | |]; try discriminate H. apply bind_Ok_inv in H as ([y o] & H1 & H).
      apply bind_Ok_inv in H1 as (a' & V & H1). apply addr_validate_iff in V as [V ->].
      apply Ok_inj in H1. apply pair_equal_spec in H1 as [<- <-]. cbn [bind] in H.
      apply Ok_inj in H. apply pair_equal_spec in H as [<- <-]. split; [exact E |].
      split; [exists a; split; [split; [reflexivity | exact V] | reflexivity] |]. split; [| reflexivity]. destruct x. repeat split.
    + intros (-> & (token & Hn & Ht) & Hs & ->). cbn [reply_names] in Hn. destruct Hn as [-> V]. cbn [N.eqb REPLY_ID_CREATE_DENOM].
      unfold addr_validate. unfold valid in V. rewrite V. cbn [bind].
      destruct st' as [| | | | | | | | | | | | | | | y | y |]; try contradiction Hs. destruct x, y.
      unfold same_but_token in Hs. cbn in Hs, Ht. destruct Hs as (-> & -> & -> & -> & -> & ->).
      destruct wp_token0; [| discriminate Ht]. injection Ht as ->. reflexivity.
Qed.
