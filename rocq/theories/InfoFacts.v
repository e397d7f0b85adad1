(** * What modules tell about how they verify, and what warp routes tell about
      their token. *)
From Coq Require Import List NArith Lia Bool.
From Verif Require Import Base BaseFacts OMap Crypto Message Metadata Bech32 Coins Chain Contracts Isms Warp
  Spec SpecModules CodecFacts IsmFacts.
Import ListNotations.

Lemma multisig_info A q raw st t vs :
  is_multisig st ->
  (c_query A q (QVerifyInfo raw) st = Ok (RVerifyInfo t vs) <->
   exists m, msg_decode raw = Ok m /\ reported_enrolled st (m_origin m) = Some (vs, t)).
Proof.
  intros Hm. destruct st; try contradiction Hm. unfold reported_enrolled, c_query.
  cbn [qmsg_ok ensure bind ms_query]. unfold ms_verify_info. split.
  - intros H. apply bind_Ok_inv in H as (m & Hd & H). exists m. split; [exact Hd|].
    apply bind_Ok_inv in H as (t' & Ht & H). apply bind_Ok_inv in H as (vs' & Hv & H).
    apply Ok_inj in H. injection H as -> ->.
    assert (Ho : m_origin m < u32_max).
    { apply msg_decode_Ok_inv in Hd as (_ & Hw & _). destruct Hw as (_ & _ & Hw & _). exact Hw. }
    cbn [qmsg_ok]. unfold u32_ok. apply N.ltb_lt in Ho. rewrite Ho. cbn [ensure bind].
    rewrite Ht, Hv. reflexivity.
  - intros (m & Hd & H). rewrite Hd. cbn [bind].
    destruct (ensure _ _) as [[]| |] in H; try discriminate H. cbn [bind] in H.
    destruct (om_get (m_origin m) (ms_validators _)) as [vs'|] in H |- *; cbn [ok_or bind] in H |- *; try discriminate H.
    all: destruct (om_get (m_origin m) (ms_threshold _)) as [t'|] in H |- *; cbn [ok_or bind] in H |- *; try discriminate H.
    injection H as -> ->. reflexivity.
Qed.

Lemma multisig_followed A q metadata raw st m tree root index pre suf vs t signers :
  is_multisig st ->
  c_query A q (QVerifyInfo raw) st = Ok (RVerifyInfo t vs) -> 0 < t ->
  msg_decode raw = Ok m -> multisig_metadata metadata tree root index (pre ++ suf) ->
  let digest := checkpoint_digest (m_origin m) tree root index (keccak256_hash raw) in
  Forall (fun sg => exists a, signed_by A digest sg a) pre ->
  NoDup signers -> t <= N.of_nat (length signers) ->
  Forall (fun a => In a vs /\ exists sg, In sg pre /\ signed_by A digest sg a) signers ->
  c_query A q (QVerify metadata raw) st = Ok (RVerified true).
Proof.
  intros Hm Hi Ht Hd Hmd digest. apply (multisig_info A q raw st t vs Hm) in Hi as (m' & Hd' & He).
  assert (m' = m) by congruence. subst m'.
  exact (multisig_complete A q metadata raw st m tree root index pre suf vs t signers Hm Hd Hmd He Ht).
Qed.

Lemma aggregate_info A q raw st t vs :
  is_aggregate_ism st ->
  (c_query A q (QVerifyInfo raw) st = Ok (RVerifyInfo t vs) <->
   exists l, reported_modules st = Some (l, t) /\ Forall2 (fun a v => bech32_decode a = Ok v) l vs).
Proof.
  intros Hm. destruct st; try contradiction Hm. unfold reported_modules, c_query.
  cbn [qmsg_ok ensure bind ag_query].
  assert (G : forall l v, mapM bech32_decode l = Ok v <-> Forall2 (fun a v => bech32_decode a = Ok v) l v).
  { clear. induction l as [|a l IH]; intros v; cbn [mapM]; split; intros H.
    - apply Ok_inj in H as <-. constructor.
    - inversion H. reflexivity.
    - apply bind_Ok_inv in H as (x & Hx & H). apply bind_Ok_inv in H as (y & Hy & H). apply Ok_inj in H as <-.
      constructor; [exact Hx | now apply IH].
    - inversion_clear H as [|? x ? y Hx Hy]. apply IH in Hy. rewrite Hx. cbn [bind]. rewrite Hy. reflexivity. }
  split.
  - intros H. apply bind_Ok_inv in H as (v & Hv & H). apply Ok_inj in H. injection H as <- <-.
    eexists. split; [reflexivity | now apply G].
  - intros (l & Hl & Hv). injection Hl as <- <-. apply G in Hv. rewrite Hv. reflexivity.
Qed.

Lemma pausable_no_info A q raw st : is_pausable_ism st -> c_query A q (QVerifyInfo raw) st = Panic.
Proof. intros Hm. destruct st; try contradiction Hm. reflexivity. Qed.

Lemma token_kind A q st :
  (forall d, c_query A q QTokenType st = Ok (RTokenDenom d) <-> is_warp_native st /\ reported_token st = Some d) /\
  (forall a, c_query A q QTokenType st = Ok (RTokenCw20 a) <-> is_warp_cw20 st /\ reported_token st = Some a).
Proof.
  unfold reported_token, c_query. destruct st as [| | | | | | | | | | | | | | | x | x |];
    cbn [qmsg_ok ensure bind is_warp_native is_warp_cw20];
    split; intros y; (split; [intros H | intros [Hk H]]);
    try contradiction; try (cbn in H; discriminate H).
  all: unfold wn_query, wc_query in *; cbn [wp_query ok_or bind] in *;
    destruct (wp_token x) as [t|]; cbn [ok_or bind] in *; try discriminate H.
  all: try (apply Ok_inj in H; injection H as ->; split; [exact I | reflexivity]).
  all: injection H as ->; reflexivity.
Qed.
