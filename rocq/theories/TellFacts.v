(** * What is told of settings whose values the events leave out. *)
From Coq Require Import List NArith Bool Lia.
From Verif Require Import Base BaseFacts OMap Crypto Message CodecFacts Bech32 Metadata Merkle Hex HexFacts
  Coins CoinsFacts Chain Ownable Router Mailbox Va Isms Hooks Igp Warp Contracts StepFacts Spec SpecModules SpecVersion
  AccessFacts MailboxConfFacts MailboxFacts IsmFacts HookFacts IgpFacts VaFacts ProtoFacts Events SpecEvents EventFacts EventLedger
  Json JsonFacts SpecTell.
Import ListNotations.

Definition sound {X} (k : option X) (x : X) : Prop := forall v, k = Some v -> x = v.

Lemma replay_knows {X} (upd : emsg -> X -> X) (g : option X -> wevent -> option X) (P : cstate -> Prop) A st h :
  P st -> (forall st ev, P st -> P (c_step A st ev)) ->
  (forall st ev k x, P st -> accepted A st ev = true -> sound k x ->
     sound (fold_left g (call_events ev st) k) (match ev_msg ev with Some m => upd m x | None => x end)) ->
  forall k x, sound k x -> sound (fold_left g (emitted A st h) k) (replay upd A st h x).
Proof.
  intros Hp Hs Hg. revert st Hp. induction h as [|ev h IH]; intros st Hp k x Hk; [exact Hk|].
  rewrite emitted_cons, fold_left_app. unfold replay. cbn [accepted_calls]. rewrite fold_left_app.
  fold (replay upd A (c_step A st ev) h). apply (IH _ (Hs _ ev Hp)).
  destruct (accepted A st ev) eqn:E; [|exact Hk]. cbn [fold_left snd]. now apply (Hg st ev).
Qed.

Lemma replay_cons {X} (f : emsg -> X -> X) A st ev h x :
  replay f A st (ev :: h) x
  = replay f A (c_step A st ev) h (if accepted A st ev then match ev_msg ev with Some m => f m x | None => x end else x).
Proof.
  unfold replay. cbn [accepted_calls]. rewrite fold_left_app. destruct (accepted A st ev); reflexivity.
Qed.

Lemma sound_start {X} (x : X) : sound (Some x) x.
Proof. intros v H. now apply Some_inj in H. Qed.
Lemma sound_none {X} (x : X) : sound None x.
Proof. intros v H. discriminate H. Qed.

Lemma keyed_quiet {X} written removed (tys : list str) l (k : option (option X)) :
  (forall w, forallb (fun ty => negb (of_type ty w)) tys = true -> written w = false /\ removed w = false) ->
  forallb (fun w => forallb (fun ty => negb (of_type ty w)) tys) l = true ->
  fold_left (watch_keyed written removed) l k = k.
Proof.
  intros Hq. apply watch_quiet. intros x w Hw. unfold watch_keyed. now destruct (Hq w Hw) as [-> ->].
Qed.

Ltac types_off := intros w; cbn [forallb]; repeat (destruct (of_type _ w); [discriminate|]); split; reflexivity.
Lemma sets_quiet d w : forallb (fun ty => negb (of_type ty w)) [s "ism_multisig_set_validators"; s "ism_multisig_unset_domain"] = true ->
  set_written d w = false /\ set_removed d w = false.
Proof. unfold set_written, set_removed. revert w. types_off. Qed.
Lemma gas_quiet d w : forallb (fun ty => negb (of_type ty w)) [s "igp-core-set-gas-for-domain"; s "igp-core-unset-gas-for-domain"] = true ->
  gas_written d w = false /\ gas_removed d w = false.
Proof. unfold gas_written, gas_removed. revert w. types_off. Qed.
Lemma data_quiet d w : forallb (fun ty => negb (of_type ty w)) [s "set-gas-config"; s "set-gas-configs"] = true ->
  data_written d w = false /\ false = false.
Proof. unfold data_written. revert w. types_off. Qed.
Lemma custom_quiet d r w : forallb (fun ty => negb (of_type ty w)) [s "hpl_hook_routing_custom::register"; s "hpl_hook_routing_custom::clear"] = true ->
  custom_written d r w = false /\ custom_removed d r w = false.
Proof. unfold custom_written, custom_removed. revert w. types_off. Qed.

Ltac spread :=
  cbn [call_events c_events mb_events va_events ms_events ag_events ri_events pi_events mk_events ah_events
     ph_events rh_events cu_events fb_events fe_events or_events gp_events wn_events wc_events wp_common_events reply_events];
  unfold own_events, pause_events, router_events, conn_events, routed_event, gp_post_events, pay_events, handle_events;
  repeat match goal with
  | |- context [match ?x with _ => _ end] =>
      match x with context [bytes_eqb] => fail 1 | context [of_type] => fail 1 | _ => destruct x end
  end.
Ltac not_this L :=
  match goal with
  | Hk : sound ?k ?x |- sound (fold_left _ _ _) _ => rewrite (keyed_quiet _ _ _ _ k (L)); [exact Hk|spread; reflexivity]
  end.

(** ** Domains in lists *)
Lemma dec_single d : u32_ok d = true -> items (dec d) = [dec d].
Proof.
  intros H. change (dec d) with (commas [dec d]). apply items_commas. constructor; [|constructor]. now apply dec_plain.
Qed.
Lemma lists_one d d' : u32_ok d' = true -> existsb (fun n => decimal n =? d) (items (dec d')) = (d' =? d).
Proof. intros H. rewrite (dec_single _ H). cbn [existsb]. now rewrite (u32_dec _ H), orb_false_r. Qed.
Lemma lists_many d l : forallb u32_ok l = true ->
  existsb (fun n => decimal n =? d) (items (commas (map dec l))) = existsb (N.eqb d) l.
Proof.
  intros H. rewrite (items_decs l H). induction l as [|a l IH]; [reflexivity|].
  cbn [forallb] in H. apply andb_true_iff in H as [H1 H2].
  cbn [map existsb]. now rewrite (u32_dec a H1), (IH H2), (N.eqb_sym a).
Qed.

(** ** Validators *)
Lemma validators_known A st h d :
  is_multisig st -> d < 2 ^ 32 -> forall v,
  fold_left (watch_keyed (set_written d) (set_removed d)) (emitted A st h) (Some (reported_enrolled st d)) = Some v ->
  reported_enrolled (c_run A st h) d = v.
Proof.
  intros Hm Hd. rewrite (enrolled_last_set A st h d Hm Hd).
  change (sound (fold_left (watch_keyed (set_written d) (set_removed d)) (emitted A st h) (Some (reported_enrolled st d)))
            (replay (enroll_update d) A st h (reported_enrolled st d))).
  apply (replay_knows (enroll_update d) _ is_multisig A st h Hm); [keep_kind| |apply sound_start].
  clear. intros st ev k x Hm Ha Hk. destruct st; try contradiction Hm.
  destruct ev as [e i mm Q|id rr]; [|discriminate Ha]. pose proof (accepted_ok _ _ _ _ _ _ Ha) as Hok. cbn [ev_msg].
  destruct mm; try not_this (sets_quiet d); cbn [emsg_ok] in Hok; cbn [call_events c_events ms_events fold_left enroll_update].
  - apply andb_true_iff in Hok as [Hok _].
    match goal with |- sound (watch_keyed _ _ _ (mkWev _ [_; (_, dec ?a); _; _])) _ =>
      change (sound (if existsb (fun n => decimal n =? d) (items (dec a)) then None else k)
        (if a =? d then Some (validators, threshold) else x));
      rewrite (lists_one d a Hok); destruct (a =? d); [apply sound_none|exact Hk] end.
  - match goal with |- sound (watch_keyed _ _ _ (mkWev _ [_; (_, dec ?a)])) _ =>
      change (sound (if existsb (fun n => decimal n =? d) (items (dec a)) then Some None else k) (if a =? d then None else x));
      rewrite (lists_one d a Hok); destruct (a =? d); [apply sound_start|exact Hk] end.
Qed.

Lemma enrolled_step A st ev d : is_multisig st -> d < 2 ^ 32 -> accepted A st ev = true ->
  reported_enrolled (c_step A st ev) d = match ev_msg ev with Some m => enroll_update d m (reported_enrolled st d) | None => reported_enrolled st d end.
Proof.
  intros Hm Hd Ha. pose proof (enrolled_last_set A st [ev] d Hm Hd) as E. rewrite c_run_cons in E. unfold c_run in E. cbn [fold_left] in E.
  rewrite E. unfold replay. cbn [accepted_calls]. rewrite Ha. reflexivity.
Qed.

Lemma size_quiet d x w : forallb (fun ty => negb (of_type ty w)) [s "ism_multisig_set_validators"; s "ism_multisig_unset_domain"] = true ->
  watch_set_size d x w = x.
Proof. intros H. apply (sets_quiet d) in H as [E1 E2]. unfold watch_set_size. now rewrite E1, E2. Qed.

Lemma set_size_told A st h d :
  is_multisig st -> d < 2 ^ 32 ->
  set_size (reported_enrolled (c_run A st h) d)
  = fold_left (watch_set_size d) (emitted A st h) (set_size (reported_enrolled st d)).
Proof.
  intros Hm Hd. apply (watch_history (watch_set_size d) (fun st => set_size (reported_enrolled st d)) is_multisig A st h Hm); [keep_kind|].
  clear st h Hm. intros st ev Hm Ha. rewrite (enrolled_step A st ev d Hm Hd Ha). generalize (reported_enrolled st d) as x. intros x.
  destruct st; try contradiction Hm.
  destruct ev as [e i mm Q|id rr]; [|discriminate Ha]. pose proof (accepted_ok _ _ _ _ _ _ Ha) as Hok. cbn [ev_msg].
  destruct mm; try (eapply watch_quiet; [apply (size_quiet d)|spread; reflexivity]); cbn [emsg_ok] in Hok; cbn [call_events c_events ms_events fold_left enroll_update].
  - apply andb_true_iff in Hok as [Hok Ht].
    match goal with |- watch_set_size _ _ (mkWev _ [_; (_, dec ?a); (_, ?cnt); (_, dec ?t)]) = _ =>
      change ((if existsb (fun n => decimal n =? d) (items (dec a)) then Some (cnt, decimal (dec t)) else set_size x)
        = set_size (if a =? d then Some (validators, t) else x));
      rewrite (lists_one d a Hok); destruct (a =? d); [|reflexivity];
      rewrite (dec_read t); [reflexivity|] end.
    apply N.ltb_lt in Ht. eapply N.lt_trans; [exact Ht|reflexivity].
  - match goal with |- watch_set_size _ _ (mkWev _ [_; (_, dec ?a)]) = _ =>
      change ((if existsb (fun n => decimal n =? d) (items (dec a)) then None else set_size x)
        = set_size (if a =? d then None else x));
      rewrite (lists_one d a Hok); destruct (a =? d); reflexivity end.
Qed.

(** ** Modules of an aggregate *)
Lemma isms_told A st h :
  is_aggregate_ism st -> plain_addresses A ->
  option_map fst (reported_modules (c_run A st h))
  = fold_left (watch_list (s "hpl_ism_aggregate::set_isms") (s "isms")) (emitted A st h) (option_map fst (reported_modules st)) /\
  (forallb (fun w => negb (isms_written w)) (emitted A st h) = true -> reported_modules (c_run A st h) = reported_modules st).
Proof.
  intros Hm Hp. rewrite (modules_last_set A st h Hm). generalize (reported_modules st) as x.
  revert st Hm. induction h as [|ev h IH]; intros st Hm x; [split; reflexivity|].
  rewrite emitted_cons, fold_left_app, forallb_app, replay_cons.
  assert (Hm' : is_aggregate_ism (c_step A st ev)) by (revert st ev Hm; keep_kind).
  destruct (accepted A st ev) eqn:Ha; [|exact (IH _ Hm' x)].
  match goal with |- option_map fst (replay _ _ _ _ ?y) = _ /\ _ => destruct (IH _ Hm' y) as [-> I2] end.
  clear IH Hm'. destruct st; try contradiction Hm.
  apply accepted_apply in Ha as [r Ha].
  destruct ev as [e i mm Q|id rr]; [|discriminate Ha]. cbn [ev_msg] in *.
  destruct mm; try (split;
    [f_equal; symmetry; no_such_event
    |intros F; apply andb_true_iff in F as [_ F]; exact (I2 F)]).
  split.
  - f_equal. cbn [modules_update call_events c_events ag_events].
    cbn [c_apply] in Ha. unfold c_execute, lift in Ha. inv_all. cbn [ag_execute] in *. unfold ag_set_isms in *. inv_all.
    match goal with H : mapM (addr_validate A) _ = Ok _ |- _ => rename H into Hv end.
    read_events. cbv [watch_list of_type attr]. cbn [we_type we_attrs find fst snd option_map]. closed_eqb.
    cbn [option_map]. f_equal. symmetry. apply items_commas.
    clear - Hp Hv. revert Hv.
    match goal with |- mapM _ _ = Ok ?a -> _ => revert a end.
    induction isms as [|a l IH]; intros l' H; [constructor|].
    cbn [mapM] in H. apply bind_Ok_inv in H as (y & H1 & H). apply bind_Ok_inv in H as (ys & H2 & H).
    apply addr_validate_iff in H1 as [H1 _]. constructor; [exact (Hp a H1)|]. now apply (IH ys).
  - intros F. apply andb_true_iff in F as [F _]. discriminate F.
Qed.

(** ** Gas *)
Lemma gas_known A st h d :
  is_igp st -> d < 2 ^ 32 -> forall v,
  fold_left (watch_keyed (gas_written d) (gas_removed d)) (emitted A st h) (Some (reported_gas st d)) = Some v ->
  reported_gas (c_run A st h) d = v.
Proof.
  intros Hm Hd. rewrite (gas_last_set A st h d Hm Hd).
  change (sound (fold_left (watch_keyed (gas_written d) (gas_removed d)) (emitted A st h) (Some (reported_gas st d)))
            (replay (gas_update d) A st h (reported_gas st d))).
  apply (replay_knows (gas_update d) _ is_igp A st h Hm); [keep_kind| |apply sound_start].
  clear. intros st ev k x Hm Ha Hk. destruct st; try contradiction Hm.
  destruct ev as [e i mm Q|id rr]; [|discriminate Ha]. pose proof (accepted_ok _ _ _ _ _ _ Ha) as Hok. cbn [ev_msg].
  destruct mm; try not_this (gas_quiet d); cbn [emsg_ok] in Hok; cbn [call_events c_events gp_events fold_left gas_update].
  - assert (Hf : forallb u32_ok (map fst config) = true).
    { clear - Hok. induction config as [|[a g] l IH]; [reflexivity|]. cbn [forallb map fst] in *.
      apply andb_true_iff in Hok as [H1 H2]. apply andb_true_iff in H1 as [H1 _]. now rewrite H1, (IH H2). }
    rewrite <- (map_map fst dec).
    match goal with |- sound ?a ?b =>
      change (sound (if existsb (fun n => decimal n =? d) (items (commas (map dec (map fst config)))) then None else k) b) end.
    rewrite (lists_many d _ Hf). destruct (existsb (N.eqb d) (map fst config)) eqn:E; [apply sound_none|].
    assert (U : fold_left (fun acc p => if fst p =? d then Some (snd p) else acc) config x = x).
    { clear - E. revert x. induction config as [|[a g] l IH]; intros x; [reflexivity|]. cbn [map existsb fst fold_left snd] in *.
      apply orb_false_iff in E as [E1 E2]. rewrite N.eqb_sym, E1. now apply IH. }
    rewrite U. exact Hk.
  - match goal with |- sound ?a ?b =>
      change (sound (if existsb (fun n => decimal n =? d) (items (commas (map dec domains))) then Some None else k) b) end.
    rewrite (lists_many d _ Hok). destruct (existsb (N.eqb d) domains); [apply sound_start|exact Hk].
Qed.

Lemma data_known A st h d :
  is_oracle st -> d < 2 ^ 32 -> forall v,
  fold_left (watch_keyed (data_written d) (fun _ => false)) (emitted A st h) (Some (reported_gas_data st d)) = Some v ->
  reported_gas_data (c_run A st h) d = v.
Proof.
  intros Hm Hd. rewrite (gas_data_last_set A st h d Hm Hd).
  change (sound (fold_left (watch_keyed (data_written d) (fun _ => false)) (emitted A st h) (Some (reported_gas_data st d)))
            (replay (gas_data_update d) A st h (reported_gas_data st d))).
  apply (replay_knows (gas_data_update d) _ is_oracle A st h Hm); [keep_kind| |apply sound_start].
  clear. intros st ev k x Hm Ha Hk. destruct st; try contradiction Hm.
  destruct ev as [e i mm Q|id rr]; [|discriminate Ha]. pose proof (accepted_ok _ _ _ _ _ _ Ha) as Hok. cbn [ev_msg].
  destruct mm; try not_this (data_quiet d); cbn [emsg_ok] in Hok; cbn [call_events c_events or_events fold_left gas_data_update].
  - assert (Hf : forallb u32_ok (map gc_domain configs) = true).
    { clear - Hok. induction configs as [|c l IH]; [reflexivity|]. cbn [forallb map] in *.
      apply andb_true_iff in Hok as [H1 H2]. rewrite (IH H2), andb_true_r.
      unfold gas_config_ok in *. repeat (apply andb_true_iff in H1 as [H1 _]). exact H1. }
    rewrite <- (map_map gc_domain dec).
    match goal with |- sound ?a ?b =>
      change (sound (if existsb (fun n => decimal n =? d) (items (commas (map dec (map gc_domain configs)))) then None else k) b) end.
    rewrite (lists_many d _ Hf). destruct (existsb (N.eqb d) (map gc_domain configs)) eqn:E; [apply sound_none|].
    match goal with |- sound _ ?b => assert (U : b = x) end.
    { clear - E. revert x. induction configs as [|c l IH]; intros x; [reflexivity|]. cbn [map existsb fold_left] in *.
      apply orb_false_iff in E as [E1 E2]. rewrite N.eqb_sym, E1. now apply IH. }
    rewrite U. exact Hk.
  - assert (Hf : u32_ok (gc_domain config) = true) by (repeat (apply andb_true_iff in Hok as [Hok _]); exact Hok).
    match goal with |- sound ?a ?b =>
      change (sound (if orb (existsb (fun n => decimal n =? d) (items (dec (gc_domain config)))) false then None else k) b) end.
    rewrite (lists_one d _ Hf), orb_false_r. destruct (gc_domain config =? d); [apply sound_none|exact Hk].
Qed.

(** ** Custom hooks: the keys can be read *)
Lemma cut_dec d r : u32_ok d = true -> cut_colon (dec d ++ s ":" ++ r) = (dec d, r).
Proof.
  intros H. apply N.ltb_lt in H.
  assert (L : d < u256_max) by (eapply N.lt_trans; [exact H|reflexivity]).
  destruct (dec_text d L) as ((_ & Hd) & _ & _). induction Hd as [|c l Hc _ IH]; [reflexivity|].
  cbn [app cut_colon]. unfold digit in Hc. rewrite (proj2 (N.eqb_neq (bN c) 58)) by lia. now rewrite IH.
Qed.

Lemma key_read d r p : u32_ok (fst p) = true ->
  is_key d r (dec (fst p) ++ s ":" ++ snd p)
  = ((fst p =? d) && match hex_decode (snd p) with Ok v => bytes_eqb v r | _ => false end)%bool.
Proof. intros H. unfold is_key. now rewrite (cut_dec _ _ H), (u32_dec _ H). Qed.

Lemma keys_parse l : parse (custom_keys l) = Some (JArr (map (fun p => JStr (dec (fst p) ++ s ":" ++ snd p)) l)).
Proof.
  unfold custom_keys, json_array.
  replace (map (fun p => json_string (dec (fst p) ++ s ":" ++ snd p)) l)
    with (map text (map (fun p : N * str => JStr (dec (fst p) ++ s ":" ++ snd p)) l)) by now rewrite map_map.
  apply (parse_text (JArr _)). cbn [small]. apply forallb_forall. intros j Hj. apply in_map_iff in Hj as (p & <- & _). reflexivity.
Qed.

Definition names (d : N) (r : bytes) (p : N * str) : bool :=
  ((fst p =? d) && match hex_decode (snd p) with Ok v => bytes_eqb v r | _ => false end)%bool.

Lemma keys_listed d r ty (who : addr) l : forallb (fun p => u32_ok (fst p)) l = true ->
  lists_key d r (mkWev ty [(s "sender", who); (s "keys", custom_keys l)]) = existsb (names d r) l.
Proof.
  intros H. unfold lists_key.
  change (attr (s "keys") (mkWev ty [(s "sender", who); (s "keys", custom_keys l)])) with (Some (custom_keys l)).
  cbv iota. rewrite keys_parse. cbv iota. clear ty who. induction l as [|p l IH]; [reflexivity|].
  cbn [forallb] in H. apply andb_true_iff in H as [H1 H2]. cbn [map existsb]. now rewrite (IH H2), (key_read d r p H1).
Qed.

Lemma register_fold d r l acc : existsb (names d r) (map (fun c => (ch_dest c, ch_recipient c)) l) = false ->
  fold_left (fun acc c => if ((ch_dest c =? d) && match hex_decode (ch_recipient c) with Ok v => bytes_eqb v r | _ => false end)%bool
    then Some (ch_hook c) else acc) l acc = acc.
Proof.
  induction l as [|c l IH]; [reflexivity|]. cbn [map existsb fold_left]. intros H. apply orb_false_iff in H as [H1 H2].
  unfold names in H1. cbn [fst snd] in H1. rewrite H1. exact (IH H2).
Qed.

Lemma custom_known A st h d r :
  is_custom_hook st -> d < 2 ^ 32 -> forall v,
  fold_left (watch_keyed (custom_written d r) (custom_removed d r)) (emitted A st h) (Some (reported_custom st d r)) = Some v ->
  reported_custom (c_run A st h) d r = v.
Proof.
  intros Hm Hd. rewrite (custom_last_set A st h d r Hm Hd).
  change (sound (fold_left (watch_keyed (custom_written d r) (custom_removed d r)) (emitted A st h) (Some (reported_custom st d r)))
            (replay (custom_update d r) A st h (reported_custom st d r))).
  apply (replay_knows (custom_update d r) _ is_custom_hook A st h Hm); [keep_kind| |apply sound_start].
  clear. intros st ev k x Hm Ha Hk. destruct st; try contradiction Hm.
  destruct ev as [e i mm Q|id rr]; [|discriminate Ha]. pose proof (accepted_ok _ _ _ _ _ _ Ha) as Hok. cbn [ev_msg].
  assert (W : forall ty l, forallb (fun p => u32_ok (fst p)) l = true ->
    watch_keyed (custom_written d r) (custom_removed d r) k (mkWev ty [(s "sender", i_sender i); (s "keys", custom_keys l)])
    = if (bytes_eqb ty (s "hpl_hook_routing_custom::register") && existsb (names d r) l)%bool then None
      else if (bytes_eqb ty (s "hpl_hook_routing_custom::clear") && existsb (names d r) l)%bool then Some None else k).
  { intros ty l Hl. unfold watch_keyed, custom_written, custom_removed. rewrite (keys_listed d r ty (i_sender i) l Hl). reflexivity. }
  destruct mm; try not_this (custom_quiet d r); cbn [emsg_ok] in Hok;
    cbn [call_events c_events cu_events cu_register_events cu_clear_events fold_left]; rewrite W.
  all: try match goal with |- forallb _ (map _ [_]) = true => cbn [map forallb fst]; rewrite Hok; reflexivity end.
  all: try match goal with |- forallb _ (map _ _) = true => clear - Hok; rewrite forallb_forall in *; intros p Hp;
     apply in_map_iff in Hp as (c & <- & Hc); cbn [fst]; now apply Hok end.
  all: try (cbn [forallb fst]; rewrite Hok; reflexivity).
  all: try exact Hok.
  all: closed_eqb; cbn [andb].
  all: repeat match goal with |- context [if ?b then _ else _] =>
    match b with existsb _ _ => destruct b eqn:E; [first [apply sound_none | idtac]|] end end.
  - rewrite (register_fold d r [h] x E : custom_update d r (MRegisterCustomHook h) x = x). exact Hk.
  - rewrite (register_fold d r hs x E : custom_update d r (MRegisterCustomHooks hs) x = x). exact Hk.
  - cbn [existsb] in E. rewrite orb_false_r in E.
    change (sound (Some None) (if names d r (dest, recipient) then None else x)). rewrite E. apply sound_start.
  - cbn [existsb] in E. rewrite orb_false_r in E.
    change (sound k (if names d r (dest, recipient) then None else x)). rewrite E. exact Hk.
  - change (sound (Some None) (if existsb (names d r) l then None else x)). rewrite E. apply sound_start.
  - change (sound k (if existsb (names d r) l then None else x)). rewrite E. exact Hk.
Qed.

(** ** Posts to hooks *)
Lemma posts_cons A st ev h : posts A st (ev :: h) =
  (if accepted A st ev then match ev with EvExec _ i (MPostDispatch _ raw) _ => [(st, (i, raw))] | _ => [] end else [])
  ++ posts A (c_step A st ev) h.
Proof.
  unfold posts. cbn [accepted_calls]. rewrite flat_map_app. f_equal.
  destruct (accepted A st ev); [|reflexivity]. cbn [flat_map snd fst]. now rewrite app_nil_r.
Qed.

Lemma posts_told A st h (P : cstate -> Prop) ty (R : cstate * (info * bytes) -> wevent -> Prop) :
  P st -> (forall st ev, P st -> P (c_step A st ev)) ->
  (forall st ev, P st -> accepted A st ev = true ->
     Forall2 R (match ev with EvExec _ i (MPostDispatch _ raw) _ => [(st, (i, raw))] | _ => [] end)
       (filter (of_type ty) (call_events ev st))) ->
  Forall2 R (posts A st h) (filter (of_type ty) (emitted A st h)).
Proof.
  intros Hp Hs Hg. revert st Hp. induction h as [|ev h IH]; intros st Hp; [constructor|].
  rewrite posts_cons, emitted_cons, filter_app. apply Forall2_app; [|exact (IH _ (Hs _ ev Hp))].
  destruct (accepted A st ev) eqn:E; [|constructor]. exact (Hg st ev Hp E).
Qed.

Lemma no_type ty l : forallb (fun w => negb (of_type ty w)) l = true -> filter (of_type ty) l = [].
Proof. apply filter_none. Qed.

Lemma aggregate_posts_told A st h : is_aggregate_hook st ->
  Forall2 (fun p w => attr (s "message_id") w = Some (hex_of (keccak256_hash (snd (snd p)))))
    (posts A st h) (filter (of_type (s "hpl_hook_aggregate::post_dispatch")) (emitted A st h)).
Proof.
  intros Hm. apply (posts_told A st h is_aggregate_hook); [exact Hm|keep_kind|].
  clear. intros st ev Hm Ha. destruct st; try contradiction Hm. pose proof Ha as Ha'. apply accepted_apply in Ha' as [r Ha'].
  destruct ev as [e i mm Q|id rr]; [|discriminate Ha].
  destruct mm; try (rewrite no_type by (spread; reflexivity); constructor).
  cbn [c_apply] in Ha'. apply (aggregate_calls A Q e i metadata message (SAggHook x) (ah_hooks x)) in Ha' as (fees & m & Hd & _); [|reflexivity].
  cbn [call_events c_events ah_events]. rewrite Hd. constructor; [|constructor].
  cbn [snd]. rewrite <- hex_of_encode. unfold msg_id. now rewrite (proj2 (proj2 (msg_decode_Ok_inv _ _ Hd))).
Qed.

Lemma routed_posts_told A st h : is_router_hook st ->
  Forall2 routed_told (posts A st h) (filter (of_type (routed_type st)) (emitted A st h)).
Proof.
  intros Hm. remember (routed_type st) as ty eqn:Et.
  apply (posts_told A st h (fun st => is_router_hook st /\ routed_type st = ty)); [split; [exact Hm|now symmetry]| |].
  - clear. intros st ev [Hm Ht]. pose proof (step_kind A ev st) as K.
    destruct st; try contradiction Hm; destruct (c_step A _ ev); try discriminate K; split; (exact I || exact Ht).
  - clear. intros st ev [Hm <-] Ha. pose proof Ha as Ha'. apply accepted_apply in Ha' as [r Ha'].
    destruct ev as [e i mm Q|id rr]; [|destruct st; try contradiction Hm; discriminate Ha].
    destruct mm; try (rewrite no_type by (destruct st; try contradiction Hm; cbn [routed_type]; spread; reflexivity); constructor).
    cbn [c_apply] in Ha'. apply router_call_pick in Ha' as (hk & Hp & _ & _); [|exact Hm].
    assert (Hf : is_fallback_hook st -> fallback_of st <> None).
    { intros Hk Hn. destruct st; try contradiction Hk. cbn [fallback_of] in Hn. cbn [pick] in Hp. unfold fb_route in Hp. rewrite Hn in Hp.
      apply bind_Ok_inv in Hp as (m & _ & Hp). discriminate Hp. }
    pose proof Hp as Hp'. apply pick_iff in Hp' as (m & Hd & Hs); [|exact Hm|exact Hf].
    assert (E : filter (of_type (routed_type st)) (call_events (EvExec e i (MPostDispatch metadata message) Q) st)
      = [mkWev (routed_type st) [(s "domain", dec (m_dest m)); (s "route", hk); (s "message_id", hex_encode (msg_id m))]]).
    { destruct st; try contradiction Hm; cbn [call_events c_events rh_events cu_events fb_events routed_type]; unfold routed_event;
        cbn [pick] in Hp; rewrite Hd, Hp; reflexivity. }
    rewrite E. constructor; [|constructor]. exists m, hk. cbn [fst snd].
    split; [exact Hd|]. split; [exact Hs|]. split.
    + apply (f_equal Some). apply dec_read. eapply N.lt_trans; [exact (decode_dest _ _ Hd)|reflexivity].
    + split; [reflexivity|]. rewrite <- hex_of_encode. unfold msg_id. now rewrite (proj2 (proj2 (msg_decode_Ok_inv _ _ Hd))).
Qed.

Lemma fee_posts_told A st h : is_fee_hook st ->
  Forall2 fee_told (posts A st h) (filter (of_type (s "hpl_hook_fee::post_dispatch")) (emitted A st h)).
Proof.
  intros Hm. apply (posts_told A st h is_fee_hook); [exact Hm|keep_kind|].
  clear. intros st ev Hm Ha. destruct st; try contradiction Hm. pose proof Ha as Ha'. apply accepted_apply in Ha' as [r Ha'].
  destruct ev as [e i mm Q|id rr]; [|discriminate Ha].
  destruct mm; try (rewrite no_type by (spread; reflexivity); constructor).
  cbn [c_apply] in Ha'. apply (fee_accepts A Q e i metadata message (SFeeHook x) (fe_fee x)) in Ha' as (_ & _ & a & Hf & Hz & _); [|reflexivity].
  assert (E : must_pay (i_funds i) (c_denom (fe_fee x)) = Ok a) by (apply must_pay_iff; auto).
  cbn [call_events c_events fe_events]. rewrite E. constructor; [|constructor].
  exists (c_denom (fe_fee x)), a. cbn [fst snd]. split; [exact Hf|]. split; reflexivity.
Qed.

(** ** Who acts *)
Lemma callers_told A st e i m Q w k a :
  accepted A st (EvExec e i m Q) = true -> In w (call_events (EvExec e i m Q) st) -> about_messages w = false ->
  In k caller_keys -> attr k w = Some a -> a = i_sender i.
Proof.
  intros Ha Hw Hn Hk Ht. revert Hw Hn Ht. clear Ha.
  destruct m; destruct st; cbn [call_events c_events mb_events va_events ms_events ag_events ri_events pi_events mk_events ah_events
     ph_events rh_events cu_events fb_events fe_events or_events gp_events wn_events wc_events wp_common_events];
  unfold own_events, pause_events, router_events, conn_events, routed_event, gp_post_events, pay_events, handle_events,
    cu_register_events, cu_clear_events, dispatch_events, process_events;
  repeat match goal with
  | |- context [match ?x with _ => _ end] =>
      match x with context [bytes_eqb] => fail 1 | context [of_type] => fail 1 | _ => destruct x end
  end; cbn [In app]; intros Hw Hn Ht;
  repeat (destruct Hw as [Hw|Hw]); try contradiction Hw; subst w; try discriminate Hn;
  (cbn [In caller_keys] in Hk; destruct Hk as [<-|[<-|[<-|[]]]]; first [discriminate Ht | now apply Some_inj in Ht]).
Qed.
