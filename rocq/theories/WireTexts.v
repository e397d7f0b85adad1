(** * The texts of Wire.v and WireQuery.v are those of SpecWire.v. *)
From Coq Require Import List NArith Bool Lia.
From Verif Require Import Base BaseFacts Hex Coins Events Json Message Chain Ownable Contracts Wire WireQuery WireWorld SpecQuery SpecWire JsonFacts
  WireFacts WireQueryFacts StepFacts WireAnswers WireWidths.
Import ListNotations.

(** ** Strings and numbers *)
Lemma char_text b : json_char b = escaped b.
Proof. destruct b; vm_compute; reflexivity. Qed.
Lemma string_text t : json_string t = quoted t.
Proof. unfold json_string, quoted. change (s """") with [x22]. do 2 f_equal. apply flat_map_ext. exact char_text. Qed.

(** printable ASCII but quote and backslash *)
Definition clean (t : str) : bool := forallb (fun b => (32 <=? bN b) && (bN b <? 127) && negb (bN b =? 34) && negb (bN b =? 92))%bool t.
Lemma clean_escaped t : clean t = true -> flat_map escaped t = t.
Proof.
  induction t as [|b t IH]; [reflexivity|]. cbn [clean forallb flat_map]. intros H. apply andb_true_iff in H as [H1 H2]. rewrite (IH H2).
  destruct b; reflexivity || discriminate H1.
Qed.
Lemma digit_clean n : n < 16 -> clean [hex_digit n] = true.
Proof.
  intros H. assert (C : forallb (fun k => clean [hex_digit k]) [0;1;2;3;4;5;6;7;8;9;10;11;12;13;14;15] = true) by (vm_compute; reflexivity).
  rewrite forallb_forall in C. apply C. 
  assert (exists k, n = N.of_nat k /\ (k < 16)%nat) as (k & -> & L) by (exists (N.to_nat n); split; [symmetry; apply N2Nat.id|lia]).
  do 16 (destruct k as [|k]; [cbn; tauto|]). lia.
Qed.
Lemma clean_cons b t : clean (b :: t) = (clean [b] && clean t)%bool.
Proof. cbn [clean forallb]. now rewrite andb_true_r. Qed.
Lemma hex_clean b : clean (hex_encode b) = true.
Proof.
  induction b as [|x b IH]; [reflexivity|]. cbn [hex_encode]. rewrite clean_cons, (clean_cons _ (hex_encode b)), IH.
  pose proof (bN_lt x) as L. rewrite !digit_clean; [reflexivity| |].
  - apply N.mod_lt. discriminate.
  - apply N.div_lt_upper_bound; [discriminate|exact L].
Qed.
Lemma decimal_clean n : n < 10 -> clean [nB (48 + n)] = true.
Proof. intros H. pose proof (digit_clean n) as D. unfold hex_digit in D. rewrite (proj2 (N.ltb_lt _ _) H) in D. apply D. lia. Qed.
Lemma dec_fuel_clean k : forall n acc, clean acc = true -> clean (dec_fuel k n acc) = true.
Proof.
  induction k as [|k IH]; intros n acc H; [exact H|]. cbn [dec_fuel].
  assert (C : clean (nB (48 + n mod 10) :: acc) = true).
  { rewrite clean_cons, H, decimal_clean; [reflexivity|]. apply N.mod_lt. discriminate. }
  destruct (n <? 10); [exact C|]. apply IH, C.
Qed.
Lemma dec_clean n : clean (dec n) = true.
Proof. apply dec_fuel_clean. reflexivity. Qed.


(** ** Leaves *)
Lemma t_string t : text (write string_c t) = quoted t.
Proof. apply string_text. Qed.
Lemma t_hex b : text (write hex_c b) = hexed b.
Proof. cbn [write hex_c text]. rewrite string_text. unfold quoted. now rewrite (clean_escaped _ (hex_clean b)). Qed.
Lemma t_int ok n : text (write (int_c ok) n) = dec n.
Proof. reflexivity. Qed.
Lemma t_u8 n : text (write u8_c n) = dec n.
Proof. reflexivity. Qed.
Lemma t_u32 n : text (write u32_c n) = dec n.
Proof. reflexivity. Qed.
Lemma t_big ok n : text (write (big_c ok) n) = big n.
Proof. cbn [write big_c text]. rewrite string_text. unfold quoted. now rewrite (clean_escaped _ (dec_clean n)). Qed.
Lemma t_u128 n : text (write u128_c n) = big n.
Proof. apply t_big. Qed.
Lemma t_u256 n : text (write u256_c n) = big n.
Proof. apply t_big. Qed.
Lemma t_bool b : text (write bool_c b) = truth b.
Proof. reflexivity. Qed.
Lemma t_empty u : text (write empty_c u) = brackets [].
Proof. reflexivity. Qed.
Lemma t_order o : text (write order_c o) = order_text o.
Proof. now destruct o. Qed.
Lemma t_type o : text (write ism_type_c o) = type_text o.
Proof. now destruct o. Qed.
Lemma t_mode o : text (write token_mode_c o) = mode_text o.
Proof. now destruct o. Qed.

Lemma commas_listed l : commas l = listed l.
Proof. induction l as [|x [|y l] IH]; [reflexivity..|]. cbn [commas listed] in *. now rewrite IH. Qed.
Lemma t_list {A} (c : codec A) f l : (forall a, text (write c a) = f a) -> text (write (list_c c) l) = brackets (map f l).
Proof.
  intros H. cbn [write list_c text]. rewrite map_map, commas_listed. unfold brackets. do 3 f_equal. apply map_ext. exact H.
Qed.
Lemma t_pair {A B} (c : codec A) (d : codec B) f g p : (forall a, text (write c a) = f a) -> (forall b, text (write d b) = g b) ->
  text (write (pair_c c d) p) = brackets [f (fst p); g (snd p)].
Proof. intros H1 H2. cbn [write pair_c text map]. rewrite H1, H2, commas_listed. reflexivity. Qed.
Lemma t_route hx x : text (write (route_c hx) x) = (if hx then hexed else quoted) x.
Proof. destruct hx; [apply t_hex|apply t_string]. Qed.

Lemma t_branch l : text (write branch_c l) = brackets (map hexed l).
Proof. apply (t_list hex_c hexed l t_hex). Qed.
(** objects *)
Fixpoint members (l : list (str * json)) : list str :=
  match l with [] => [] | (k, j) :: l' => (json_string k ++ s ":" ++ text j) :: members l' end.
Lemma t_obj l : text (JObj l) = braces (members l).
Proof.
  cbn [text]. rewrite commas_listed. unfold braces. do 3 f_equal. induction l as [|[k j] l IH]; [reflexivity|].
  cbn [map members fst snd]. now rewrite IH.
Qed.
Lemma t_option {A} (c : codec A) f (o : option A) : (forall a, text (write c a) = f a) ->
  text (match o with Some a => write c a | None => JNull end) = or_null f o.
Proof. intros H. destruct o; [apply H|reflexivity]. Qed.

Ltac leaf :=
  match goal with
  | |- context [text (JObj ?l)] => rewrite (t_obj l); cbn [members]
  | |- context [text (write ?c ?x)] =>
      lazymatch c with
      | string_c => rewrite (t_string x) | hex_c => rewrite (t_hex x) | u8_c => rewrite (t_u8 x) | u32_c => rewrite (t_u32 x)
      | u128_c => rewrite (t_u128 x) | u256_c => rewrite (t_u256 x) | bool_c => rewrite (t_bool x) | empty_c => rewrite (t_empty x)
      | order_c => rewrite (t_order x) | ism_type_c => rewrite (t_type x) | token_mode_c => rewrite (t_mode x)
      | list_c hex_c => rewrite (t_list _ _ x t_hex) | list_c string_c => rewrite (t_list _ _ x t_string)
      | list_c u32_c => rewrite (t_list _ _ x t_u32) | branch_c => rewrite (t_branch x)
      end
  | |- context [text (match ?o with Some a => write ?c a | None => JNull end)] =>
      lazymatch c with
      | string_c => rewrite (t_option _ _ o t_string) | hex_c => rewrite (t_option _ _ o t_hex)
      | u32_c => rewrite (t_option _ _ o t_u32) | order_c => rewrite (t_option _ _ o t_order)
      end
  | |- context [text (match ?o with Some a => write string_c a | None => JNull end)] => destruct o
  end.
Ltac leaves := repeat leaf.
Ltac shapes := cbn [write struct struct_of puts field optional none as_c fst snd rs_domain rs_route d_dest d_recipient d_body d_hook d_metadata
  ch_dest ch_recipient ch_hook gc_domain gc_rate gc_price c_denom c_amount].

Lemma t_route_set hx r : text (write (route_set_c hx) r) = route_text hx r.
Proof.
  destruct r as [d o]. unfold route_set_c. shapes. leaves. rewrite (t_option _ _ _ (t_route hx)). reflexivity.
Qed.
Lemma t_routes hx l : text (write (list_c (route_set_c hx)) l) = brackets (map (route_text hx) l).
Proof. apply t_list. exact (t_route_set hx). Qed.
Lemma t_dispatch d : text (write dispatch_c d) = dispatch_text d.
Proof. destruct d as [a b c h m]. unfold dispatch_c. shapes. leaves. reflexivity. Qed.
Lemma t_custom d : text (write custom_hook_c d) = custom_text d.
Proof. destruct d as [a b c]. unfold custom_hook_c. shapes. leaves. reflexivity. Qed.
Lemma t_clear d : text (write clear_hook_c d) = clear_text d.
Proof. destruct d as [a b]. unfold clear_hook_c. shapes. leaves. reflexivity. Qed.
Lemma t_gas d : text (write gas_config_c d) = gas_text d.
Proof. destruct d as [a b c]. unfold gas_config_c. shapes. leaves. reflexivity. Qed.
Lemma t_coin d : text (write coin_c d) = coin_text d.
Proof. destruct d as [a b]. unfold coin_c. shapes. leaves. reflexivity. Qed.
Lemma t_meta a b : text (write meta_message_c (a, (b, tt))) = meta_text a b.
Proof. unfold meta_message_c. shapes. leaves. reflexivity. Qed.
Lemma t_page a b o : text (write page_c (a, (b, (o, tt)))) = page_text a b o.
Proof. unfold page_c. shapes. leaves. reflexivity. Qed.
Lemma t_gas_pair p : text (write (pair_c u32_c u128_c) p) = gas_pair_text p.
Proof. apply (t_pair u32_c u128_c _ _ p t_u32 t_u128). Qed.
Lemma t_location p : text (write (pair_c string_c (list_c string_c)) p) = location_text p.
Proof. apply (t_pair string_c (list_c string_c) _ (fun l => brackets (map quoted l)) p t_string). intros b. apply t_list. exact t_string. Qed.
Lemma t_ownable m : text (write ownable_c m) = ownable_text m.
Proof.
  destruct m; cbn [write ownable_c enum write_case on put option_map tag]; shapes; leaves; reflexivity.
Qed.

(** ** Messages *)
Ltac whole :=
  match goal with |- context [text (write ?c ?x)] =>
    lazymatch c with
    | ownable_c => rewrite (t_ownable x) | dispatch_c => rewrite (t_dispatch x) | custom_hook_c => rewrite (t_custom x)
    | clear_hook_c => rewrite (t_clear x) | gas_config_c => rewrite (t_gas x) | coin_c => rewrite (t_coin x)
    | meta_message_c => rewrite t_meta | page_c => rewrite t_page | route_set_c _ => rewrite t_route_set
    | list_c (route_set_c _) => rewrite t_routes | list_c custom_hook_c => rewrite (t_list _ _ x t_custom)
    | list_c clear_hook_c => rewrite (t_list _ _ x t_clear) | list_c gas_config_c => rewrite (t_list _ _ x t_gas)
    | list_c coin_c => rewrite (t_list _ _ x t_coin) | list_c (pair_c u32_c u128_c) => rewrite (t_list _ _ x t_gas_pair)
    | list_c (pair_c string_c (list_c string_c)) => rewrite (t_list _ _ x t_location)
    end
  end.
Ltac wholes := repeat whole.
Ltac finish := cbn [token_type_c fee_cases write enum pausable_c router_c connection_c write_case on put option_map tag existsb orb struct struct_of puts field optional none as_c fst snd plain]; shapes; repeat (leaf || whole); reflexivity.

(** a case writes the text [f] says *)
Definition says {A} (f : A -> str) (c : case A) : Prop :=
  forall a, match put c a with Some j => text (JObj [(tag c, j)]) = f a | None => True end.
Lemma says_cases {A} (f : A -> str) ok l a : Forall (says f) l -> fits (enum ok l) a = true -> text (write_case l a) = f a.
Proof.
  intros F H. cbn [fits enum] in H. apply andb_true_iff in H as [H _]. induction F as [|c l Hc F IH]; [discriminate H|].
  cbn [existsb write_case] in *. specialize (Hc a). destruct (put c a) as [j|]; [exact Hc|apply IH, H].
Qed.
Ltac say := intros a; destruct a; cbn [put on option_map tag under existsb orb e_ownable e_pausable e_router e_connection e_post_dispatch e_handle plain fee_cases]; try exact I.
Ltac says_each := repeat (apply Forall_cons; [|]); try apply Forall_nil.

Lemma says_ownable hx : says (message_text hx) e_ownable.
Proof. say. finish. Qed.
Lemma says_pausable hx : says (message_text hx) e_pausable.
Proof. say. destruct m; finish. Qed.
Lemma says_router hx : says (message_text hx) (e_router hx).
Proof. say. destruct m; finish. Qed.
Lemma says_connection hx : says (message_text hx) e_connection.
Proof. say. destruct m; finish. Qed.
Lemma says_post hx : says (message_text hx) e_post_dispatch.
Proof. say. finish. Qed.
Lemma says_handle hx : says (message_text hx) e_handle.
Proof. say. finish. Qed.
Lemma says_exec p : Forall (says (message_text (hex_routes p))) (exec_cases p).
Proof.
  destruct p; cbn [exec_cases hex_routes]; unfold mailbox_cases, va_cases, multisig_cases, agg_ism_cases, routing_ism_cases, pausable_ism_cases, merkle_cases,
   agg_hook_cases, pausable_hook_cases, routing_hook_cases, custom_hook_cases, fallback_hook_cases, fee_hook_cases, oracle_cases, igp_cases, warp_cases, cw20_cases;
   says_each; auto using says_ownable, says_pausable, says_router, says_connection, says_post, says_handle.
  all: say; finish.
Qed.

Lemma hex_of st : hex_router st = hex_routes (program_of st).
Proof. now destruct st. Qed.
Lemma message_texts st m : understands st m = true -> emsg_ok m = true -> write_exec (program_of st) m = message_text (hex_router st) m.
Proof.
  intros U O. rewrite hex_of. apply (says_cases _ emsg_ok); [apply says_exec|]. change (fits (exec_c (program_of st)) m = true). rewrite fits_exec, U, O. reflexivity.
Qed.
Lemma sent_texts hx m : sent m = true -> emsg_ok m = true -> send_text m = message_text hx m.
Proof.
  intros U O. apply (says_cases _ emsg_ok); [|rewrite fits_sent, U, O; reflexivity].
  apply Forall_cons; [apply says_post|]. apply Forall_cons; [apply says_handle|]. cbn [firstn cw20_cases]. says_each; say; finish.
Qed.

(** ** Queries *)
Ltac qsays := says_each; unfold q_ownable, q_pausable, q_router, q_connection, q_hook, q_ism, q_specifier, q_oracle, q_quote, q_verify, q_local_domain, q_latest_id;
  say; cbn [write enum write_case plain on put option_map tag existsb orb]; finish.
Lemma says_query p : Forall (says question_text) (query_cases p).
Proof. destruct p; cbn [query_cases]; qsays. Qed.
Lemma question_texts st m : answers_to st m = true -> qmsg_ok m = true -> write_query (program_of st) m = question_text m.
Proof.
  intros U O. apply (says_cases _ qmsg_ok); [apply says_query|]. change (fits (query_c (program_of st)) m = true). rewrite fits_query, U, O. reflexivity.
Qed.
Lemma asked_texts m : asked m = true -> qmsg_ok m = true -> ask_text m = question_text m.
Proof.
  intros U O. apply (says_cases _ qmsg_ok); [|rewrite fits_asked, U, O; reflexivity]. unfold asked_cases. qsays.
Qed.

(** ** Answers *)
Lemma reply_texts p m r : fits (answer_c p m) r = true -> answer_text p m r = reply_text (hex_routes p) m r.
Proof.
  intros F. unfold answer_text.
  destruct m; cbn [answer_c] in *; try discriminate F; 
    lazymatch goal with |- _ = reply_text _ (QVerifyInfo _) _ => destruct p | _ => idtac end; destruct r; try discriminate F; clear F;
    cbn [ans write one_string_c conn_c fees_c mailbox_c local_domain_c verified_c oracle_c gas_list_c option_map];
    unfold addr in *; finish.
Qed.

(** ** Read back *)
Lemma message_reads st m : understands st m = true -> emsg_ok m = true ->
  read_exec (program_of st) (message_text (hex_router st) m) = Some m.
Proof. intros U O. rewrite <- (message_texts st m U O). exact (exec_back st m U O). Qed.
Lemma message_inj st m m' : understands st m = true -> emsg_ok m = true -> understands st m' = true -> emsg_ok m' = true ->
  message_text (hex_router st) m = message_text (hex_router st) m' -> m = m'.
Proof.
  intros U O U' O' E. pose proof (message_reads st m U O) as H. rewrite E, (message_reads st m' U' O') in H. now injection H.
Qed.
Lemma question_reads st m : answers_to st m = true -> qmsg_ok m = true -> read_query (program_of st) (question_text m) = Some m.
Proof. intros U O. rewrite <- (question_texts st m U O). exact (query_back st m U O). Qed.
Lemma reply_reads A q e i im q' m h st0 r0 r :
  c_instantiate A q e i im = Ok (st0, r0) -> is_token st0 = false -> c_query A q' m (c_run A st0 h) = Ok r ->
  let st := c_run A st0 h in
  answer_text (program_of st) m r = reply_text (hex_router st) m r /\
  read_answer (program_of st) m (reply_text (hex_router st) m r) = Some r.
Proof.
  intros B T H st. subst st.
  pose proof (answer_fits A q e i im q' m h st0 r0 r B T H) as F. rewrite hex_of.
  rewrite <- (reply_texts _ _ _ F). split; [reflexivity|exact (answer_back _ _ _ F)].
Qed.
Lemma sent_reads hx st m : sent m = true -> emsg_ok m = true ->
  send_text m = message_text hx m /\ read_exec (program_of st) (message_text hx m) = if understands st m then Some m else None.
Proof. intros S O. rewrite <- (sent_texts hx m S O). split; [reflexivity|exact (sent_read st m S O)]. Qed.
Lemma asked_reads st m : asked m = true -> qmsg_ok m = true ->
  ask_text m = question_text m /\ read_query (program_of st) (question_text m) = if answers_to st m then Some m else None.
Proof. intros S O. rewrite <- (asked_texts m S O). split; [reflexivity|exact (asked_read st m S O)]. Qed.
