(** * Queries and answers are read as what was written. *)
From Coq Require Import List NArith Bool Lia Arith.
From Verif Require Import Base BaseFacts OMap Coins Hex HexFacts Json SpecJson JsonFacts Chain Ownable Contracts Wire WireQuery SpecQuery SpecWire WireFacts.
Import ListNotations.

Lemma good_order : good order_c.
Proof. split; [now intros []|now intros []|discriminate|reflexivity|]. intros j a _ E. apply alike_leaf_inv in E; [|exact I]. subst j. now destruct a. Qed.

Lemma law_plain {A} (ok : A -> bool) t a is :
  (forall x, is x = true -> x = a) -> is a = true -> ok a = true -> lawful ok (plain t a is).
Proof.
  intros H1 H2 H3. apply lawful_on.
  - apply good_struct; [exact shape_none|reflexivity].
  - intros [] _. now rewrite H2.
  - intros x u. destruct (is x) eqn:E; [|discriminate]. intros _. now apply H1.
  - reflexivity.
  - intros _ _. exact H3.
Qed.

Ltac open_q := open_fits; cbn [fits sfits struct struct_of field optional none order_c page_c qmsg_ok ou32_ok] in *; open_fits.
Ltac qlaw1 :=
  apply lawful_on;
  [ codec_good; first [exact good_order | exact good_dispatch | idtac]
  | intros x Hx; parts; reflexivity
  | intros a x; destruct a; intros Hx; try discriminate Hx; injection Hx as <-; reflexivity
  | intros a x; destruct a; intros Hx Ha; try discriminate Hx; injection Hx as <-; open_q; widths
  | intros x Hx; parts; open_q; widths ].
Ltac qlaw :=
  each;
  first
  [ apply law_plain; [intros x; destruct x; intros Hx; try discriminate Hx; reflexivity|reflexivity|reflexivity]
  | apply lawful_under; [|reflexivity]; qlaw
  | qlaw1 ].

Lemma law_query p : Forall (lawful qmsg_ok) (query_cases p).
Proof. destruct p; qlaw. Qed.
Lemma tags_query p : distinct (map tag (query_cases p)) = true.
Proof. destruct p; vm_compute; reflexivity. Qed.
Lemma good_query p : good (query_c p).
Proof. apply good_enum; [apply law_query|apply tags_query]. Qed.

(** the variants of each program's enum are the queries it answers *)
Lemma fits_query st m : fits (query_c (program_of st)) m = (answers_to st m && qmsg_ok m)%bool.
Proof. unfold query_c, enum, fits. f_equal. destruct st; destruct m; reflexivity. Qed.

Lemma query_back st m : answers_to st m = true -> qmsg_ok m = true ->
  read_query (program_of st) (write_query (program_of st) m) = Some m.
Proof.
  intros U O. assert (F : fits (query_c (program_of st)) m = true) by (rewrite fits_query, U, O; reflexivity).
  pose proof (good_query (program_of st)) as G. unfold read_query, write_query.
  rewrite parse_text by (apply (g_small _ G), F). apply (g_back _ G), F.
Qed.
Lemma query_only st t m : read_query (program_of st) t = Some m -> answers_to st m = true /\ qmsg_ok m = true.
Proof.
  unfold read_query. destruct (parse t) as [j|]; [|discriminate]. intros H.
  apply (g_fits _ (good_query (program_of st))) in H. rewrite fits_query in H. now apply andb_true_iff in H.
Qed.

(** ** Messages between contracts *)
Lemma law_sent : Forall (lawful emsg_ok) sent_cases.
Proof.
  apply Forall_cons; [exact law_post_dispatch|]. apply Forall_cons; [exact law_handle|]. apply Forall_cons.
  - pose proof law_mailbox as L. inversion_clear L as [|? ? _ L1]. inversion_clear L1 as [|? ? _ L2].
    inversion_clear L2 as [|? ? _ L3]. inversion_clear L3 as [|? ? _ L4]. inversion_clear L4 as [|? ? L5 _]. exact L5.
  - apply Forall_forall. intros c Hc. pose proof law_cw20 as L. unfold lawful_all in L. rewrite Forall_forall in L. apply L.
    apply (firstn_In _ _ _ Hc) || (rewrite <- (firstn_skipn 4 cw20_cases); apply in_or_app; now left).
Qed.
Lemma fits_sent m : fits (enum emsg_ok sent_cases) m = (sent m && emsg_ok m)%bool.
Proof. unfold enum, fits. f_equal. destruct m; reflexivity. Qed.
Lemma good_sent : good (enum emsg_ok sent_cases).
Proof. apply good_enum; [exact law_sent|vm_compute; reflexivity]. Qed.

Lemma read_case_none {A} (l : list (case A)) t b : mem_bytes t (map tag l) = false -> read_case l t b = None.
Proof.
  induction l as [|c l IH]; [reflexivity|]. cbn [map mem_bytes read_case]. intros H. apply orb_false_iff in H as [-> H]. now apply IH.
Qed.

Lemma sent_read st m : sent m = true -> emsg_ok m = true ->
  read_exec (program_of st) (send_text m) = if understands st m then Some m else None.
Proof.
  intros S O. pose proof good_sent as G.
  assert (F : fits (enum emsg_ok sent_cases) m = true) by (rewrite fits_sent, S, O; reflexivity).
  pose proof (g_small _ G m F) as Sm. unfold send_text, read_exec. change (write_case sent_cases m) with (write (enum emsg_ok sent_cases) m).
  rewrite (parse_text _ Sm). destruct (understands st m) eqn:U.
  - assert (E : write (enum emsg_ok sent_cases) m = write (exec_c (program_of st)) m).
    { destruct st; destruct m; try discriminate U; try discriminate S; reflexivity. }
    rewrite E. apply (g_back _ (good_exec (program_of st))). rewrite fits_exec, U, O. reflexivity.
  - destruct st; destruct m; try discriminate U; try discriminate S; reflexivity.
Qed.

Lemma law_asked : Forall (lawful qmsg_ok) asked_cases.
Proof. qlaw. Qed.
Lemma fits_asked m : fits (enum qmsg_ok asked_cases) m = (asked m && qmsg_ok m)%bool.
Proof. unfold enum, fits. f_equal. destruct m; reflexivity. Qed.
Lemma good_asked : good (enum qmsg_ok asked_cases).
Proof. apply good_enum; [exact law_asked|vm_compute; reflexivity]. Qed.

Lemma asked_read st m : asked m = true -> qmsg_ok m = true ->
  read_query (program_of st) (ask_text m) = if answers_to st m then Some m else None.
Proof.
  intros S O. pose proof good_asked as G.
  assert (F : fits (enum qmsg_ok asked_cases) m = true) by (rewrite fits_asked, S, O; reflexivity).
  pose proof (g_small _ G m F) as Sm. unfold ask_text, read_query. change (write_case asked_cases m) with (write (enum qmsg_ok asked_cases) m).
  rewrite (parse_text _ Sm). destruct (answers_to st m) eqn:U.
  - assert (E : write (enum qmsg_ok asked_cases) m = write (query_c (program_of st)) m).
    { destruct st; destruct m; try discriminate U; try discriminate S; reflexivity. }
    rewrite E. apply (g_back _ (good_query (program_of st))). rewrite fits_query, U, O. reflexivity.
  - destruct st; destruct m; try discriminate U; try discriminate S; reflexivity.
Qed.

(** ** Answers *)
Lemma good_ans {X R} (c : codec X) (f : X -> R) (g : R -> option X) : good c -> (forall x, fits c x = true -> g (f x) = Some x) ->
  (forall r x, g r = Some x -> r = f x) -> good (ans c f g).
Proof.
  intros G H1 H2. split; cbn [ans read write fits].
  - intros r. destruct (g r) as [x|] eqn:E; [|discriminate]. intros F. rewrite (g_back c G x F). cbn [option_map].
    f_equal. symmetry. now apply H2.
  - intros r. destruct (g r) as [x|] eqn:E; [|discriminate]. apply (g_small c G).
  - intros r. destruct (g r) as [x|] eqn:E; [|discriminate]. apply (g_there c G).
  - intros j r. destruct (read c j) as [x|] eqn:E; [|discriminate]. cbn [option_map]. intros F. injection F as <-.
    rewrite (H1 x (g_fits c G _ _ E)). apply (g_fits c G _ _ E).
  - intros j r. destruct (g r) as [x|] eqn:E; [|discriminate]. intros F Al. rewrite (g_alike c G j x F Al). cbn [option_map].
    f_equal. symmetry. now apply H2.
Qed.
Lemma good_branch : good branch_c.
Proof.
  pose proof (good_list hex_c good_hex) as G. split; cbn [branch_c read write fits].
  - intros l H. rewrite (g_back _ G l); [now rewrite H|]. cbn [list_c fits]. apply forallb_yes.
  - intros l _. apply (g_small _ G l). cbn [list_c fits]. apply forallb_yes.
  - discriminate.
  - intros j l. destruct (read (list_c hex_c) j) as [l'|]; [|discriminate].
    destruct (Nat.eqb (length l') 32) eqn:E; [|discriminate]. intros H. injection H as <-. exact E.
  - intros j l H Al. rewrite (g_alike _ G j l); [now rewrite H| |exact Al]. cbn [list_c fits]. apply forallb_yes.
Qed.
Lemma good_ism_type : good ism_type_c.
Proof. split; [now intros []|now intros []|discriminate|reflexivity|]. intros j a _ E. apply alike_leaf_inv in E; [|exact I]. subst j. now destruct a. Qed.
Lemma good_token_mode : good token_mode_c.
Proof. split; [now intros []|now intros []|discriminate|reflexivity|]. intros j a _ E. apply alike_leaf_inv in E; [|exact I]. subst j. now destruct a. Qed.
Lemma good_token_type : good token_type_c.
Proof.
  apply good_enum; [|reflexivity]. each.
  - apply lawful_on; [|reflexivity|intros [] x; try discriminate; intros H; injection H as <-; reflexivity|reflexivity|reflexivity].
    apply good_enum; [|reflexivity]. each. apply lawful_on; [codec_good|now intros (x & [])| |reflexivity|reflexivity].
    intros a x H. injection H as <-. reflexivity.
  - apply lawful_on; [codec_good|now intros (x & [])|intros [] x; try discriminate; intros H; injection H as <-; reflexivity|reflexivity|reflexivity].
Qed.
Lemma good_no_answer : good no_answer_c.
Proof. split; discriminate. Qed.
Lemma good_one_string k f g : (forall x, g (f x) = Some x) -> (forall r x, g r = Some x -> r = f x) -> good (one_string_c k f g).
Proof.
  intros H1 H2. apply good_ans.
  - codec_good.
  - intros (x & []) _. now rewrite H1.
  - intros r (x & []). destruct (g r) as [y|] eqn:E; [|discriminate]. intros H. injection H as <-. now apply H2.
Qed.

Ltac ans_good :=
  first
  [ exact good_no_answer
  | apply good_one_string; [reflexivity|intros r x; destruct r; intros Hx; try discriminate Hx; injection Hx as <-; reflexivity]
  | apply good_ans;
    [ codec_good; first [exact good_coin | exact good_custom_hook | exact good_branch | exact good_ism_type | exact good_token_mode
        | exact good_token_type | apply good_route_set | idtac]
    | intros x Hx; parts; try reflexivity
    | intros r x; destruct r; intros Hx; try discriminate Hx; injection Hx as <-; reflexivity ] ].

Lemma good_answer p m : good (answer_c p m).
Proof.
  destruct m; unfold answer_c; try ans_good.
  - destruct p; ans_good.
  - destruct t; reflexivity.
Qed.

Lemma answer_back p m r : fits (answer_c p m) r = true -> read_answer p m (answer_text p m r) = Some r.
Proof.
  intros F. pose proof (good_answer p m) as G. unfold read_answer, answer_text.
  rewrite parse_text by (apply (g_small _ G), F). apply (g_back _ G), F.
Qed.

(** every number of an answer is as wide as its field *)
Definition wide (r : qres) : bool :=
  match r with
  | RDomains l => forallb u32_ok l
  | RRoute x => u32_ok (rs_domain x)
  | RRoutes l => forallb (fun x => u32_ok (rs_domain x)) l
  | RFees l => forallb (fun c => u128_ok (c_amount c)) l
  | RVerifyInfo t _ | REnrolled _ t | RIsms _ t => u8_ok t
  | RLocalDomain n | RNonce n | RCount n | RCheckPoint _ n => u32_ok n
  | RBranch b => Nat.eqb (length b) 32
  | RTree b n => Nat.eqb (length b) 32 && u32_ok n
  | RFee c => u128_ok (c_amount c)
  | RCustomHook h => u32_ok (ch_dest h)
  | RCustomHooks l => forallb (fun h => u32_ok (ch_dest h)) l
  | RGas g => u128_ok g
  | RGasList l => forallb (fun p => u32_ok (fst p) && u128_ok (snd p)) l
  | RGasNeeded g => u256_ok g
  | ROracle a b => u128_ok a && u128_ok b
  | _ => true
  end%bool.
