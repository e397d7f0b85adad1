(** * Reading and writing single entries of a database made of cells. *)
From Coq Require Import List NArith Bool Lia Arith.
From Verif Require Import Base BaseFacts OMap Crypto Coins Hex Merkle Json JsonFacts Chain Ownable Router Utils Mailbox Va
  Isms Hooks Igp Warp Cw20 Contracts Wire WireQuery SpecWire WireFacts WireQueryFacts StepFacts WireWidths Store StoreFacts SpecStore StoreState
  StoreFrame StorePages Raw SpecRaw.
Import ListNotations.

(** ** Writing *)
Definition changed (k : bytes) (o : option bytes) (c c' : cell) : Prop :=
  title c = title c' /\ ordered c' /\ claims c k = true /\
  forall k', claims c k' = true -> cell_get c' k' = if bytes_eqb k' k then o else cell_get c k'.
Inductive changed_in (k : bytes) (o : option bytes) : list cell -> list cell -> Prop :=
| in_here c c' l : changed k o c c' -> changed_in k o (c :: l) (c' :: l)
| in_there c l l' : changed_in k o l l' -> changed_in k o (c :: l) (c :: l').
Lemma title_plain c c' : title c = title c' -> plain c = plain c'.
Proof. destruct c, c'; cbn [title plain]; intros H; try discriminate; now injection H as ->. Qed.
Lemma changed_split k o l l' : changed_in k o l l' ->
  exists c c', In c l /\ In c' l' /\ changed k o c c' /\ map title l = map title l' /\ forallb plain l = forallb plain l' /\
    (Forall ordered l -> Forall ordered l').
Proof.
  induction 1 as [c c' l H|c l l' H (a & a' & I & I' & C & T & P & O)].
  - exists c, c'. split; [now left|]. split; [now left|]. split; [exact H|]. destruct H as (H1 & H2 & _). split; [cbn [map]; now rewrite H1|].
    split; [cbn [forallb]; now rewrite (title_plain _ _ H1)|]. intros F. inversion F; subst. now constructor.
  - exists a, a'. split; [now right|]. split; [now right|]. split; [exact C|]. split; [cbn [map]; now rewrite T|].
    split; [cbn [forallb]; now rewrite P|]. intros F. inversion F; subst. constructor; auto.
Qed.
Lemma changed_agree k o l l' k' : changed_in k o l l' -> k' <> k -> Forall2 (agree k') l l'.
Proof.
  intros H N. induction H as [c c' l (H1 & _ & _ & H)|c l l' H IH].
  - constructor; [|induction l; constructor; auto using agree_refl]. split; [exact H1|]. intros C. rewrite (H k' C).
    destruct (bytes_eqb k' k) eqn:E; [apply bytes_eqb_eq in E; contradiction|reflexivity].
  - constructor; [apply agree_refl|exact IH].
Qed.
Lemma changed_neat k o l l' : changed_in k o l l' -> neat l -> neat l'.
Proof.
  intros H [N1 N2 N3]. destruct (changed_split _ _ _ _ H) as (c & c' & I & I' & C & T & P & O). split; [now rewrite <- P|now rewrite <- T|auto].
Qed.
Lemma changed_get k o l l' k' : changed_in k o l l' -> neat l ->
  om_get k' (layout l') = if bytes_eqb k' k then o else om_get k' (layout l).
Proof.
  intros H N. pose proof (changed_neat _ _ _ _ H N) as N'. destruct (bytes_eqb k' k) eqn:E.
  - apply bytes_eqb_eq in E as ->. destruct (changed_split _ _ _ _ H) as (c & c' & I & I' & (T & _ & C & G) & _).
    rewrite (layout_get l' c' k N' I') by now rewrite <- (title_claims c c' k T). now rewrite (G k C), bytes_eqb_refl.
  - apply layout_frame; auto. apply (changed_agree _ _ _ _ _ H). intros ->. now rewrite bytes_eqb_refl in E.
Qed.

(** a database made of these cells *)
Definition wrote (l : list cell) (d : db) : Prop := neat l /\ d = layout l.
Lemma keqb_bytes a b : keqb (a : bytes) b = bytes_eqb a b.
Proof. destruct (bytes_eqb a b) eqn:E; [apply bytes_eqb_eq in E as ->; apply keqb_refl|]. destruct (keqb a b) eqn:F; [|reflexivity]. apply keqb_eq in F as ->. now rewrite bytes_eqb_refl in E. Qed.
Lemma save_wrote {A} (c : codec A) k a l l' d : changed_in k (Some (value_text c a)) l l' -> wrote l d -> wrote l' (save c k a d).
Proof.
  intros H [N ->]. split; [exact (changed_neat _ _ _ _ H N)|]. apply om_sorted_ext; [apply om_sorted_set, layout_sorted|apply layout_sorted|].
  intros k'. rewrite (changed_get _ _ _ _ k' H N). unfold save. rewrite om_get_set. now rewrite keqb_bytes.
Qed.
Lemma erase_wrote k l l' d : changed_in k None l l' -> wrote l d -> wrote l' (erase k d).
Proof.
  intros H [N ->]. split; [exact (changed_neat _ _ _ _ H N)|]. apply om_sorted_ext; [apply om_sorted_del, layout_sorted|apply layout_sorted|].
  intros k'. rewrite (changed_get _ _ _ _ k' H N). unfold erase. rewrite om_get_del. now rewrite keqb_bytes.
Qed.
Lemma changed_one k o o' : changed k o (One k o') (One k o).
Proof. split; [reflexivity|]. split; [exact I|]. split; [apply bytes_eqb_refl|]. intros k' C. cbn [claims] in C. now rewrite C. Qed.
Section Kind.
  Context {X V : Type} {OK : OrdKey X} (ok : X -> bool) (key : X -> bytes) (back : bytes -> option X).
  Hypothesis KK : key_kind ok key back.
  Lemma kind_inj a b : ok a = true -> ok b = true -> key a = key b -> a = b.
  Proof. intros A B E. pose proof (kk_back _ _ _ KK a A) as H. rewrite E, (kk_back _ _ _ KK b B) in H. now apply Some_inj in H. Qed.
  Lemma kind_eqb a b : ok a = true -> ok b = true -> bytes_eqb (key a) (key b) = keqb a b.
  Proof. intros A B. rewrite <- keqb_bytes. now apply (key_same ok key back KK). Qed.
  Lemma path_eqb ns r x : bytes_eqb (path ns r) (path ns x) = bytes_eqb r x.
  Proof.
    destruct (bytes_eqb r x) eqn:E; [apply bytes_eqb_eq in E as ->; apply bytes_eqb_refl|].
    destruct (bytes_eqb (path ns r) (path ns x)) eqn:F; [|reflexivity]. apply bytes_eqb_eq in F. apply app_inv_head in F as ->.
    now rewrite bytes_eqb_refl in E.
  Qed.
  Lemma changed_rows (c : codec V) ns m m' x o : holds ok c m -> holds ok c m' -> ok x = true ->
    (forall y, om_get y m' = if keqb y x then o else om_get y m) ->
    changed (path ns (key x)) (option_map (value_text c) o) (table ns key c m) (table ns key c m').
  Proof.
    intros H H' Hx G. split; [reflexivity|]. split; [exact (rows_sorted _ _ _ KK c m' H')|]. split; [apply starts_app|].
    intros k C. cbn [claims table] in C. apply starts_split in C. cbn [cell_get table].
    set (r := skipn (length (prefix [ns])) k) in *. clearbody r. change (k = path ns r) in C. subst k. rewrite path_eqb.
    change (om_get r (rows key c m') = if bytes_eqb r (key x) then option_map (value_text c) o else om_get r (rows key c m)).
    destruct (bytes_eqb r (key x)) eqn:E.
    - apply bytes_eqb_eq in E as ->. rewrite (rows_get _ _ _ KK c m' x H' Hx), G, keqb_refl. reflexivity.
    - assert (Q : forall y, ok y = true -> r = key y -> om_get r (rows key c m') = om_get r (rows key c m)).
      { intros y Hy ->. rewrite (rows_get _ _ _ KK c m' y H' Hy), (rows_get _ _ _ KK c m y H Hy), G.
        rewrite kind_eqb in E by assumption. now rewrite E. }
      destruct (om_get r (rows key c m')) as [t|] eqn:E1.
      + destruct (rows_In ok key c m' r t H' E1) as (y & a & O & R & _). now apply (Q y O R).
      + destruct (om_get r (rows key c m)) as [t|] eqn:E2; [|reflexivity].
        destruct (rows_In ok key c m r t H E2) as (y & a & O & R & _). now apply (Q y O R).
  Qed.
  Lemma changed_set (c : codec V) ns m x a : holds ok c m -> ok x = true -> fits c a = true ->
    changed (path ns (key x)) (Some (value_text c a)) (table ns key c m) (table ns key c (om_set x a m)).
  Proof. intros H Hx F. apply (changed_rows c ns m (om_set x a m) x (Some a)); auto using holds_set. intros y. apply om_get_set. Qed.
  Lemma changed_del (c : codec V) ns m x : holds ok c m -> ok x = true ->
    changed (path ns (key x)) None (table ns key c m) (table ns key c (om_del x m)).
  Proof. intros H Hx. apply (changed_rows c ns m (om_del x m) x None); auto using holds_del. intros y. apply om_get_del. Qed.
End Kind.
Definition set_u32 {V} := @changed_set N V OrdN u32_ok u32_key u32_back kind_u32.
Definition set_bytes {V} := @changed_set bytes V OrdBytes any (fun k => k) octets_back kind_bytes.
Definition set_pair {V} := @changed_set (N * bytes) V OrdPair pair_ok pair_key pair_back kind_pair.
Definition del_u32 {V} := @changed_del N V OrdN u32_ok u32_key u32_back kind_u32.
Definition del_pair {V} := @changed_del (N * bytes) V OrdPair pair_ok pair_key pair_back kind_pair.
Lemma changed_at k o pre c c' post : changed k o c c' -> changed_in k o (pre ++ c :: post) (pre ++ c' :: post).
Proof. intros H. induction pre as [|x pre IH]; cbn [app]; [now apply in_here|now apply in_there]. Qed.

(** ** Reading *)
Lemma stored_wrote v st : stored st -> wrote (info_cell v :: cells st) (storage v st).
Proof. intros W. split; [now apply cells_neat|reflexivity]. Qed.
Lemma wrote_item {A} (c : codec A) k a l d : wrote l d -> In (item k c a) l -> kept c -> fits c a = true -> load c k d = Ok a.
Proof. intros [N ->]. now apply load_item. Qed.
Lemma wrote_maybe {A} (c : codec A) k o l d : wrote l d -> In (maybe k c o) l -> kept c ->
  match o with Some a => fits c a = true | None => True end -> may_load c k d = Ok o.
Proof. intros [N ->]. now apply may_load_maybe. Qed.
Lemma wrote_load {A} (c : codec A) k o l d : wrote l d -> In (maybe k c o) l -> kept c ->
  match o with Some a => fits c a = true | None => True end -> load c k d = ok_or o EStd.
Proof. intros W I K F. unfold load. now rewrite (wrote_maybe c k o l d W I K F). Qed.
Lemma wrote_has {A} (c : codec A) k o l d : wrote l d -> In (maybe k c o) l -> has k d = match o with Some _ => true | None => false end.
Proof.
  intros [N ->] I. unfold has. rewrite (layout_get l _ k N I) by apply bytes_eqb_refl. cbn [cell_get maybe]. now destruct o.
Qed.
Section KindRead.
  Context {X V : Type} {OK : OrdKey X} (ok : X -> bool) (key : X -> bytes) (back : bytes -> option X).
  Hypothesis KK : key_kind ok key back.
  Context (c : codec V) (l : list cell) (d : db) (ns : str) (m : omap X V).
  Hypotheses (W : wrote l d) (I : In (table ns key c m) l) (H : holds ok c m).
  Lemma wrote_row x : kept c -> ok x = true -> may_load c (path ns (key x)) d = Ok (om_get x m).
  Proof. destruct W as [N ->]. intros K Hx. now apply (load_table ok key back KK). Qed.
  Lemma wrote_row_load x : kept c -> ok x = true -> load c (path ns (key x)) d = ok_or (om_get x m) EStd.
  Proof. intros K Hx. unfold load. now rewrite wrote_row. Qed.
  Lemma wrote_row_has x : ok x = true -> has (path ns (key x)) d = match om_get x m with Some _ => true | None => false end.
  Proof.
    destruct W as [N ->]. intros Hx. unfold has, path. rewrite (table_get key c l ns m _ N I), (rows_get ok key back KK c m x H Hx).
    now destruct (om_get x m).
  Qed.
  Lemma wrote_keys : kept c -> tame (prefix [ns]) -> load_keys back ns d = Ok (om_keys m).
  Proof.
    intros K T. destruct W as [N ->]. pose proof (load_all_table ok key back KK c l ns m N I K H T) as L.
    unfold load_all, load_range, load_list in L. unfold load_keys, om_keys. revert L.
    generalize (ranged (prefix [ns]) None None Asc (layout l)). clear. intros r. revert m.
    induction r as [|e r IH]; intros m L; cbn [mapM] in *; [apply Ok_inj in L as <-; reflexivity|].
    apply bind_Ok_inv in L as (p & P & L). apply bind_Ok_inv in L as (ps & Ps & L). apply Ok_inj in L as <-.
    rewrite (IH _ Ps). destruct (back (fst e)) as [k|]; [|discriminate P]. destruct (value_read c (snd e)); [|discriminate P].
    apply Ok_inj in P as <-. reflexivity.
  Qed.
  Lemma wrote_page start lim o : kept c -> tame (prefix [ns]) -> match start with Some k => ok k = true | None => True end ->
    load_page key back c (prefix [ns]) start lim o d = range_page m start lim o.
  Proof. intros K T S. destruct W as [N ->]. now apply (load_page_table ok key back KK). Qed.
End KindRead.
Lemma wrote_route h n r l d : wrote l d -> In (routes_cell h r) l -> routes_held h r -> u32_ok n = true ->
  load_route h n d = rs_route (get_route r n).
Proof.
  intros [N ->] I H O. unfold get_route. cbn [rs_route]. unfold load_route, load, may_load, Router.load_route, path.
  rewrite (table_get u32_key (option_c (route_c h)) _ (s "routes") r) by (first [exact N|exact I]).
  rewrite (rows_get _ _ _ kind_u32 (option_c (route_c h)) r n H O). destruct (om_get n r) as [[b|]|] eqn:G; cbn [option_map].
  - assert (K : value_read (route_c h) (value_text (option_c (route_c h)) (Some b)) = Some b)
      by (apply (kept_good (route_c h) (good_route h) b); destruct h; reflexivity).
    now rewrite K.
  - assert (K : value_read (route_c h) (value_text (option_c (route_c h)) None) = None) by (destruct h; reflexivity).
    now rewrite K.
  - reflexivity.
Qed.

(** ** Folds *)
Section Folds.
  Context {E M : Type} (L : M -> list cell) (P : M -> Prop).
  Lemma foldM_wrote (f : db -> E -> res db) (g : M -> E -> res M) l :
    (forall m e d, In e l -> P m -> wrote (L m) d ->
       match g m e with
       | Ok m' => P m' /\ exists d', f d e = Ok d' /\ wrote (L m') d'
       | Err x => f d e = Err x
       | Panic => f d e = Panic
       end) ->
    forall m d, P m -> wrote (L m) d -> foldM f l d = (m' <- foldM g l m ;; Ok (layout (L m'))).
  Proof.
    induction l as [|e l IH]; intros S m d Hm W; cbn [foldM].
    - cbn [bind]. now rewrite (proj2 W).
    - pose proof (S m e d (or_introl eq_refl) Hm W) as X. destruct (g m e) as [m'|x|]; cbn [bind].
      + destruct X as (Hm' & d' & -> & W'). cbn [bind]. apply IH; auto. intros m0 e0 d0 H0. apply S. now right.
      + now rewrite X.
      + now rewrite X.
  Qed.
  Lemma fold_wrote (f : db -> E -> db) (g : M -> E -> M) l :
    (forall m e d, In e l -> P m -> wrote (L m) d -> P (g m e) /\ wrote (L (g m e)) (f d e)) ->
    forall m d, P m -> wrote (L m) d -> fold_left f l d = layout (L (fold_left g l m)).
  Proof.
    induction l as [|e l IH]; intros S m d Hm W; cbn [fold_left]; [exact (proj2 W)|].
    destruct (S m e d (or_introl eq_refl) Hm W) as [Hm' W']. apply IH; auto. intros m0 e0 d0 H0. apply S. now right.
  Qed.
End Folds.

(** ** Tactics *)
Lemma hexes_fit l : fits (list_c hex_c) l = true.
Proof. apply strings_fit. Qed.
#[export] Hint Resolve strings_fit' hexes_fit route_fits config_fits coin_fits holds_set holds_del : store.
Ltac seek := cbn [cells own_cells warp_cells conn_cells routes_cell pause_cell app]; repeat (first [left; reflexivity|right]).
Ltac fit := first [assumption | reflexivity | solve [auto with store]].
Ltac same a b := constr_eq a b.
Ltac put := lazymatch goal with
  | |- changed_in ?k _ (info_cell _ :: _) _ => first [same k (s "contract_info"); apply in_here, changed_one | apply in_there; put]
  | |- changed_in ?k _ (item ?k' _ _ :: _) _ => first [same k k'; apply in_here, changed_one | apply in_there; put]
  | |- changed_in ?k _ (maybe ?k' _ _ :: _) _ => first [same k k'; apply in_here, changed_one | apply in_there; put]
  | |- changed_in ?k _ (One ?k' _ :: _) _ => first [same k k'; apply in_here, changed_one | apply in_there; put]
  | |- changed_in (path ?ns (u32_key ?x)) (Some _) (table ?ns' u32_key ?c ?m :: _) _ =>
      first [same ns ns'; apply in_here, set_u32; fit | apply in_there; put]
  | |- changed_in (path ?ns (u32_key ?x)) None (table ?ns' u32_key ?c ?m :: _) _ =>
      first [same ns ns'; apply in_here, del_u32; fit | apply in_there; put]
  | |- changed_in (path ?ns (pair_key ?x)) (Some _) (table ?ns' pair_key ?c ?m :: _) _ =>
      first [same ns ns'; apply in_here, set_pair; fit | apply in_there; put]
  | |- changed_in (path ?ns (pair_key ?x)) None (table ?ns' pair_key ?c ?m :: _) _ =>
      first [same ns ns'; apply in_here, del_pair; fit | apply in_there; put]
  | |- changed_in (path ?ns ?x) (Some _) (table ?ns' _ ?c ?m :: _) _ =>
      first [same ns ns'; apply in_here, set_bytes; fit | apply in_there; put]
  | |- changed_in _ _ (_ :: _) _ => apply in_there; put
  end.
Ltac found E := rewrite E; clear E; cbn [bind ok_or].
Ltac fetch1 :=
  match goal with
  | W : wrote ?l ?d |- context [load ?c (path ?ns (u32_key ?x)) ?d] =>
      let E := fresh in eassert (E : load c (path ns (u32_key x)) d = ok_or (om_get x _) EStd)
        by (eapply (wrote_row_load u32_ok u32_key u32_back kind_u32 c l d ns _ W); [seek|fit|fit|fit]); found E
  | W : wrote ?l ?d |- context [load ?c (path ?ns (pair_key ?x)) ?d] =>
      let E := fresh in eassert (E : load c (path ns (pair_key x)) d = ok_or (om_get x _) EStd)
        by (eapply (wrote_row_load pair_ok pair_key pair_back kind_pair c l d ns _ W); [seek|fit|fit|fit]); found E
  | W : wrote ?l ?d |- context [load ?c ?k ?d] =>
      let E := fresh in first
        [ eassert (E : load c k d = Ok _) by (eapply (wrote_item c k _ l d W); [seek|fit|fit]); found E
        | eassert (E : load c k d = ok_or _ EStd) by (eapply (wrote_load c k _ l d W); [seek|fit|match goal with |- match ?o with _ => _ end => destruct o; fit end]); found E ]
  | W : wrote ?l ?d |- context [may_load ?c (path ?ns (u32_key ?x)) ?d] =>
      let E := fresh in eassert (E : may_load c (path ns (u32_key x)) d = Ok (om_get x _))
        by (eapply (wrote_row u32_ok u32_key u32_back kind_u32 c l d ns _ W); [seek|fit|fit|fit]); found E
  | W : wrote ?l ?d |- context [may_load ?c (path ?ns (pair_key ?x)) ?d] =>
      let E := fresh in eassert (E : may_load c (path ns (pair_key x)) d = Ok (om_get x _))
        by (eapply (wrote_row pair_ok pair_key pair_back kind_pair c l d ns _ W); [seek|fit|fit|fit]); found E
  | W : wrote ?l ?d |- context [may_load ?c (path ?ns ?x) ?d] =>
      let E := fresh in eassert (E : may_load c (path ns x) d = Ok (om_get x _))
        by (eapply (wrote_row any (fun k => k) octets_back kind_bytes c l d ns _ W); [seek|fit|fit|fit]); found E
  | W : wrote ?l ?d |- context [may_load ?c ?k ?d] =>
      let E := fresh in eassert (E : may_load c k d = Ok _)
        by (eapply (wrote_maybe c k _ l d W); [seek|fit|match goal with |- match ?o with _ => _ end => destruct o; fit end]); found E
  | W : wrote ?l ?d |- context [has (path ?ns ?x) ?d] =>
      let E := fresh in eassert (E : has (path ns x) d = match om_get x _ with Some _ => true | None => false end)
        by (eapply (wrote_row_has any (fun k => k) octets_back kind_bytes _ l d ns _ W); [seek|fit|fit]); found E
  | W : wrote ?l ?d |- context [has ?k ?d] =>
      let E := fresh in eassert (E : has k d = match _ with Some _ => true | None => false end)
        by (eapply (wrote_has _ k _ l d W); seek); found E
  | W : wrote ?l ?d |- context [load_route ?h ?n ?d] =>
      let E := fresh in eassert (E : load_route h n d = rs_route (get_route _ n)) by (eapply (wrote_route h n _ l d W); [seek|fit|fit]); found E
  end.
Ltac fetch := repeat fetch1.
Ltac head t := lazymatch t with bind ?e _ => head e | _ => t end.
Ltac step1 :=
  match goal with
  | |- ?l = _ => let e := head l in lazymatch e with Ok _ => fail | Err _ => fail | Panic => fail | _ => destruct e eqn:?; cbn [bind]; try reflexivity end
  end.
Ltac write1 :=
  match goal with
  | W : wrote ?l ?d |- context [save ?c ?k ?a ?d] =>
      let W' := fresh "W" in let d' := fresh "d" in
      eassert (W' : wrote _ (save c k a d)) by (eapply save_wrote; [|exact W]; put);
      revert W'; generalize (save c k a d); intros d' W'
  | W : wrote ?l ?d |- context [erase ?k ?d] =>
      let W' := fresh "W" in let d' := fresh "d" in
      eassert (W' : wrote _ (erase k d)) by (eapply erase_wrote; [|exact W]; put);
      revert W'; generalize (erase k d); intros d' W'
  end.
Ltac closing := match goal with W : wrote ?l ?d |- context [?d] => rewrite (proj2 W); reflexivity end.

(** ** The parts that contracts share *)
Section Shared.
  Context (A : api) (i : info) (v : cw2) (o : own) (l : list cell) (d : db).
  Hypotheses (W : wrote l d) (Io : In (item (s "owner") string_c (o_owner o)) l).
  Lemma raw_guard_eq : raw_guard i d = only_owner o i.
  Proof. unfold raw_guard, raw_owner. rewrite (wrote_item string_c (s "owner") (o_owner o) l d W Io) by fit. reflexivity. Qed.
  Lemma raw_own_query_eq m : In (maybe (s "pending_owner") string_c (o_pending o)) l -> raw_own_query m d = own_query m o.
  Proof.
    intros Ip. unfold raw_own_query, raw_owner. destruct m; try reflexivity; cbn [own_query].
    - rewrite (wrote_item string_c (s "owner") (o_owner o) l d W Io) by fit. reflexivity.
    - rewrite (wrote_maybe string_c (s "pending_owner") (o_pending o) l d W Ip) by first [fit|destruct (o_pending o); fit]. reflexivity.
  Qed.
  Lemma raw_router_query_eq h r m : In (routes_cell h r) l -> routes_held h r -> qmsg_ok m = true -> raw_router_query h m d = router_query m r.
  Proof.
    intros I H O. unfold raw_router_query. destruct m; try reflexivity; cbn [router_query qmsg_ok] in *.
    - unfold routes_cell in I. rewrite (wrote_keys u32_ok u32_key u32_back kind_u32 _ l d (s "routes") r W I H) by first [fit|now apply tame_name]. reflexivity.
    - rewrite (wrote_route h _ r l d W I H O). reflexivity.
    - apply andb_true_iff in O as [O _]. unfold routes_cell in I.
      rewrite (wrote_page u32_ok u32_key u32_back kind_u32 _ l d (s "routes") r W I H) by first [fit|now apply tame_name|match goal with |- match ?x with _ => _ end => destruct x; [exact O|exact Logic.I] end].
      unfold get_routes. match goal with |- context [range_page ?a ?b ?c ?e] => destruct (range_page a b c e) end; reflexivity.
  Qed.
End Shared.
Lemma raw_own_handle_eq A i v o rest m d : wrote (info_cell v :: own_cells o ++ rest) d ->
  raw_own_handle A i m d = (o' <- own_handle A i m o ;; Ok (layout (info_cell v :: own_cells o' ++ rest))).
Proof.
  intros W. unfold raw_own_handle, own_handle, raw_owner, init_ownership_transfer, revoke_ownership_transfer, claim_ownership.
  cbn [own_cells app] in *. destruct m.
  - step1. fetch. step1. destruct (o_pending o); cbn [negb ensure bind]; [reflexivity|]. write1. closing.
  - fetch. repeat step1. write1. closing.
  - fetch. destruct (o_pending o) as [p|]; cbn [negb ensure bind ok_or]; [|reflexivity]. repeat step1. write1. write1. closing.
Qed.
Lemma raw_router_handle_eq h i o pre post r m d : wrote (pre ++ routes_cell h r :: post) d ->
  In (item (s "owner") string_c (o_owner o)) (pre ++ routes_cell h r :: post) -> routes_held h r -> emsg_ok (MRouter m) = true ->
  raw_router_handle h i m d = (r' <- router_handle o i m r ;; Ok (layout (pre ++ routes_cell h r' :: post))).
Proof.
  intros W I H O. unfold raw_router_handle, router_handle. rewrite (raw_guard_eq i o _ d W I). step1.
  assert (S : forall x r d, u32_ok (rs_domain x) = true -> routes_held h r -> wrote (pre ++ routes_cell h r :: post) d ->
            routes_held h (set_route r x) /\ wrote (pre ++ routes_cell h (set_route r x) :: post) (raw_set_route h d x)).
  { intros x r0 d0 Ox H0 W0. split; [apply holds_set; [exact Ox|apply route_fits|exact H0]|].
    apply (save_wrote _ _ _ _ _ _ (changed_at _ _ pre _ _ post (set_u32 _ (s "routes") r0 (rs_domain x) (rs_route x) H0 Ox (route_fits h _))) W0). }
  destruct m as [x|xs]; cbn [emsg_ok bind] in *.
  - f_equal. exact (proj2 (proj2 (S x r d O H W))).
  - rewrite forallb_forall in O. f_equal. unfold set_routes.
    apply (fold_wrote (fun r => pre ++ routes_cell h r :: post) (routes_held h) (raw_set_route h) set_route xs); auto.
Qed.
Lemma raw_pause_handle_eq i v o b m d : wrote (info_cell v :: own_cells o ++ [pause_cell b]) d ->
  raw_pause_handle i m d = (b' <- pause_handle o i m b ;; Ok (layout (info_cell v :: own_cells o ++ [pause_cell b']))).
Proof.
  intros W. unfold raw_pause_handle, pause_handle, raw_paused, do_pause, do_release.
  rewrite (raw_guard_eq i o _ d W) by (right; seek). cbn [own_cells app] in *. unfold pause_cell in *. step1.
  destruct m; fetch; repeat step1; write1; closing.
Qed.
