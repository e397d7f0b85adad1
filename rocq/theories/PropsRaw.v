(** * The entry points on the raw database: C82 *)
From Coq Require Import List NArith Bool.
From Verif Require Import Base OMap Crypto Coins Hex Chain Router Utils Mailbox Va Isms Hooks Igp Warp Contracts Wire WireQuery SpecWire Store SpecStore
  StoreState Raw SpecRaw RawExec RawQuery RawInit PropsAccess PropsMailbox PropsHooks PropsStore.
Import ListNotations.

(** ** C82: reading and writing single entries comes to the same as the records *)
Theorem C82_instantiate A q e i m v : (forall x y, m <> ICw20 x y) ->
  raw_instantiate A q e m v = kept_as v (c_instantiate A q e i m).
Proof. exact (raw_instantiate_eq A q e i m v). Qed.
Print Assumptions C82_instantiate.

Theorem C82_execute A Q e i m v st : kept_by A st -> e_height e < 2 ^ 64 ->
  raw_execute A Q e i m (program_of st) (storage v st) = kept_as v (c_execute A (fun y => Q (storage v y)) e i m st).
Proof. intros K. exact (raw_execute_eq A Q e i m v st (kept_stored A st K) (proj2 K)). Qed.
Print Assumptions C82_execute.

Theorem C82_reply A id r v st : kept_by A st ->
  raw_reply A id r (program_of st) (storage v st) = kept_as v (c_reply A id r st).
Proof. intros K. exact (raw_reply_eq A id r v st (kept_stored A st K) (proj2 K)). Qed.
Print Assumptions C82_reply.

Theorem C82_query A q m v st : kept_by A st ->
  raw_query A q m (program_of st) (storage v st) = c_query A q m st.
Proof. intros K. exact (raw_query_eq A q m v st (kept_stored A st K) (proj2 K)). Qed.
Print Assumptions C82_query.

Theorem C82_migrate A name ver v st : kept_by A st ->
  raw_migrate name ver (storage v st) = (v' <- migrate (Some v) name ver ;; Ok (storage v' st)).
Proof. intros K. exact (raw_migrate_eq name ver v st (kept_stored A st K)). Qed.
Print Assumptions C82_migrate.

(** a whole life, from an empty database *)
Theorem C82_life A q e i m v d o h : raw_instantiate A q e m v = Ok (d, o) -> Forall raw_timely h ->
  exists st, c_instantiate A q e i m = Ok (st, o) /\
    raw_run A (program_of st) d h = (let '(v', st') := record_run A (v, st) h in storage v' st').
Proof. exact (raw_life A q e i m v d o h). Qed.
Print Assumptions C82_life.

(** A mailbox from its creation: set up by its owner, a message dispatched, a call refused, and migrated; entry by entry. *)
Definition ex_raw_of (ev : event) : raw_event :=
  match ev with EvExec e i m Q => RwExec e i m (fun d => Q ex_dispatched) | EvReply id r => RwReply id r end.
Definition ex_raw_life : list raw_event :=
  map ex_raw_of (ex_setup ++ [ex_dispatch ex_funds])
    ++ [RwExec ex_env (mkInfo (s "mallory") []) (MSetDefaultIsm (s "evil")) (fun _ => no_querier);
        RwMigrate (s "hpl-mailbox") (s "0.0.8"); RwMigrate (s "hpl-mailbox") (s "0.0.8"); RwMigrate (s "hpl-igp") (s "0.0.9")].
Definition ex_raw_born : db :=
  match raw_instantiate ex_api no_querier ex_env (IMailbox (s "osmo") (s "owner") 7) ex_version with Ok (d, _) => d | _ => [] end.
Example C82_example :
  raw_instantiate ex_api no_querier ex_env (IMailbox (s "osmo") (s "owner") 7) ex_version = Ok (ex_raw_born, resp0) /\
  map fst ex_raw_born = [s "config"; s "contract_info"; s "nonce"; s "owner"]%list /\
  Forall raw_timely ex_raw_life /\
  kept_by ex_api ex_dispatched /\
  let d := raw_run ex_api PMailbox ex_raw_born ex_raw_life in
  d = storage (mkCw2 (s "hpl-mailbox") (s "0.0.8")) ex_dispatched /\
  om_get (s "nonce") d = Some (s "1") /\
  om_get (s "contract_info") d = Some (s "{""contract"":""hpl-mailbox"",""version"":""0.0.8""}") /\
  raw_query ex_api no_querier QNonce PMailbox d = Ok (RNonce 1) /\
  raw_query ex_api no_querier QDefaultIsm PMailbox d = Ok (RDefaultIsm (s "ism")).
Proof.
  split; [vm_compute; reflexivity|]. split; [vm_compute; reflexivity|]. split; [repeat constructor|]. split; [exact (proj1 C79_example)|].
  cbv zeta. repeat split; vm_compute; reflexivity.
Qed.
