(** * The chain on texts and databases: C85 *)
From Coq Require Import List NArith Bool.
From Verif Require Import Base OMap Crypto Hex Coins Chain Utils Contracts World SpecWorld SpecQuery Wire SpecWire WireInit SpecInitText Store Raw RawWorld SpecRawWorld
  TextWorld SpecTextWorld TextWorldFacts PropsWorld PropsRawWorld.
Import ListNotations.

(** ** C85: contracts that exchange texts and keep databases go through the states of contracts that exchange values and keep records *)
Theorem C85_histories C ver bank l : asks_only (ch_ext C) -> Forall ttx_timely l ->
  tchain_run C ver (rgenesis bank) l = spread ver (chain_run C (genesis bank) (history_heard C (genesis bank) l)).
Proof. exact (text_run C ver bank l). Qed.
Print Assumptions C85_histories.

(** so what holds of every reachable world of World.v holds of these *)
Theorem C85_reached C ver bank l : asks_only (ch_ext C) -> Forall ttx_timely l ->
  exists w, timely_reachable C w /\ tchain_run C ver (rgenesis bank) l = spread ver w.
Proof. exact (text_reached C ver bank l). Qed.
Print Assumptions C85_reached.

Theorem C85_transactions C ver k t w : asks_only (ch_ext C) -> timely_reachable C w -> ttx_timely (k, t) ->
  match heard w t with
  | Some t' => ttx_run C ver k t (spread ver w) = laid ver (tx_run C k t' w)
  | None => exists e, ttx_run C ver k t (spread ver w) = Err e
  end.
Proof. exact (text_tx C ver k t w). Qed.
Print Assumptions C85_transactions.

(** a message written as the interface says is carried out *)
Theorem C85_messages C ver k w a st m u f : asks_only (ch_ext C) -> timely_reachable C w -> contract_at w a st ->
  understands st m = true -> emsg_ok m = true ->
  ttx_run C ver k (Write u a (message_text (hex_router st) m) f) (spread ver w) = laid ver (tx_run C k (TExec u a m f) w).
Proof. exact (text_message C ver k w a st m u f). Qed.
Print Assumptions C85_messages.

Theorem C85_births C ver k w b u f : asks_only (ch_ext C) -> timely_reachable C w -> proper b = true ->
  ttx_run C ver k (Make u (program_made (meant b)) (birth_text b) f) (spread ver w) = laid ver (tx_run C k (TDeploy u (meant b) f) w).
Proof. exact (text_birth C ver k w b u f). Qed.
Print Assumptions C85_births.

(** a text that is none of the contract's messages does nothing *)
Theorem C85_refused C ver k w a st t u f : asks_only (ch_ext C) -> timely_reachable C w -> contract_at w a st ->
  (forall m, understands st m = true -> read_exec (program_of st) t <> Some m) -> exists e, ttx_run C ver k (Write u a t f) (spread ver w) = Err e.
Proof. exact (text_refused C ver k w a st t u f). Qed.
Print Assumptions C85_refused.

(** e.g. no mailbox database ever accepts the text of a message it has processed, however it is written *)
Theorem C85_processed_once C ver bank l k u a t f md raw d x' l' k' u' t' f' md' raw' x'' :
  asks_only (ch_ext C) -> chain_ok C -> om_sorted bank -> Forall ttx_timely l -> Forall ttx_timely l' ->
  om_get a (rw_inst (tchain_run C ver (rgenesis bank) l)) = Some (RC PMailbox d) ->
  read_exec PMailbox t = Some (MProcess md raw) -> ttx_run C ver k (Write u a t f) (tchain_run C ver (rgenesis bank) l) = Ok x' ->
  read_exec PMailbox t' = Some (MProcess md' raw') -> keccak256_hash raw' = keccak256_hash raw ->
  ttx_run C ver k' (Write u' a t' f') (tchain_run C ver x' l') <> Ok x''.
Proof. exact (text_once C ver bank l k u a t f md raw d x' l' k' u' t' f' md' raw' x''). Qed.
Print Assumptions C85_processed_once.

(** The history of PropsWorld.v in texts: a mailbox, an ISM, hooks and another program are deployed and set up, messages are dispatched
    for a fee, one arrives, is processed and refused a second time. *)
Definition ex_words (t : nat * tx) : nat * ttx :=
  (fst t,
   match snd t with
   | TExec u a m f => Write u a (message_text false m) f
   | TDeploy u m f => Make u (program_made m) (birth_text (BPlain m)) f
   | t => Plain t
   end).
Definition ex_text_setup : list (nat * ttx) := map ex_words (ex_deploy ++ [ex_send "one" 4; ex_send "none" 3; ex_send "two" 4]).
Definition ex_text_world : rworld := tchain_run ex_chain ex_versions (rgenesis ex_bank) ex_text_setup.
Definition ex_arrival : str := (s "{ ""process"" : {""message"":""" ++ hex_encode ex_arriving ++ s """, ""metadata"":""""} }")%list%string.
Definition ex_process_text (t : str) (w : rworld) : res rworld := ttx_run ex_chain ex_versions 20 (Write relayer (at_ 0) t []) w.
Definition ex_runs (w : rworld) (a : addr) : option program := match om_get a (rw_inst w) with Some (RC p _) => Some p | _ => None end.
Definition ex_twice (w0 : rworld) : bool * bool * option bytes :=
  match ex_process_text ex_arrival w0 with
  | Ok w => (true, is_ok (ex_process_text (message_text false (MProcess (hx "00") ex_arriving)) w), ex_entry w (at_ 0) (s "nonce"))
  | _ => (false, false, None)
  end.
Example C85_example :
  asks_only (ch_ext ex_chain) /\ chain_ok ex_chain /\ om_sorted ex_bank /\ Forall ttx_timely ex_text_setup /\
  length (history_heard ex_chain (genesis ex_bank) ex_text_setup) = length ex_text_setup /\
  ex_runs ex_text_world (at_ 0) = Some PMailbox /\
  read_exec PMailbox ex_arrival = Some (MProcess [] ex_arriving) /\
  read_exec PMailbox (message_text false (MProcess (hx "00") ex_arriving)) = Some (MProcess (hx "00") ex_arriving) /\
  ex_twice ex_text_world = (true, false, Some (s "2")) /\
  is_ok (ex_process_text (s "{""process"":{""metadata"":""""}}") ex_text_world) = false.
Proof.
  split; [exact ex_asks_only|]. split; [exact ex_chain_ok|]. split; [repeat apply om_sorted_set; exact I|].
  split; [repeat (constructor; [exact I|]); constructor|].
  repeat (split; [vm_compute; reflexivity|]). vm_compute; reflexivity.
Qed.
