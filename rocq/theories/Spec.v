(** * Vocabulary of the statements about histories.

    Everything here is on the specification side: functions of the calls made
    and the answers given, not of how the contracts work. *)
From Coq Require Import List NArith Bool Sorted.
From Verif Require Import Base Chain Contracts OMap Mailbox.
Import ListNotations.

(** ** Pausing: accepted requests alternate, the first one contradicting the flag *)
Fixpoint alternates (paused : bool) (l : list pausable_msg) : Prop :=
  match l with
  | [] => True
  | Pause :: l' => paused = false /\ alternates true l'
  | Release :: l' => paused = true /\ alternates false l'
  end.

(** the accepted pause requests of a history *)
Definition pauses (A : api) (st : cstate) (h : list event) : list pausable_msg :=
  flat_map (fun p => match pause_request (snd p) with Some m => [m] | None => [] end)
    (accepted_calls A st h).

(** the flag after a list of requests *)
Definition paused_after (paused : bool) (l : list pausable_msg) : bool :=
  match last l (if paused then Pause else Release) with Pause => true | Release => false end.

(** ** Routes *)
(** the last update of a domain in a list of updates *)
Definition last_update (d : N) (l : list route_set) (r0 : option bytes) : option bytes :=
  match find (fun r => rs_domain r =? d) (rev l) with
  | Some r => rs_route r
  | None => r0
  end.

Definition updates (A : api) (st : cstate) (h : list event) : list route_set :=
  flat_map (fun p => route_updates (snd p)) (accepted_calls A st h).

(** ** Connections *)
Definition conns (A : api) (st : cstate) (h : list event) : list connection_msg :=
  flat_map (fun p => match conn_request (snd p) with Some m => [m] | None => [] end)
    (accepted_calls A st h).

Definition mailbox_of_request (m : connection_msg) : option addr :=
  match m with SetMailbox a => Some a | _ => None end.
Definition ism_of_request (m : connection_msg) : option addr :=
  match m with SetIsm a => Some a | _ => None end.
Definition hook_of_request (m : connection_msg) : option addr :=
  match m with SetHook a => Some a | _ => None end.

(** the last request of a kind *)
Definition last_some {X} (f : connection_msg -> option X) (l : list connection_msg) (x0 : option X)
  : option X :=
  fold_left (fun acc m => match f m with Some a => Some a | None => acc end) l x0.

(** ** Paging: ask for pages from the last key of the previous one until an empty
    page; [None] when a page is refused or [fuel] pages do not suffice *)
Fixpoint fetch {E K} (ask : option K -> option (list E)) (key : E -> K) (fuel : nat)
    (start : option K) : option (list E) :=
  match fuel with
  | O => None
  | S f =>
      match ask start with
      | Some [] => Some []
      | Some (e :: l) =>
          match fetch ask key f (Some (key (last l e))) with
          | Some r => Some ((e :: l) ++ r)
          | None => None
          end
      | None => None
      end
  end.

(** what each page query answers *)
Definition ask_routes (st : cstate) (lim : option N) (o : option order) (start : option N)
  : option (list route_set) :=
  match c_query no_api no_querier (QListRoutes start lim o) st with
  | Ok (RRoutes l) => Some l | _ => None end.

Definition ask_gas (st : cstate) (lim : option N) (o : option order) (start : option N)
  : option (list (N * N)) :=
  match c_query no_api no_querier (QListGas start lim o) st with
  | Ok (RGasList l) => Some l | _ => None end.

Definition ask_hooks (st : cstate) (d : N) (lim : option N) (o : option order) (start : option str)
  : option (list custom_hook) :=
  match c_query no_api no_querier (QCustomHooks d start lim o) st with
  | Ok (RCustomHooks l) => Some l | _ => None end.

Definition page_limit (lim : option N) : Prop :=
  match lim with None => True | Some l => 0 < l <= 30 end.

Definition in_order {X} (o : option order) (l : list X) : list X :=
  match o with Some Desc => rev l | _ => l end.

Definition reported_domains (st : cstate) : option (list N) :=
  match c_query no_api no_querier QDomains st with Ok (RDomains l) => Some l | _ => None end.

Definition ascending {X} (lt : X -> X -> bool) (l : list X) : Prop :=
  StronglySorted (fun a b => lt a b = true) l.

Definition reported_gas (st : cstate) (d : N) : option N :=
  match c_query no_api no_querier (QGasForDomain [d]) st with
  | Ok (RGasList [(_, g)]) => Some g | _ => None end.

Definition reported_hook (st : cstate) (d : N) (r : str) : option custom_hook :=
  match c_query no_api no_querier (QCustomHook d r) st with
  | Ok (RCustomHook c) => Some c | _ => None end.

(** ** Mailbox settings *)
Definition reported_default_ism (st : cstate) : option addr :=
  match c_query no_api no_querier QDefaultIsm st with Ok (RDefaultIsm a) => Some a | _ => None end.
Definition reported_default_hook (st : cstate) : option addr :=
  match c_query no_api no_querier QDefaultHook st with Ok (RDefaultHook a) => Some a | _ => None end.
Definition reported_required_hook (st : cstate) : option addr :=
  match c_query no_api no_querier QRequiredHook st with Ok (RRequiredHook a) => Some a | _ => None end.
Definition reported_hrp (st : cstate) : option str :=
  match c_query no_api no_querier QHrp st with Ok (RHrp h) => Some h | _ => None end.
Definition reported_domain (st : cstate) : option N :=
  match c_query no_api no_querier QLocalDomain st with Ok (RLocalDomain d) => Some d | _ => None end.

(** the last accepted call whose message [f] recognises *)
Definition last_accepted {X} (f : emsg -> option X) (A : api) (st : cstate) (h : list event)
    (x0 : option X) : option X :=
  fold_left (fun acc (p : cstate * event) =>
               match ev_msg (snd p) with
               | Some m => match f m with Some a => Some a | None => acc end
               | None => acc
               end) (accepted_calls A st h) x0.

Definition reported_nonce (st : cstate) : option N :=
  match c_query no_api no_querier QNonce st with Ok (RNonce n) => Some n | _ => None end.
Definition reported_latest (st : cstate) : option bytes :=
  match c_query no_api no_querier QLatestDispatchId st with Ok (RMessageId x) => Some x | _ => None end.
Definition reported_delivered (st : cstate) (id : bytes) : option bool :=
  match c_query no_api no_querier (QDelivered id) st with Ok (RDelivered b) => Some b | _ => None end.

(** the message handed to the first hook by an accepted dispatch *)
Definition sent_message (r : response) : option bytes :=
  match r_msgs r with
  | mkSub (CExec _ (MPostDispatch _ raw) _) _ :: _ => Some raw
  | _ => None
  end.

(** the messages dispatched along a history, in order *)
Definition dispatches (A : api) (st : cstate) (h : list event) : list bytes :=
  flat_map (fun p : cstate * event =>
    match ev_msg (snd p), c_apply A (snd p) (fst p) with
    | Some (MDispatch _), Ok (_, r) =>
        match sent_message r with Some raw => [raw] | None => [] end
    | _, _ => []
    end) (accepted_calls A st h).

(** the messages processed along a history: bytes, relayer, height *)
Definition processed (A : api) (st : cstate) (h : list event) : list (bytes * (addr * N)) :=
  flat_map (fun p : cstate * event =>
    match snd p with
    | EvExec e i (MProcess _ raw) _ => [(raw, (i_sender i, e_height e))]
    | _ => []
    end) (accepted_calls A st h).

(** the stored record of a delivery: relayer and block height (no query
    exposes it; /repo/contracts/core/mailbox/src/state.rs:49-53, 64-65) *)
Definition delivery_record (st : cstate) (id : bytes) : option (addr * N) :=
  match st with
  | SMailbox x => option_map (fun d => (dl_sender d, dl_height d)) (om_get id (mb_deliveries x))
  | _ => None
  end.

(** the hook a dispatch request asks for: the one it names (a valid address),
    else the default, which must be set in either case *)
Definition chosen_hook (A : api) (st : cstate) (d : dispatch_msg) (hook : addr) : Prop :=
  exists dflt, reported_default_hook st = Some dflt /\
    match d_hook d with Some h => hook = h /\ api_valid A h = true | None => hook = dflt end.

(** the metadata of a dispatch request *)
Definition request_metadata (d : dispatch_msg) : bytes :=
  match d_metadata d with Some md => md | None => [] end.

Definition is_dispatch (p : cstate * event) : bool :=
  match ev_msg (snd p) with Some (MDispatch _) => true | _ => false end.
