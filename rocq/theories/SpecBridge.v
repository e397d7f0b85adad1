(** * Vocabulary for statements about two connected warp routes.

    Everything here reads the committed logs of two chains. *)
From Coq Require Import List NArith Bool.
From Verif Require Import Base OMap Bech32 Message Coins Chain Contracts Cw20 Spec SpecModules MailboxConfFacts World SpecWorld.
Import ListNotations.

(** ** What went through one route *)
(** the transfers route [a] accepted: destination, recipient, amount *)
Definition transfer_of (p : event * response) : list (N * bytes * N) :=
  match p with
  | (EvExec _ _ (MTransferRemote d rcp n _ _) _, _) => [(d, rcp, n)]
  | _ => []
  end.
Definition transfers_at (a : addr) (l : list entry) : list (N * bytes * N) :=
  flat_map transfer_of (answers_at a l).
(** the messages it was handed and accepted: origin and body *)
Definition arrival_of (p : event * response) : list (N * bytes) :=
  match p with
  | (EvExec _ _ (MHandle o _ bd) _, _) => [(o, bd)]
  | _ => []
  end.
Definition arrivals_at (a : addr) (l : list entry) : list (N * bytes) :=
  flat_map arrival_of (answers_at a l).

(** the amount a warp payload names: bytes 32 to 63 *)
Definition named_amount (body : bytes) : N := of_be (firstn 32 (skipn 32 body)).

(** taken from users for domain [d]; what the payloads sent for these transfers
    name; given out for messages from domain [o] *)
Definition sent_to (a : addr) (d : N) (l : list entry) : N :=
  total (fun t : N * bytes * N => if fst (fst t) =? d then snd t else 0) (transfers_at a l).
Definition promised_to (a : addr) (d : N) (l : list entry) : N :=
  total (fun t : N * bytes * N =>
    if fst (fst t) =? d then named_amount (snd (fst t) ++ be 32 (snd t)) else 0) (transfers_at a l).
Definition received_from (a : addr) (o : N) (l : list entry) : N :=
  total (fun t : N * bytes => if fst t =? o then named_amount (snd t) else 0) (arrivals_at a l).
(** the same for all domains *)
Definition sent_all (a : addr) (l : list entry) : N :=
  total (fun t : N * bytes * N => snd t) (transfers_at a l).
Definition received_all (a : addr) (l : list entry) : N :=
  total (fun t : N * bytes => named_amount (snd t)) (arrivals_at a l).

(** ** The two ends *)
(** a chain at some moment, a mailbox and a warp route on it, and the route's
    address as 32 bytes *)
Record side : Type := mkSide {
  sd_chain : chain;
  sd_world : world;
  sd_domain : N;
  sd_mailbox : addr;
  sd_route : addr;
  sd_name : bytes
}.
Definition sd_log (S : side) : list entry := w_log (sd_world S).

Definition is_address (C : chain) (c : addr) : Prop :=
  ch_account C c = true \/ exists n, c = ch_addr C n.

(** the mailbox is a mailbox for the domain, the route a warp route using it, and
    the route's address is the only one with its 32 bytes *)
Definition side_ok (S : side) : Prop :=
  chain_ok (sd_chain S) /\ reachable (sd_chain S) (sd_world S) /\
  (exists mb hrp, contract_at (sd_world S) (sd_mailbox S) mb /\ is_mailbox mb /\
     reported_domain mb = Some (sd_domain S) /\ reported_hrp mb = Some hrp /\
     bech32_encode hrp (sd_name S) = Ok (sd_route S)) /\
  (exists st, contract_at (sd_world S) (sd_route S) st /\ is_warp st /\
     warp_mailbox st = Some (sd_mailbox S)) /\
  bech32_to_h256 (sd_route S) = Ok (sd_name S) /\
  (forall c, is_address (sd_chain S) c -> bech32_to_h256 c = Ok (sd_name S) -> c = sd_route S).

(** the only router [S] ever enrolled for [T]'s domain is [T]'s route *)
Definition enrolled (S T : side) : Prop :=
  forall r x, In r (flat_map route_updates (events_at (sd_route S) (sd_log S))) ->
    rs_domain r = sd_domain T -> rs_route r = Some x -> x = sd_name T.
(** ... and it enrolled none for other domains *)
Definition only_peer (S T : side) : Prop :=
  forall r x, In r (flat_map route_updates (events_at (sd_route S) (sd_log S))) ->
    rs_route r = Some x -> rs_domain r = sd_domain T.

(** the message is for [T]'s route *)
Definition addressed (T : side) (m : message) : Prop :=
  exists mb hrp, contract_at (sd_world T) (sd_mailbox T) mb /\ reported_hrp mb = Some hrp /\
    bech32_encode hrp (m_recipient m) = Ok (sd_route T).
(** what the security modules are for: [T] processes, as coming from [S]'s domain and
    for its route, only what [S] dispatched *)
Definition honest (S T : side) : Prop :=
  forall raw m, In raw (processed_at (sd_mailbox T) (sd_log T)) ->
    msg_decode raw = Ok m -> m_origin m = sd_domain S -> addressed T m ->
    In raw (dispatched_at (sd_mailbox S) (sd_log S)).

(** messages of [S]'s route for [T]'s domain not yet processed there *)
Definition sent_by (name : bytes) (d : N) (raw : bytes) : bool :=
  match msg_decode raw with
  | Ok m => (bytes_eqb (m_sender m) name && (m_dest m =? d))%bool
  | _ => false
  end.
Definition message_amount (raw : bytes) : N :=
  match msg_decode raw with Ok m => named_amount (m_body m) | _ => 0 end.
Definition travelling (S T : side) : list bytes :=
  filter (fun raw => (sent_by (sd_name S) (sd_domain T) raw &&
                      negb (existsb (bytes_eqb raw) (processed_at (sd_mailbox T) (sd_log T))))%bool)
    (dispatched_at (sd_mailbox S) (sd_log S)).
Definition in_flight (S T : side) : N := total message_amount (travelling S T).

(** every recipient named to the route is 32 bytes long *)
Definition proper_recipients (S : side) : Prop :=
  forall d rcp n, In (d, rcp, n) (transfers_at (sd_route S) (sd_log S)) -> length rcp = 32%nat.

(** ** Coins that reach a route other than by a transfer *)
Definition gift_of (a : addr) (d : str) (x : entry) : N :=
  match x with
  | LDo _ (CExec _ (MTransferRemote _ _ _ _ _) _) => 0
  | _ => entry_in a d x
  end.
Definition gifts (a : addr) (d : str) (l : list entry) : N := total (gift_of a d) l.

(** ** Token contracts *)
Definition is_cw20 (st : cstate) : Prop := match st with SCw20 _ => True | _ => False end.
Definition cw_holding (st : cstate) (a : addr) : N :=
  match c_query no_api no_querier (QCw20Balance a) st with Ok (RBalance n) => n | _ => 0 end.
Definition cw_total (st : cstate) : N :=
  match c_query no_api no_querier QCw20TokenInfo st with Ok (RTokenInfo n) => n | _ => 0 end.
(** what token contract [tk] was deployed with: for [a], and in all *)
Definition initial_of (a : addr) (m : imsg) : N :=
  match m with
  | ICw20 _ init => total (fun p : addr * N => if bytes_eqb a (fst p) then snd p else 0) init
  | _ => 0
  end.
Definition initial_sum (m : imsg) : N :=
  match m with ICw20 _ init => total (fun p : addr * N => snd p) init | _ => 0 end.
Definition birth_msg (b : env * info * querier * imsg * response) : imsg := snd (fst b).
Definition cw_start (a tk : addr) (l : list entry) : N :=
  total (fun b => initial_of a (birth_msg b)) (births_at tk l).
Definition cw_start_all (tk : addr) (l : list entry) : N :=
  total (fun b => initial_sum (birth_msg b)) (births_at tk l).
(** tokens of [tk] that reached [a] other than by [a] collecting them *)
Definition cw_gift_of (a : addr) (p : event * response) : N :=
  match p with
  | (EvExec _ _ (MCw20Transfer to n) _, _) | (EvExec _ _ (MCw20Mint to n) _, _) => if bytes_eqb a to then n else 0
  | (EvExec _ i (MCw20TransferFrom _ to n) _, _) =>
      if bytes_eqb a to then if bytes_eqb a (i_sender i) then 0 else n else 0
  | _ => 0
  end.
Definition cw_gifts (a tk : addr) (l : list entry) : N := total (cw_gift_of a) (answers_at tk l).
(** tokens of [tk] destroyed by their holders, [a] excepted, or on their behalf *)
Definition cw_burn_of (a : addr) (p : event * response) : N :=
  match p with
  | (EvExec _ i (MCw20Burn n) _, _) => if bytes_eqb a (i_sender i) then 0 else n
  | (EvExec _ _ (MCw20BurnFrom _ n) _, _) => n
  | _ => 0
  end.
Definition cw_burns (a tk : addr) (l : list entry) : N := total (cw_burn_of a) (answers_at tk l).

(** ** The tokens behind a route *)
(** [custody S held base]: the route is a collateral one and holds [held] of its
    token, [base] of which it did not get by transfers: coins it had at the start
    or was given (native), tokens its token contract gave it (cw20) *)
Inductive custody (S : side) : N -> N -> Prop :=
| custody_native bank l st tk :
    om_sorted bank -> sd_world S = chain_run (sd_chain S) (genesis bank) l ->
    contract_at (sd_world S) (sd_route S) st -> is_warp_native st ->
    reported_mode st = Some Collateral -> reported_token st = Some tk ->
    custody S (balance (sd_world S) (sd_route S) tk) (bal bank (sd_route S) tk + gifts (sd_route S) tk (sd_log S))
| custody_cw20 st tk tst :
    contract_at (sd_world S) (sd_route S) st -> is_warp_cw20 st ->
    reported_mode st = Some Collateral -> reported_token st = Some tk ->
    contract_at (sd_world S) tk tst -> is_cw20 tst ->
    custody S (cw_holding tst (sd_route S))
      (cw_start (sd_route S) tk (sd_log S) + cw_gifts (sd_route S) tk (sd_log S)).

(** [issued S out base]: the route is a bridged one; [out] of its token exist,
    counting those their holders destroyed themselves, and [base] existed at
    first *)
Inductive issued (S : side) : N -> N -> Prop :=
| issued_native bank l st tk :
    om_sorted bank -> sd_world S = chain_run (sd_chain S) (genesis bank) l ->
    contract_at (sd_world S) (sd_route S) st -> is_warp_native st ->
    reported_mode st = Some Bridged -> reported_token st = Some tk ->
    issued S (supply (sd_world S) tk) (supply_of tk bank)
| issued_cw20 st tk tst :
    contract_at (sd_world S) (sd_route S) st -> is_warp_cw20 st ->
    reported_mode st = Some Bridged -> reported_token st = Some tk ->
    contract_at (sd_world S) tk tst ->
    issued S (cw_total tst + cw_burns (sd_route S) tk (sd_log S)) (cw_start_all tk (sd_log S)).

(** two routes with no other peers, nothing forged in between *)
Definition linked (S T : side) : Prop :=
  side_ok S /\ side_ok T /\ enrolled S T /\ enrolled T S /\ only_peer S T /\ only_peer T S /\
  honest S T /\ honest T S /\ proper_recipients S /\ proper_recipients T.
