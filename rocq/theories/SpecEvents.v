(** * Vocabulary of the statements about events (specification side).

    What an observer reads in a list of events: attribute texts by event type
    and key, numbers in decimal, byte strings in hexadecimal. *)
From Coq Require Import List NArith Bool.
From Verif Require Import Base Message Coins Chain Contracts Spec SpecModules SpecVersion Events.
Import ListNotations.

Definition attr (k : str) (w : wevent) : option str :=
  option_map snd (find (fun p => bytes_eqb (fst p) k) (we_attrs w)).
Definition of_type (ty : str) (w : wevent) : bool := bytes_eqb (we_type w) ty.

(** the texts under key [k] of the events of type [ty] *)
Definition told (ty k : str) (l : list wevent) : list str :=
  flat_map (fun w => if of_type ty w then match attr k w with Some v => [v] | None => [] end else []) l.
(** the last one, or else [x0] *)
Definition latest (ty k : str) (l : list wevent) (x0 : option str) : option str :=
  match rev (told ty k l) with v :: _ => Some v | [] => x0 end.

(** lower-case hexadecimal *)
Definition hex_of (b : bytes) : str :=
  let digit n := nth (N.to_nat n) (s "0123456789abcdef") x30 in
  flat_map (fun c => [digit (bN c / 16); digit (bN c mod 16)]) b.

(** comma-separated texts *)
Fixpoint split_at (l : str) (cur : str) : list str :=
  match l with
  | [] => [rev cur]
  | c :: l' => if bN c =? 44 then rev cur :: split_at l' [] else split_at l' (c :: cur)
  end.
Definition items (l : str) : list str := match l with [] => [] | _ => split_at l [] end.

(** ** Settings an observer keeps *)
(** owner and pending owner *)
Definition watch_owner (v : addr * option addr) (w : wevent) : addr * option addr :=
  if of_type (s "hpl_ownable::init") w then (fst v, attr (s "next_owner") w)
  else if of_type (s "hpl_ownable::revoke") w then (fst v, None)
  else if of_type (s "hpl_ownable::claim") w then
    (match attr (s "owner") w with Some a => a | None => fst v end, None)
  else v.

Definition watch_pause (b : bool) (w : wevent) : bool :=
  if of_type (s "hpl_pausable::pause") w then true
  else if of_type (s "hpl_pausable::release") w then false
  else b.

(** the module routed for origin [d] *)
Definition watch_module (d : N) (x : option str) (w : wevent) : option str :=
  if of_type (s "hpl_ism_routing::set") w then
    match attr (s "domain") w with
    | Some t => if decimal t =? d then attr (s "ism") w else x
    | None => x
    end
  else if of_type (s "hpl_ism_routing::unset") w then
    match attr (s "domains") w with
    | Some t => if existsb (fun n => decimal n =? d) (items t) then None else x
    | None => x
    end
  else x.

(** route updates: one object, or an array of them, as JSON text *)
Definition route_event (hex : bool) (w : wevent) (u : list route_set) : Prop :=
  (we_type w = s "hpl_router::set_route" /\
   exists r, u = [r] /\ attr (s "set") w = Some (json_route hex r)) \/
  (we_type w = s "hpl_router::set_routes" /\
   attr (s "set") w = Some (json_array (map (json_route hex) u))).
Definition about_routes (w : wevent) : bool :=
  (of_type (s "hpl_router::set_route") w || of_type (s "hpl_router::set_routes") w)%bool.
(** the routes of warp routes are byte strings, others addresses *)
Definition hex_routes (st : cstate) : bool :=
  match st with SWarpNative _ | SWarpCw20 _ => true | _ => false end.

(** the accepted calls of a history that are remote transfers:
    caller, destination, recipient, amount *)
Definition transfers (A : api) (st : cstate) (h : list event) : list (addr * (N * (bytes * N))) :=
  flat_map (fun p : cstate * event =>
    match snd p with
    | EvExec _ i (MTransferRemote d r a _ _) _ => [(i_sender i, (d, (r, a)))]
    | _ => []
    end) (accepted_calls A st h).

(** a setting told as text, as a number, as a coin, as a list *)
Definition watch_text (ty k : str) (x : option str) (w : wevent) : option str :=
  if of_type ty w then attr k w else x.
Definition watch_number (ty k : str) (x : option N) (w : wevent) : option N :=
  if of_type ty w then option_map decimal (attr k w) else x.
Definition watch_list (ty k : str) (x : option (list str)) (w : wevent) : option (list str) :=
  if of_type ty w then option_map items (attr k w) else x.
Definition watch_coin (ty kd ka : str) (x : option coin) (w : wevent) : option coin :=
  if of_type ty w then
    match attr kd w, attr ka w with
    | Some d, Some a => Some (mkCoin d (decimal a))
    | _, _ => None
    end
  else x.

(** addresses as chains write them: not empty, no comma *)
Definition plain_addresses (A : api) : Prop :=
  forall a, api_valid A a = true -> a <> [] /\ Forall (fun c => bN c <> 44) a.

(** the messages posted to a hook along a history *)
Definition posted (A : api) (st : cstate) (h : list event) : list bytes :=
  flat_map (fun p : cstate * event =>
    match ev_msg (snd p) with Some (MPostDispatch _ raw) => [raw] | _ => [] end) (accepted_calls A st h).

(** the calls of a history that pay for gas, with what they attach *)
Definition gas_payments (A : api) (st : cstate) (h : list event) : list info :=
  flat_map (fun p : cstate * event =>
    match snd p with
    | EvExec _ i (MPayForGas _ _ _ _) _ | EvExec _ i (MPostDispatch _ _) _ => [i]
    | _ => []
    end) (accepted_calls A st h).

(** a number told under a key; the sum of those of a type *)
Definition number_told (k : str) (w : wevent) : option N := option_map decimal (attr k w).
Definition total_told (ty k : str) (l : list wevent) : N :=
  fold_right N.add 0 (map decimal (told ty k l)).

(** what event [w] says of a gas payment by caller [i] answered with [r] *)
Definition payment_told (q : querier) (st : cstate) (i : info) (id : bytes) (d gas : N) (r : response) (w : wevent) : Prop :=
  of_type (s "igp-core-pay-for-gas") w = true /\
  attr (s "sender") w = Some (i_sender i) /\ attr (s "message_id") w = Some (hex_of id) /\
  number_told (s "dest_domain") w = Some d /\ number_told (s "gas_amount") w = Some gas /\
  exists price rate, gas_terms q st d price rate /\
    number_told (s "gas_required") w = Some (gas_cost gas price rate) /\
    number_told (s "payment") w = Some (amount_of (gas_token st) (i_funds i)) /\
    number_told (s "gas_refunded") w = Some (amount_of (gas_token st) (sends r)) /\
    amount_of (gas_token st) (i_funds i) = gas_cost gas price rate + amount_of (gas_token st) (sends r).

(** the type of a route's transfer events *)
Definition transfer_type (st : cstate) : str :=
  match st with SWarpNative _ => s "hpl_warp_native::transfer-remote" | _ => s "hpl_warp_cw20::transfer-remote" end.
