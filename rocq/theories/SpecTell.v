(** * What an observer of the events can know of settings whose values the events
      leave out (specification side). *)
From Coq Require Import List NArith Bool.
From Verif Require Import Base Hex Crypto Coins Message Json Chain Contracts Spec SpecModules SpecVersion Events SpecEvents.
Import ListNotations.

(** the event lists domain [d] under [k] *)
Definition lists_domain (k : str) (d : N) (w : wevent) : bool :=
  match attr k w with Some t => existsb (fun n => decimal n =? d) (items t) | None => false end.

(** What an observer knows of a setting: nothing ([None]), or its value.  An
    event that says the setting was written loses the knowledge, one that says
    it was removed restores it. *)
Definition watch_keyed {X} (written removed : wevent -> bool) (k : option (option X)) (w : wevent) : option (option X) :=
  if written w then None else if removed w then Some None else k.

(** the validators of a domain *)
Definition set_written (d : N) (w : wevent) : bool :=
  (of_type (s "ism_multisig_set_validators") w && lists_domain (s "domain") d w)%bool.
Definition set_removed (d : N) (w : wevent) : bool :=
  (of_type (s "ism_multisig_unset_domain") w && lists_domain (s "domain") d w)%bool.
(** how many they are, in decimal, and how many have to sign *)
Definition set_size (x : option (list bytes * N)) : option (str * N) :=
  option_map (fun p => (dec (N.of_nat (length (fst p))), snd p)) x.
Definition watch_set_size (d : N) (x : option (str * N)) (w : wevent) : option (str * N) :=
  if set_written d w then
    match attr (s "validators") w, number_told (s "threshold") w with
    | Some n, Some t => Some (n, t)
    | _, _ => None
    end
  else if set_removed d w then None else x.

(** the gas of a destination *)
Definition gas_written (d : N) (w : wevent) : bool :=
  (of_type (s "igp-core-set-gas-for-domain") w && lists_domain (s "domains") d w)%bool.
Definition gas_removed (d : N) (w : wevent) : bool :=
  (of_type (s "igp-core-unset-gas-for-domain") w && lists_domain (s "domains") d w)%bool.

(** the oracle's data for a destination *)
Definition data_written (d : N) (w : wevent) : bool :=
  (of_type (s "set-gas-config") w && lists_domain (s "domain") d w ||
   of_type (s "set-gas-configs") w && lists_domain (s "domains") d w)%bool.

(** the hook of a destination and recipient: keys are texts "domain:recipient" in
    a JSON array, the recipient in hexadecimal of either case *)
Fixpoint cut_colon (t : str) : str * str :=
  match t with
  | [] => ([], [])
  | c :: t' => if bN c =? 58 then ([], t') else let (a, b) := cut_colon t' in (c :: a, b)
  end.
Definition is_key (d : N) (r : bytes) (t : str) : bool :=
  let (a, b) := cut_colon t in
  ((decimal a =? d) && match hex_decode b with Ok v => bytes_eqb v r | _ => false end)%bool.
Definition lists_key (d : N) (r : bytes) (w : wevent) : bool :=
  match attr (s "keys") w with
  | Some t =>
      match parse t with
      | Some (JArr l) => existsb (fun j => match j with JStr x => is_key d r x | _ => false end) l
      | _ => false
      end
  | None => false
  end.
Definition custom_written (d : N) (r : bytes) (w : wevent) : bool :=
  (of_type (s "hpl_hook_routing_custom::register") w && lists_key d r w)%bool.
Definition custom_removed (d : N) (r : bytes) (w : wevent) : bool :=
  (of_type (s "hpl_hook_routing_custom::clear") w && lists_key d r w)%bool.

(** the modules of an aggregate module; its threshold is lost with every change *)
Definition isms_written (w : wevent) : bool := of_type (s "hpl_ism_aggregate::set_isms") w.

(** ** Posts to hooks *)
(** the type of a routing hook's post events *)
Definition routed_type (st : cstate) : str :=
  match st with
  | SCustomHook _ => s "hpl_hook_routing_custom::post_dispatch"
  | _ => s "hpl_hook_routing::post_dispatch"
  end.
(** the accepted posts of a history, with the state each met and the caller *)
Definition posts (A : api) (st : cstate) (h : list event) : list (cstate * (info * bytes)) :=
  flat_map (fun p : cstate * event =>
    match snd p with
    | EvExec _ i (MPostDispatch _ raw) _ => [(fst p, (i, raw))]
    | _ => []
    end) (accepted_calls A st h).
(** what a routing hook's event says of one post *)
Definition routed_told (p : cstate * (info * bytes)) (w : wevent) : Prop :=
  exists m hook, msg_decode (snd (snd p)) = Ok m /\ selected_hook (fst p) m = Some hook /\
    number_told (s "domain") w = Some (m_dest m) /\ attr (s "route") w = Some hook /\
    attr (s "message_id") w = Some (hex_of (keccak256_hash (snd (snd p)))).
(** what the fee hook's event says of one post: the coin the caller attached *)
Definition fee_told (p : cstate * (info * bytes)) (w : wevent) : Prop :=
  exists d n, i_funds (fst (snd p)) = [mkCoin d n] /\
    attr (s "paid_denom") w = Some d /\ attr (s "paid_amount") w = Some (dec n).

(** ** Who acts *)
(** the keys under which events name the caller (one event misspells it) *)
Definition caller_keys : list str := [s "sender"; s "owner"; s "sener"].
(** the mailbox's events name the sender of the message instead *)
Definition about_messages (w : wevent) : bool :=
  (of_type (s "mailbox_dispatch") w || of_type (s "mailbox_process") w)%bool.
