(** * Vocabulary for statements about whole chains.

    Everything here reads the committed log, the bank and the contracts' states
    of a [world]; nothing uses the executor. *)
From Coq Require Import List NArith Bool.
From Verif Require Import Base OMap Bech32 Message Coins Chain Contracts Spec World.
Import ListNotations.

(** ** Money *)
(** all coins of a denomination, wherever they are *)
Fixpoint supply_of (d : str) (b : omap (addr * str) N) : N :=
  match b with
  | [] => 0
  | (k, n) :: b' => (if bytes_eqb d (snd k) then n else 0) + supply_of d b'
  end.
Definition supply (w : world) (d : str) : N := supply_of d (w_bank w).

(** total of [f] over a list *)
Definition total {X} (f : X -> N) (l : list X) : N := fold_right (fun e n => f e + n) 0 l.

Definition mint_of (d : str) (x : entry) : N :=
  match x with LDo _ (CMint _ n d') => if bytes_eqb d d' then n else 0 | _ => 0 end.
Definition burn_of (d : str) (x : entry) : N :=
  match x with LDo _ (CBurn _ n d') => if bytes_eqb d d' then n else 0 | _ => 0 end.
(** token-factory coins created and destroyed *)
Definition minted (d : str) (l : list entry) : N := total (mint_of d) l.
Definition burned (d : str) (l : list entry) : N := total (burn_of d) l.

(** the coins a message takes from its sender / brings to [a] *)
Definition msg_out (d : str) (m : cmsg) : N :=
  match m with
  | CExec _ _ f => amount_of d f
  | CBankSend _ f => amount_of d f
  | CBurn _ n d' => if bytes_eqb d d' then n else 0
  | _ => 0
  end.
Definition msg_in (a : addr) (d : str) (caller : addr) (m : cmsg) : N :=
  match m with
  | CExec b _ f => if bytes_eqb a b then amount_of d f else 0
  | CBankSend b f => if bytes_eqb a b then amount_of d f else 0
  | CMint _ n d' => if bytes_eqb a caller then if bytes_eqb d d' then n else 0 else 0
  | _ => 0
  end.
Definition entry_out (a : addr) (d : str) (x : entry) : N :=
  match x with
  | LDo c m => if bytes_eqb a c then msg_out d m else 0
  | LNew _ _ i _ _ _ | LNewX _ i _ => if bytes_eqb a (i_sender i) then amount_of d (i_funds i) else 0
  | LCall _ _ _ => 0
  end.
Definition entry_in (a : addr) (d : str) (x : entry) : N :=
  match x with
  | LDo c m => msg_in a d c m
  | LNew b _ i _ _ _ | LNewX b i _ => if bytes_eqb a b then amount_of d (i_funds i) else 0
  | LCall _ _ _ => 0
  end.
(** all coins that ever left / reached [a] *)
Definition outflow (a : addr) (d : str) (l : list entry) : N := total (entry_out a d) l.
Definition inflow (a : addr) (d : str) (l : list entry) : N := total (entry_in a d) l.

(** ** Calls *)
(** the calls and replies contract [a] accepted, oldest first, with its answers *)
Definition answers_at (a : addr) (l : list entry) : list (event * response) :=
  flat_map (fun x => match x with
                     | LCall b ev r => if bytes_eqb a b then [(ev, r)] else []
                     | _ => [] end) l.
Definition events_at (a : addr) (l : list entry) : list event := map fst (answers_at a l).
(** its creation *)
Definition births_at (a : addr) (l : list entry) : list (env * info * querier * imsg * response) :=
  flat_map (fun x => match x with
                     | LNew b e i q m r => if bytes_eqb a b then [(e, i, q, m, r)] else []
                     | _ => [] end) l.

(** the messages [a] returned, and those the chain carried out for [a] *)
Definition asked_by (a : addr) (l : list entry) : list cmsg :=
  flat_map (fun x => match x with
                     | LCall b _ r | LNew b _ _ _ _ r =>
                         if bytes_eqb a b then map sm_msg (r_msgs r) else []
                     | _ => [] end) l.
Definition done_for (a : addr) (l : list entry) : list cmsg :=
  flat_map (fun x => match x with
                     | LDo c m => if bytes_eqb a c then [m] else []
                     | _ => [] end) l.

(** who called whom with what: as carried out, and as seen by the called *)
Definition calls_sent (l : list entry) : list (addr * addr * emsg * list coin) :=
  flat_map (fun x => match x with
                     | LDo c (CExec a m f) => [(c, a, m, norm_coins f)]
                     | _ => [] end) l.
Definition calls_seen (l : list entry) : list (addr * addr * emsg * list coin) :=
  flat_map (fun x => match x with
                     | LCall a (EvExec _ i m _) _ => [(i_sender i, a, m, i_funds i)]
                     | _ => [] end) l.

(** ** States *)
Definition contract_at (w : world) (a : addr) (st : cstate) : Prop :=
  om_get a (w_inst w) = Some (IC st).

(** a history in which everything was accepted, with the answers *)
Inductive lives (A : api) (st : cstate) : list (event * response) -> cstate -> Prop :=
| lives_start : lives A st [] st
| lives_next h st1 ev st2 r :
    lives A st h st1 -> c_apply A ev st1 = Ok (st2, r) ->
    lives A st (h ++ [(ev, r)]) st2.

(** ** Mailboxes *)
(** the messages mailbox [a] dispatched, and those it processed *)
Definition dispatched_at (a : addr) (l : list entry) : list bytes :=
  flat_map (fun p => match p with
                     | (EvExec _ _ (MDispatch _) _, r) =>
                         match sent_message r with Some raw => [raw] | None => [] end
                     | _ => [] end) (answers_at a l).
Definition processed_at (a : addr) (l : list entry) : list bytes :=
  flat_map (fun p => match p with
                     | (EvExec _ _ (MProcess _ raw) _, _) => [raw]
                     | _ => [] end) (answers_at a l).
(** the coins that came with its dispatches *)
Definition dispatch_fund (d : str) (p : event * response) : N :=
  match p with (EvExec _ i (MDispatch _) _, _) => amount_of d (i_funds i) | _ => 0 end.
Definition dispatch_funds (a : addr) (d : str) (l : list entry) : N :=
  total (dispatch_fund d) (answers_at a l).
(** the deliveries made in its name: recipient contract, origin, sender, body *)
Definition delivery_of (a : addr) (x : addr * addr * emsg * list coin)
  : list (addr * (N * bytes * bytes)) :=
  match x with
  | (c, b, MHandle o sd bd, _) => if bytes_eqb a c then [(b, (o, sd, bd))] else []
  | _ => []
  end.
Definition deliveries_by (a : addr) (l : list entry) : list (addr * (N * bytes * bytes)) :=
  flat_map (delivery_of a) (calls_seen l).
(** the delivery that a message stands for *)
Definition delivers (hrp : str) (raw : bytes) (h : addr * (N * bytes * bytes)) : Prop :=
  exists m, msg_decode raw = Ok m /\ bech32_encode hrp (m_recipient m) = Ok (fst h) /\
    snd h = (m_origin m, m_sender m, m_body m).

(** ** Merkle hooks *)
(** the messages handed to hook [a], with the callers *)
Definition post_of (p : event * response) : list (addr * bytes) :=
  match p with
  | (EvExec _ i (MPostDispatch _ raw) _, _) => [(i_sender i, raw)]
  | _ => []
  end.
Definition posts_at (a : addr) (l : list entry) : list (addr * bytes) :=
  flat_map post_of (answers_at a l).
Definition posted_at (a : addr) (l : list entry) : list bytes := map snd (posts_at a l).
(** what mailbox [b] asked to be handed to [a]: once for each of the two hooks
    of a dispatch that is [a] *)
Definition hand_of (a : addr) (m : cmsg) : list bytes :=
  match m with
  | CExec c (MPostDispatch _ raw) _ => if bytes_eqb a c then [raw] else []
  | _ => []
  end.
Definition handed (a : addr) (r : response) : list bytes :=
  flat_map (hand_of a) (map sm_msg (r_msgs r)).
Definition handed_by (b a : addr) (l : list entry) : list bytes :=
  flat_map (fun p => handed a (snd p)) (answers_at b l).

Definition reported_hook_mailbox (st : cstate) : option addr :=
  match c_query no_api no_querier QHookMailbox st with Ok (RMailbox a) => Some a | _ => None end.
Definition reported_count (st : cstate) : option N :=
  match c_query no_api no_querier QMerkleCount st with Ok (RCount n) => Some n | _ => None end.
Definition reported_root (st : cstate) : option bytes :=
  match c_query no_api no_querier QMerkleRoot st with Ok (RRoot x) => Some x | _ => None end.
Definition reported_checkpoint (st : cstate) : option (bytes * N) :=
  match c_query no_api no_querier QMerkleCheckPoint st with
  | Ok (RCheckPoint x n) => Some (x, n) | _ => None end.
Definition reported_branch (st : cstate) : option (list bytes) :=
  match c_query no_api no_querier QMerkleBranch st with Ok (RBranch l) => Some l | _ => None end.
Definition reported_tree (st : cstate) : option (list bytes * N) :=
  match c_query no_api no_querier QMerkleTree st with Ok (RTree l n) => Some (l, n) | _ => None end.

(** posts made by [b] *)
Definition from (b : addr) (p : addr * bytes) : bool := bytes_eqb b (fst p).
(** the only required hook ever set is [a] *)
Definition only_required (b a : addr) (l : list entry) : Prop :=
  forall e i h Q r, In (EvExec e i (MSetRequiredHook h) Q, r) (answers_at b l) -> h = a.
(** [a] is never chosen by default nor on request *)
Definition never_chosen (b a : addr) (l : list entry) : Prop :=
  (forall e i h Q r, In (EvExec e i (MSetDefaultHook h) Q, r) (answers_at b l) -> h <> a) /\
  (forall e i d Q r, In (EvExec e i (MDispatch d) Q, r) (answers_at b l) -> d_hook d <> Some a).
