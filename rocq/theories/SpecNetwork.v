(** * Vocabulary for statements about any number of connected warp routes.

    SpecBridge.v has two ends; here the ends are a list.  What a route enrols:
    /repo/packages/router/src/lib.rs:35-108; what it takes and gives:
    /repo/contracts/warp/native/src/contract.rs:146-268,
    /repo/contracts/warp/cw20/src/contract.rs:142-255. *)
From Coq Require Import List NArith Bool.
From Verif Require Import Base OMap Bech32 Message Coins Chain Contracts Cw20 Spec SpecModules MailboxConfFacts World
  SpecWorld SpecBridge SpecLive.
Import ListNotations.

(** the ends are on different domains, enrol nobody but each other (possibly
    themselves), each mailbox accepts, as coming from another end's domain, only
    what was dispatched there, and users name 32-byte recipients *)
Definition network (Ss : list side) : Prop :=
  (forall S, In S Ss -> side_ok S /\ proper_recipients S) /\
  NoDup (map sd_domain Ss) /\
  (forall S T, In S Ss -> In T Ss -> enrolled S T /\ honest S T) /\
  (forall S r x, In S Ss -> In r (flat_map route_updates (events_at (sd_route S) (sd_log S))) ->
     rs_route r = Some x -> In (rs_domain r) (map sd_domain Ss)).

(** the sums over all ends: held and held to begin with by the routes that lock,
    issued and issued to begin with by those that issue *)
Inductive books : list side -> N -> N -> N -> N -> Prop :=
| books_nil : books [] 0 0 0 0
| books_locks S Ss held base h b o i :
    custody S held base -> books Ss h b o i -> books (S :: Ss) (held + h) (base + b) o i
| books_issues S Ss out base h b o i :
    issued S out base -> books Ss h b o i -> books (S :: Ss) h b (out + o) (base + i).

(** all that travels between the ends; to one of them *)
Definition all_in_flight (Ss : list side) : N := total (fun S => total (fun T => in_flight S T) Ss) Ss.
Definition coming_to (T : side) (Ss : list side) : N := total (fun S => in_flight S T) Ss.

(** every other end issues its tokens, starting from none *)
Definition sole_vault (Ss : list side) (T : side) : Prop :=
  forall S, In S Ss -> sd_domain S <> sd_domain T -> exists out, issued S out 0.
