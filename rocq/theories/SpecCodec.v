(** * Formats, byte by byte.  Specification side: positions, numbers by place
      value, and BIP-173. *)
From Coq Require Import List NArith.
From Verif Require Import Base Message Metadata.
Import ListNotations.

(** a big-endian number *)
Fixpoint value (l : bytes) : N :=
  match l with
  | [] => 0
  | b :: l' => bN b * 256 ^ N.of_nat (length l') + value l'
  end.
(** [width] bytes from position [start] on *)
Definition field (v : bytes) (start width : nat) : bytes := firstn width (skipn start v).
Definition number_at (v : bytes) (start width : nat) : N := value (field v start width).

(** ** Fixed formats *)
Definition message_layout (v : bytes) (m : message) : Prop :=
  length v = (77 + length (m_body m))%nat /\
  number_at v 0 1 = m_version m /\ number_at v 1 4 = m_nonce m /\ number_at v 5 4 = m_origin m /\
  field v 9 32 = m_sender m /\ number_at v 41 4 = m_dest m /\ field v 45 32 = m_recipient m /\
  skipn 77 v = m_body m.

Definition transfer_layout (v : bytes) (w : warp_message) : Prop :=
  length v = (64 + length (w_metadata w))%nat /\
  field v 0 32 = w_recipient w /\ number_at v 32 32 = w_amount w /\ skipn 64 v = w_metadata w.

Definition root_metadata_layout (v : bytes) (x : mr_meta) : Prop :=
  length v = (1092 + length (mr_signatures x))%nat /\
  field v 0 32 = mr_origin_mailbox x /\ number_at v 32 4 = mr_checkpoint_index x /\
  field v 36 32 = mr_message_id x /\ field v 68 1024 = mr_proof x /\ skipn 1092 v = mr_signatures x.

Definition gas_metadata_layout (v : bytes) (x : igp_meta) : Prop :=
  length v = (32 + length (ig_refund x))%nat /\
  number_at v 0 32 = ig_gas_limit x /\ skipn 32 v = ig_refund x.

(** Aggregate metadata: for the i-th module, at 8i, the position of its
    metadata's first byte and the position after its last; the metadata follow
    the positions without gaps. *)
Definition aggregate_layout (v : bytes) (l : list bytes) : Prop :=
  exists at_ : nat -> nat,
    at_ 0%nat = (8 * length l)%nat /\ at_ (length l) = length v /\
    forall i, (i < length l)%nat ->
      at_ (S i) = (at_ i + length (nth i l []))%nat /\
      number_at v (8 * i) 4 = N.of_nat (at_ i) /\
      number_at v (8 * i + 4) 4 = N.of_nat (at_ (S i)) /\
      field v (at_ i) (length (nth i l [])) = nth i l [].

(** ** BIP-173 (and BIP-350, which differs in the final constant) *)
Definition symbols : str := s "qpzry9x8gf2tvdw0s3jn54khce6mua7l".
Definition symbol (d : N) : byte := nth (N.to_nat d) symbols x00.
Definition generators : list (N * N) :=
  [(0, 0x3b6a57b2); (1, 0x26508e6d); (2, 0x1ea119fa); (3, 0x3d4233dd); (4, 0x2a1462b3)].
Definition bip_step (chk v : N) : N :=
  let top := chk / 2 ^ 25 in
  fold_left (fun c (p : N * N) => if N.odd (top / 2 ^ fst p) then N.lxor c (snd p) else c)
    generators (N.lxor (chk mod 2 ^ 25 * 32) v).
Definition bip_polymod (l : list N) : N := fold_left bip_step l 1.
Definition bip_expand (hrp : str) : list N :=
  map (fun b => bN b / 32) hrp ++ [0] ++ map (fun b => bN b mod 32) hrp.
(** a number in base 32 *)
Fixpoint radix32 (l : list N) : N :=
  match l with [] => 0 | d :: l' => d * 32 ^ N.of_nat (length l') + radix32 l' end.

(** [digits] are [data] in base 32, padded with less than five zero bits *)
Definition regrouped (data : bytes) (digits : list N) : Prop :=
  Forall (fun d => d < 32) digits /\
  exists pad, (pad < 5)%nat /\ (5 * length digits = 8 * length data + pad)%nat /\
    radix32 digits = value data * 2 ^ N.of_nat pad.

(** [text] is prefix [hrp] and [data], with the checksum [constant] *)
Definition bech32_text (constant : N) (hrp : str) (data : bytes) (text : str) : Prop :=
  exists digits check,
    regrouped data digits /\ length check = 6%nat /\ Forall (fun d => d < 32) check /\
    bip_polymod (bip_expand hrp ++ digits ++ check) = constant /\
    text = hrp ++ s "1" ++ map symbol (digits ++ check).

(** BIP-173: 1 to 83 printable characters; here without capitals *)
Definition prefix_ok (hrp : str) : Prop :=
  (1 <= length hrp <= 83)%nat /\ Forall (fun b => 33 <= bN b <= 126) hrp.
Definition capital (b : byte) : Prop := 65 <= bN b <= 90.
Definition small (b : byte) : Prop := 97 <= bN b <= 122.

(** [b] is [a], except that a capital has become the small letter *)
Definition lowers (a b : byte) : Prop :=
  (capital a /\ bN b = bN a + 32) \/ (~ capital a /\ b = a).
