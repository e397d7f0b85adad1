(** * Bech32 addresses.
    /repo/packages/interface/src/types/bech32.rs on top of the [bech32] crate
    0.9.1 ([encode], [decode], [ToBase32], [FromBase32]), which is modelled
    executably here.  The 8/5-bit regrouping of the crate is written on bit
    sequences (most significant bit first) instead of shift registers. *)
From Coq Require Import List NArith Bool.
From Verif Require Import Base.
Import ListNotations.

(** ** Bits *)
(** [k] bits of [n], most significant first: crate bech32 0.9.1 (/repo/Cargo.toml:64)
    behind /repo/packages/interface/src/types/bech32.rs:41 *)
Fixpoint bits (k : nat) (n : N) : list bool :=
  match k with
  | O => []
  | S k' => N.testbit n (N.of_nat k') :: bits k' n
  end.

(** crate bech32 0.9.1 (/repo/Cargo.toml:64) behind
    /repo/packages/interface/src/types/bech32.rs:41 *)
Definition of_bits (l : list bool) : N :=
  fold_left (fun acc (b : bool) => 2 * acc + (if b then 1 else 0)) l 0.

(** crate bech32 0.9.1 (/repo/Cargo.toml:64) behind
    /repo/packages/interface/src/types/bech32.rs:41 *)
Definition bits_of_bytes (l : bytes) : list bool := flat_map (fun b => bits 8 (bN b)) l.
(** crate bech32 0.9.1 (/repo/Cargo.toml:64) behind
    /repo/packages/interface/src/types/bech32.rs:17 *)
Definition bits_of_u5 (l : list N) : list bool := flat_map (fun v => bits 5 v) l.

(** groups of [k] bits; the last group is padded with zeros (crate: [ToBase32 for
    AsRef<[u8]>], i.e. convert_bits with padding): crate bech32 0.9.1
    (/repo/Cargo.toml:64) behind /repo/packages/interface/src/types/bech32.rs:41 *)
Fixpoint group_pad (fuel k : nat) (l : list bool) : list N :=
  match fuel with
  | O => []
  | S f =>
      match l with
      | [] => []
      | _ =>
          let g := firstn k l in
          of_bits (g ++ repeat false (k - List.length g)) :: group_pad f k (skipn k l)
      end
  end.

(** crate bech32 0.9.1 (/repo/Cargo.toml:64) behind
    /repo/packages/interface/src/types/bech32.rs:41 *)
Definition to_base32 (raw : bytes) : list N :=
  let l := bits_of_bytes raw in group_pad (List.length l) 5 l.

(** complete groups of 8 bits; the remainder must be shorter than 5 bits and zero
    (crate: [convert_bits(.., 5, 8, false)], [InvalidPadding]): crate bech32 0.9.1
    (/repo/Cargo.toml:64) behind /repo/packages/interface/src/types/bech32.rs:17 *)
Fixpoint group_strict (fuel : nat) (l : list bool) : res bytes :=
  match fuel with
  | O => Ok []
  | S f =>
      if Nat.leb 8 (List.length l) then
        rest <- group_strict f (skipn 8 l) ;;
        Ok (nB (of_bits (firstn 8 l)) :: rest)
      else
        if (Nat.leb 5 (List.length l) || existsb (fun b => b) l)%bool
        then Err EStd else Ok []
  end.

(** crate bech32 0.9.1 (/repo/Cargo.toml:64) behind
    /repo/packages/interface/src/types/bech32.rs:17 *)
Definition from_base32 (l : list N) : res bytes :=
  let b := bits_of_u5 l in group_strict (S (List.length b)) b.

(** ** Checksum (crate: [polymod], generator, [hrp_expand]) *)
(** crate bech32 0.9.1 (/repo/Cargo.toml:64) behind
    /repo/packages/interface/src/types/bech32.rs:14, 41 *)
Definition gen (b : N) : N :=
  N.lxor (if N.testbit b 0 then 0x3b6a57b2 else 0)
  (N.lxor (if N.testbit b 1 then 0x26508e6d else 0)
  (N.lxor (if N.testbit b 2 then 0x1ea119fa else 0)
  (N.lxor (if N.testbit b 3 then 0x3d4233dd else 0)
          (if N.testbit b 4 then 0x2a1462b3 else 0)))).

(** crate bech32 0.9.1 (/repo/Cargo.toml:64) behind
    /repo/packages/interface/src/types/bech32.rs:14, 41 *)
Definition poly_shift (c : N) : N :=
  N.lxor (N.shiftl (N.land c 0x1ffffff) 5) (gen (N.shiftr c 25)).
(** crate bech32 0.9.1 (/repo/Cargo.toml:64) behind
    /repo/packages/interface/src/types/bech32.rs:14, 41 *)
Definition poly_step (c v : N) : N := N.lxor (poly_shift c) v.
(** crate bech32 0.9.1 (/repo/Cargo.toml:64) behind
    /repo/packages/interface/src/types/bech32.rs:14, 41 *)
Definition polymod (l : list N) : N := fold_left poly_step l 1.

(** crate bech32 0.9.1 (/repo/Cargo.toml:64) behind
    /repo/packages/interface/src/types/bech32.rs:14, 41 *)
Definition hrp_expand (hrp : str) : list N :=
  map (fun b => N.shiftr (bN b) 5) hrp ++ [0] ++ map (fun b => N.land (bN b) 31) hrp.

(** crate bech32 0.9.1 (/repo/Cargo.toml:64) behind
    /repo/packages/interface/src/types/bech32.rs:14, 41 *)
Definition bech32_const : N := 1.
(** crate bech32 0.9.1 (/repo/Cargo.toml:64) behind
    /repo/packages/interface/src/types/bech32.rs:14 *)
Definition bech32m_const : N := 0x2bc830a3.

(** [Bech32Writer::finalize]: six zeros, xor the variant constant, six digits: crate
    bech32 0.9.1 (/repo/Cargo.toml:64) behind
    /repo/packages/interface/src/types/bech32.rs:41 *)
Definition checksum (hrp : str) (data : list N) : list N :=
  let m := N.lxor (polymod (hrp_expand hrp ++ data ++ [0;0;0;0;0;0])) bech32_const in
  map (fun k => N.land (N.shiftr m k) 31) [25; 20; 15; 10; 5; 0].

(** ** Characters *)
(** crate bech32 0.9.1 (/repo/Cargo.toml:64) behind
    /repo/packages/interface/src/types/bech32.rs:14, 41 *)
Definition charset : list byte := s "qpzry9x8gf2tvdw0s3jn54khce6mua7l".

(** crate bech32 0.9.1 (/repo/Cargo.toml:64) behind
    /repo/packages/interface/src/types/bech32.rs:14, 41 *)
Fixpoint find_index (b : byte) (l : list byte) (i : N) : option N :=
  match l with
  | [] => None
  | c :: l' => if byte_eqb b c then Some i else find_index b l' (i + 1)
  end.

(** crate bech32 0.9.1 (/repo/Cargo.toml:64) behind
    /repo/packages/interface/src/types/bech32.rs:14, 41 *)
Definition is_lower (b : byte) : bool := ((97 <=? bN b) && (bN b <=? 122))%bool.
(** crate bech32 0.9.1 (/repo/Cargo.toml:64) behind
    /repo/packages/interface/src/types/bech32.rs:14, 41 *)
Definition is_upper (b : byte) : bool := ((65 <=? bN b) && (bN b <=? 90))%bool.
(** crate bech32 0.9.1 (/repo/Cargo.toml:64) behind
    /repo/packages/interface/src/types/bech32.rs:14, 41 *)
Definition to_lower (b : byte) : byte := if is_upper b then nB (bN b + 32) else b.

(** [CHARSET_REV]: both cases map to the same digit: crate bech32 0.9.1
    (/repo/Cargo.toml:64) behind /repo/packages/interface/src/types/bech32.rs:14 *)
Definition char_rev (b : byte) : option N := find_index (to_lower b) charset 0.

(** crate bech32 0.9.1 (/repo/Cargo.toml:64) behind
    /repo/packages/interface/src/types/bech32.rs:14, 41 *)
Inductive bcase := CUpper | CLower | CNone.

(** crate: [check_hrp]: crate bech32 0.9.1 (/repo/Cargo.toml:64) behind
    /repo/packages/interface/src/types/bech32.rs:41 *)
Definition check_hrp (hrp : str) : res bcase :=
  if (Nat.eqb (List.length hrp) 0 || negb (Nat.leb (List.length hrp) 83))%bool then Err EStd
  else if negb (forallb (fun b => (33 <=? bN b) && (bN b <=? 126)) hrp)%bool then Err EStd
  else
    match existsb is_upper hrp, existsb is_lower hrp with
    | true, true => Err EStd
    | true, false => Ok CUpper
    | false, true => Ok CLower
    | false, false => Ok CNone
    end.

(** crate bech32 0.9.1 (/repo/Cargo.toml:64) behind
    /repo/packages/interface/src/types/bech32.rs:41 *)
Definition hrp_norm (c : bcase) (hrp : str) : str :=
  match c with CUpper => map to_lower hrp | _ => hrp end.

(** crate: [encode(hrp, data, Variant::Bech32)]: crate bech32 0.9.1
    (/repo/Cargo.toml:64) behind /repo/packages/interface/src/types/bech32.rs:41 *)
Definition b32_encode (hrp : str) (data : list N) : res str :=
  c <- check_hrp hrp ;;
  let h := hrp_norm c hrp in
  Ok (h ++ s "1" ++ map (fun v => nth (N.to_nat v) charset x00) (data ++ checksum h data)).

(** crate: [s.rfind('1')] and [split_at]: crate bech32 0.9.1 (/repo/Cargo.toml:64)
    behind /repo/packages/interface/src/types/bech32.rs:14 *)
Fixpoint rsplit (l : str) : option (str * str) :=
  match l with
  | [] => None
  | b :: l' =>
      match rsplit l' with
      | Some (h, d) => Some (b :: h, d)
      | None => if byte_eqb b "1"%byte then Some ([], l') else None
      end
  end.

(** crate: character loop of [split_and_decode]: crate bech32 0.9.1
    (/repo/Cargo.toml:64) behind /repo/packages/interface/src/types/bech32.rs:14 *)
Fixpoint decode_chars (c : bcase) (l : str) : res (list N) :=
  match l with
  | [] => Ok []
  | b :: l' =>
      if negb (bN b <? 128) then Err EStd else
      c' <- (if is_lower b then match c with CUpper => Err EStd | _ => Ok CLower end
             else if is_upper b then match c with CLower => Err EStd | _ => Ok CUpper end
             else Ok c) ;;
      match char_rev b with
      | None => Err EStd
      | Some v => rest <- decode_chars c' l' ;; Ok (v :: rest)
      end
  end.

(** crate: [decode]; the data without its checksum: crate bech32 0.9.1
    (/repo/Cargo.toml:64) behind /repo/packages/interface/src/types/bech32.rs:14 *)
Definition b32_decode (l : str) : res (str * list N) :=
  match rsplit l with
  | None => Err EStd
  | Some (raw_hrp, raw_data) =>
      c <- check_hrp raw_hrp ;;
      let h := hrp_norm c raw_hrp in
      data <- decode_chars c raw_data ;;
      if negb (Nat.leb 6 (List.length data)) then Err EStd else
      let r := polymod (hrp_expand h ++ data) in
      if ((r =? bech32_const) || (r =? bech32m_const))%bool
      then Ok (h, firstn (List.length data - 6) data)
      else Err EStd
  end.

(** bech32.rs:13-21 *)
Definition bech32_decode (target : str) : res bytes :=
  '(_, u5s) <- b32_decode target ;;
  from_base32 u5s.

(** bech32.rs:4-11 *)
Definition bech32_to_h256 (target : str) : res bytes :=
  raw <- bech32_decode target ;;
  pad32 raw.

(** bech32.rs:23-45 *)
Definition bech32_encode (hrp : str) (raw : bytes) : res str :=
  if (negb (Nat.eqb (List.length raw) 32) && negb (Nat.eqb (List.length raw) 20))%bool
  then Err EStd
  else if (Nat.eqb (List.length raw) 32 && (of_be (firstn 12 raw) =? 0))%bool
  then b32_encode hrp (to_base32 (skipn 12 raw))
  else b32_encode hrp (to_base32 raw).

(** Transcription tests: the vectors of bech32.rs:96-112. *)
Example bech32_vec1 :
  (d <- bech32_to_h256 (s "osmo1466nf3zuxpya8q9emxukd7vftaf6h4psr0a07srl5zw74zh84yjqkk0zfx") ;;
   bech32_encode (s "osmo") d)
  = Ok (s "osmo1466nf3zuxpya8q9emxukd7vftaf6h4psr0a07srl5zw74zh84yjqkk0zfx").
Proof. vm_compute. reflexivity. Qed.
Example bech32_vec2 :
  (d <- bech32_to_h256 (s "neutron1xle8l3h0wkcp6tsxmkc6n4vqyfkhwnukevwwsk") ;;
   bech32_encode (s "neutron") d)
  = Ok (s "neutron1xle8l3h0wkcp6tsxmkc6n4vqyfkhwnukevwwsk").
Proof. vm_compute. reflexivity. Qed.
Example bech32_vec3 :
  (d <- bech32_decode (s "cosmos1d6a3j0kkpc8eac0j8h6ypyevfz8hd3qn5mpnwx") ;;
   bech32_encode (s "axelar") d)
  = Ok (s "axelar1d6a3j0kkpc8eac0j8h6ypyevfz8hd3qns4hm98").
Proof. vm_compute. reflexivity. Qed.
Example bech32_vec4 :
  (d <- bech32_decode (s "neutron1gajw625kz8el4ayk8fwpy7r6ew0m7zrg9jdd6grg85fle39shuxqezuz2c") ;;
   bech32_encode (s "neutron") d)
  = Ok (s "neutron1gajw625kz8el4ayk8fwpy7r6ew0m7zrg9jdd6grg85fle39shuxqezuz2c").
Proof. vm_compute. reflexivity. Qed.
