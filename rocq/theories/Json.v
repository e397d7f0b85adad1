(** * JSON texts.

    What [to_json_binary] and [from_json] of cosmwasm-std 1.5.0 (over
    serde-json-wasm 0.5) do with the values of /repo/packages/interface/src:
    written without spaces, read with spaces anywhere between tokens.  Numbers
    are natural numbers (no message has a signed or fractional field).  Strings
    are bytes (that they are UTF-8 whenever the text is: Utf8Facts.v). *)
From Coq Require Import List NArith Bool.
From Verif Require Import Base Hex Events.
Import ListNotations.

(** a JSON value; serde-json-wasm behind [from_json], e.g.
    /repo/packages/interface/src/macros.rs:14 *)
Inductive json :=
| JNull | JBool (b : bool) | JNum (n : N) | JStr (t : str)
| JArr (l : list json) | JObj (l : list (str * json)).

(** [to_json_binary], e.g. /repo/packages/interface/src/lib.rs:84-88 *)
Fixpoint text (j : json) : str :=
  match j with
  | JNull => s "null"
  | JBool b => if b then s "true" else s "false"
  | JNum n => dec n
  | JStr t => json_string t
  | JArr l => s "[" ++ commas (map text l) ++ s "]"
  | JObj l => s "{" ++ commas (map (fun p => json_string (fst p) ++ s ":" ++ text (snd p)) l) ++ s "}"
  end.

(** ** Reading ([from_json], e.g. /repo/packages/interface/src/macros.rs:17) *)
(** skip spaces, tabs and line ends *)
Fixpoint spaces (t : str) : str :=
  match t with
  | c :: t' => if ((bN c =? 32) || (bN c =? 9) || (bN c =? 10) || (bN c =? 13))%bool then spaces t' else t
  | [] => []
  end.

(** a code point of the basic plane in UTF-8 *)
Definition utf8 (n : N) : option bytes :=
  if n <? 128 then Some [nB n]
  else if n <? 2048 then Some [nB (192 + n / 64); nB (128 + n mod 64)]
  else if ((55296 <=? n) && (n <? 57344))%bool then None
  else Some [nB (224 + n / 4096); nB (128 + n / 64 mod 64); nB (128 + n mod 64)].

(** the letters after a backslash, but [u] *)
Definition escape (b : byte) : option byte :=
  let c := bN b in
  if ((c =? 34) || (c =? 92) || (c =? 47))%bool then Some b
  else if c =? 98 then Some x08 else if c =? 102 then Some x0c else if c =? 110 then Some x0a
  else if c =? 114 then Some x0d else if c =? 116 then Some x09 else None.
(** two code units, a high and a low surrogate, stand for a code point beyond the
    basic plane, here in UTF-8 (serde-json-wasm, as above) *)
Definition utf8_pair (n m : N) : option bytes :=
  if ((55296 <=? n) && (n <? 56320) && (56320 <=? m) && (m <? 57344))%bool then
    let c := 65536 + (n - 55296) * 1024 + (m - 56320) in
    Some [nB (240 + c / 262144); nB (128 + c / 4096 mod 64); nB (128 + c / 64 mod 64); nB (128 + c mod 64)]
  else None.
(** four hexadecimal digits; twice four *)
Definition code_point (a b c d : byte) : option bytes :=
  match hex_value a, hex_value b, hex_value c, hex_value d with
  | Some a, Some b, Some c, Some d => utf8 (((a * 16 + b) * 16 + c) * 16 + d)
  | _, _, _, _ => None
  end.
Definition code_pair (a b c d a' b' c' d' : byte) : option bytes :=
  match hex_value a, hex_value b, hex_value c, hex_value d, hex_value a', hex_value b', hex_value c', hex_value d' with
  | Some a, Some b, Some c, Some d, Some a', Some b', Some c', Some d' =>
      utf8_pair (((a * 16 + b) * 16 + c) * 16 + d) (((a' * 16 + b') * 16 + c') * 16 + d')
  | _, _, _, _, _, _, _, _ => None
  end.
(** the rest of a string after its opening quote, and what follows its closing one *)
Fixpoint string_rest (t : str) : option (str * str) :=
  match t with
  | [] => None
  | c :: t' =>
      if bN c =? 34 then Some ([], t')
      else if bN c =? 92 then
        match t' with
        | [] => None
        | e :: t2 =>
            if bN e =? 117 then
              match t2 with
              | a :: b :: c' :: d :: t3 =>
                  match code_point a b c' d with
                  | Some u => match string_rest t3 with Some (x, y) => Some (u ++ x, y) | None => None end
                  | None =>
                      match t3 with
                      | q :: v :: a2 :: b2 :: c2 :: d2 :: t4 =>
                          if ((bN q =? 92) && (bN v =? 117))%bool then
                            match code_pair a b c' d a2 b2 c2 d2, string_rest t4 with
                            | Some u, Some (x, y) => Some (u ++ x, y)
                            | _, _ => None
                            end
                          else None
                      | _ => None
                      end
                  end
              | _ => None
              end
            else
              match escape e, string_rest t2 with
              | Some u, Some (x, y) => Some (u :: x, y)
              | _, _ => None
              end
        end
      else match string_rest t' with Some (x, y) => Some (c :: x, y) | None => None end
  end.

(** is it a digit? *)
Definition is_digit (b : byte) : bool := ((48 <=? bN b) && (bN b <=? 57))%bool.
(** digits, most significant first, onto [acc] *)
Fixpoint digits (acc : N) (t : str) : N * str :=
  match t with
  | c :: t' => if is_digit c then digits (acc * 10 + (bN c - 48)) t' else (acc, t)
  | [] => (acc, [])
  end.
(** a number: no leading zeros *)
Definition number (t : str) : option (N * str) :=
  match t with
  | [] => None
  | c :: t' =>
      if bN c =? 48 then
        match t' with d :: _ => if is_digit d then None else Some (0, t') | [] => Some (0, t') end
      else if is_digit c then Some (digits 0 t) else None
  end.

(** a fixed character, a fixed word *)
Definition eat (n : N) (t : str) : option str :=
  match t with c :: t' => if bN c =? n then Some t' else None | [] => None end.
(** [null], [true], [false] *)
Fixpoint word (w t : str) : option str :=
  match w, t with
  | [], _ => Some t
  | c :: w', d :: t' => if byte_eqb c d then word w' t' else None
  | _, [] => None
  end.

(** elements of an array up to its closing bracket; [f] reads one *)
Fixpoint elements (f : str -> option (json * str)) (n : nat) (t : str) : option (list json * str) :=
  match n with
  | O => None
  | S n' =>
      match f t with
      | Some (j, t1) =>
          match eat 44 (spaces t1), eat 93 (spaces t1) with
          | Some t2, _ => match elements f n' t2 with Some (l, t3) => Some (j :: l, t3) | None => None end
          | None, Some t2 => Some ([j], t2)
          | None, None => None
          end
      | None => None
      end
  end.
(** a key, its colon and its value *)
Definition member (f : str -> option (json * str)) (t : str) : option ((str * json) * str) :=
  match eat 34 (spaces t) with
  | Some t0 =>
      match string_rest t0 with
      | Some (k, t1) =>
          match eat 58 (spaces t1) with
          | Some t2 => match f t2 with Some (j, t3) => Some ((k, j), t3) | None => None end
          | None => None
          end
      | None => None
      end
  | None => None
  end.
(** members of an object up to its closing brace *)
Fixpoint members (f : str -> option (json * str)) (n : nat) (t : str) : option (list (str * json) * str) :=
  match n with
  | O => None
  | S n' =>
      match member f t with
      | Some (p, t1) =>
          match eat 44 (spaces t1), eat 125 (spaces t1) with
          | Some t2, _ => match members f n' t2 with Some (l, t3) => Some (p :: l, t3) | None => None end
          | None, Some t2 => Some ([p], t2)
          | None, None => None
          end
      | None => None
      end
  end.

(** one value, at most [n] levels deep, and what follows it *)
Fixpoint value (n : nat) (t : str) : option (json * str) :=
  match n with
  | O => None
  | S n' =>
      match spaces t with
      | [] => None
      | c :: t' =>
          if bN c =? 34 then match string_rest t' with Some (x, y) => Some (JStr x, y) | None => None end
          else if bN c =? 91 then
            match eat 93 (spaces t') with
            | Some y => Some (JArr [], y)
            | None => match elements (value n') (length t') t' with Some (l, y) => Some (JArr l, y) | None => None end
            end
          else if bN c =? 123 then
            match eat 125 (spaces t') with
            | Some y => Some (JObj [], y)
            | None => match members (value n') (length t') t' with Some (l, y) => Some (JObj l, y) | None => None end
            end
          else if bN c =? 110 then option_map (fun y => (JNull, y)) (word (s "ull") t')
          else if bN c =? 116 then option_map (fun y => (JBool true, y)) (word (s "rue") t')
          else if bN c =? 102 then option_map (fun y => (JBool false, y)) (word (s "alse") t')
          else option_map (fun p : N * str => (JNum (fst p), snd p)) (number (c :: t'))
      end
  end.

(** a whole text: one value and nothing but spaces after it *)
Definition parse (t : str) : option json :=
  match value (length t) t with
  | Some (j, y) => match spaces y with [] => Some j | _ => None end
  | None => None
  end.
