(* The text of requests: bytes -> str (bytes.decode("utf-8")) -> JSON value (json.loads) -> the data of the contract model.
   iconservice's json_loads and json_dumps are Python's json.loads and json.dumps; the scanner of CPython (Modules/_json.c) is
   modelled.  A str is the list of its code points.  Not modelled: the recursion limit of the interpreter (a text nested
   about a thousand levels deep is refused there), the values of floats. *)
From Coq Require Import String Ascii.
From stdpp Require Import base countable list numbers strings gmap.
From Verif Require Import Res Codec World.
Local Open Scope N_scope.
Local Open Scope list_scope.

Definition text : Type := list N.

(* ---- UTF-8 ---- *)
(* continuation byte *)
Definition cont (a : ascii) : option N :=
  let n := N_of_ascii a in if (0x80 <=? n) && (n <? 0xC0) then Some (n - 0x80) else None.
(* one code point, ranges as in the Unicode standard (no overlong forms, no surrogates, at most U+10FFFF) *)
Definition surrogate (n : N) : bool := (0xD800 <=? n) && (n <? 0xE000).
Definition utf8_step (s : string) : option (N * string) :=
  match s with
  | EmptyString => None
  | String a s1 =>
      let n := N_of_ascii a in
      if n <? 0x80 then Some (n, s1) else
      match s1 with
      | EmptyString => None
      | String b s2 =>
          match cont b with
          | None => None
          | Some y =>
              if (0xC0 <=? n) && (n <? 0xE0) then
                let r := (n - 0xC0) * 64 + y in if 0x80 <=? r then Some (r, s2) else None
              else
              match s2 with
              | EmptyString => None
              | String c s3 =>
                  match cont c with
                  | None => None
                  | Some z =>
                      if (0xE0 <=? n) && (n <? 0xF0) then
                        let r := (n - 0xE0) * 4096 + y * 64 + z in
                        if (0x800 <=? r) && negb (surrogate r) then Some (r, s3) else None
                      else
                      match s3 with
                      | EmptyString => None
                      | String d s4 =>
                          match cont d with
                          | None => None
                          | Some t =>
                              if (0xF0 <=? n) && (n <? 0xF8) then
                                let r := (n - 0xF0) * 262144 + y * 4096 + z * 64 + t in
                                if (0x10000 <=? r) && (r <=? 0x10FFFF) then Some (r, s4) else None
                              else None
                          end
                      end
                  end
              end
          end
      end
  end.
(* bytes.decode(encoding="utf-8") (network.py:103, converter.py:245); UnicodeDecodeError is None.  Every step consumes a
   byte: the length is enough fuel *)
Fixpoint utf8_loop (fuel : nat) (s : string) : option text :=
  match s, fuel with
  | EmptyString, _ => Some []
  | _, O => None
  | _, S f =>
      match utf8_step s with
      | None => None
      | Some (n, s') => match utf8_loop f s' with Some t => Some (n :: t) | None => None end
      end
  end.
Definition utf8_decode (s : string) : option text := utf8_loop (String.length s) s.

(* str.encode(encoding="utf-8") (network.py:282) *)
Definition utf8_char (n : N) : string :=
  if n <? 0x10000 then utf8_bmp n
  else String (ascii_of_N (0xF0 + n / 262144)) (String (ascii_of_N (0x80 + n / 4096 mod 64))
         (String (ascii_of_N (0x80 + n / 64 mod 64)) (String (ascii_of_N (0x80 + n mod 64)) EmptyString))).
Fixpoint utf8_encode (t : text) : string :=
  match t with [] => EmptyString | n :: t' => (utf8_char n ++ utf8_encode t')%string end.

(* ---- json.loads ---- *)
Inductive jv :=
| VNull | VBool (b : bool) | VInt (z : Z)
| VFloat (* any float, NaN, Infinity, -Infinity *)
| VStr (s : text) | VArr (l : list jv) | VObj (l : list (text * jv)).

Definition is_ws (c : N) : bool := (c =? 32) || (c =? 9) || (c =? 10) || (c =? 13).
Fixpoint skip_ws (s : text) : text := match s with c :: s' => if is_ws c then skip_ws s' else s | [] => [] end.

Definition hexv (c : N) : option N :=
  if (48 <=? c) && (c <=? 57) then Some (c - 48)
  else if (97 <=? c) && (c <=? 102) then Some (c - 87)
  else if (65 <=? c) && (c <=? 70) then Some (c - 55) else None.
Definition hex4 (a b c d : N) : option N :=
  match hexv a, hexv b, hexv c, hexv d with
  | Some a, Some b, Some c, Some d => Some (((a * 16 + b) * 16 + c) * 16 + d)
  | _, _, _, _ => None
  end.
Definition high (u : N) : bool := (0xD800 <=? u) && (u <? 0xDC00).
Definition low (u : N) : bool := (0xDC00 <=? u) && (u <? 0xE000).
Definition join_pair (u v : N) : N := 0x10000 + (u - 0xD800) * 1024 + (v - 0xDC00).
(* the one-letter escapes: quotation mark, backslash, slash, b f n r t *)
Definition escape (e : N) : option N :=
  if e =? 34 then Some 34 else if e =? 92 then Some 92 else if e =? 47 then Some 47
  else if e =? 98 then Some 8 else if e =? 102 then Some 12 else if e =? 110 then Some 10
  else if e =? 114 then Some 13 else if e =? 116 then Some 9 else None.
Definition push (c : N) (r : option (text * text)) : option (text * text) :=
  match r with Some (v, s) => Some (c :: v, s) | None => None end.
(* _json.c scanstring_unicode, strict: after the opening quote *)
Fixpoint scan_string (s : text) : option (text * text) :=
  match s with
  | [] => None
  | c :: s1 =>
      if c =? 34 then Some ([], s1)
      else if c =? 92 then
        match s1 with
        | [] => None
        | e :: s2 =>
            if e =? 117 then
              match s2 with
              | h1 :: h2 :: h3 :: h4 :: s3 =>
                  match hex4 h1 h2 h3 h4 with
                  | None => None
                  | Some u =>
                      if high u then
                        match s3 with
                        | x :: y :: k1 :: k2 :: k3 :: k4 :: s4 =>
                            if (x =? 92) && (y =? 117) then
                              match hex4 k1 k2 k3 k4 with
                              | None => None
                              | Some v => if low v then push (join_pair u v) (scan_string s4) else push u (scan_string s3)
                              end
                            else push u (scan_string s3)
                        | _ => push u (scan_string s3)
                        end
                      else push u (scan_string s3)
                  end
              | _ => None
              end
            else match escape e with Some v => push v (scan_string s2) | None => None end
        end
      else if c <? 32 then None
      else push c (scan_string s1)
  end.

Definition is_digit (c : N) : bool := (48 <=? c) && (c <=? 57).
Fixpoint take_digits (s : text) : text * text :=
  match s with
  | c :: s' => if is_digit c then let '(d, r) := take_digits s' in (c :: d, r) else ([], s)
  | [] => ([], [])
  end.
(* int(text) *)
Definition digits_value (d : text) : N := fold_left (fun acc c => acc * 10 + (c - 48)) d 0.
(* _json.c _match_number_unicode: the fraction, if there is one *)
Definition scan_frac (s : text) : bool * text :=
  match s with
  | c :: s' => if c =? 46 then match take_digits s' with ([], _) => (false, s) | (_, r) => (true, r) end else (false, s)
  | [] => (false, s)
  end.
Definition scan_exp (s : text) : bool * text :=
  match s with
  | c :: s' =>
      if (c =? 101) || (c =? 69) then
        let s2 := match s' with g :: s'' => if (g =? 43) || (g =? 45) then s'' else s' | [] => s' end in
        match take_digits s2 with ([], _) => (false, s) | (_, r) => (true, r) end
      else (false, s)
  | [] => (false, s)
  end.
Definition scan_sign (s : text) : bool * text :=
  match s with c :: s' => if c =? 45 then (true, s') else (false, s) | [] => (false, s) end.
Definition scan_number (s : text) : option (jv * text) :=
  let '(neg, s1) := scan_sign s in
  match s1 with
  | [] => None
  | c :: s2 =>
      if is_digit c then
        let '(d, r) := if c =? 48 then ([c], s2) else take_digits s1 in
        let '(b1, r1) := scan_frac r in
        let '(b2, r2) := scan_exp r1 in
        Some (if b1 || b2 then VFloat
              else VInt (if neg : bool then - Z.of_N (digits_value d) else Z.of_N (digits_value d))%Z, r2)
      else None
  end.

Fixpoint strip_prefix (p s : text) : option text :=
  match p, s with
  | [], _ => Some s
  | c :: p', d :: s' => if c =? d then strip_prefix p' s' else None
  | _, [] => None
  end.
Definition t_null : text := [110; 117; 108; 108].
Definition t_true : text := [116; 114; 117; 101].
Definition t_false : text := [102; 97; 108; 115; 101].
Definition t_nan : text := [78; 97; 78].
Definition t_infinity : text := [73; 110; 102; 105; 110; 105; 116; 121].
(* the constants; None if the text is none of them *)
Definition scan_const (s : text) : option (jv * text) :=
  match strip_prefix t_null s with Some r => Some (VNull, r) | None =>
  match strip_prefix t_true s with Some r => Some (VBool true, r) | None =>
  match strip_prefix t_false s with Some r => Some (VBool false, r) | None =>
  match strip_prefix t_nan s with Some r => Some (VFloat, r) | None =>
  match strip_prefix t_infinity s with Some r => Some (VFloat, r) | None =>
  match strip_prefix (45 :: t_infinity) s with Some r => Some (VFloat, r) | None => None
  end end end end end end.

(* _json.c scan_once_unicode, _parse_object_unicode, _parse_array_unicode.  At most two calls are made without
   consuming a character: twice the length is enough fuel *)
Fixpoint scan_value (fuel : nat) (s : text) : option (jv * text) :=
  match fuel, s with
  | S f, c :: s' =>
      if c =? 34 then match scan_string s' with Some (v, r) => Some (VStr v, r) | None => None end
      else if c =? 123 then
        match skip_ws s' with
        | d :: r => if d =? 125 then Some (VObj [], r)
                    else match scan_members f (d :: r) with Some (l, r') => Some (VObj l, r') | None => None end
        | [] => None
        end
      else if c =? 91 then
        match skip_ws s' with
        | d :: r => if d =? 93 then Some (VArr [], r)
                    else match scan_elements f (d :: r) with Some (l, r') => Some (VArr l, r') | None => None end
        | [] => None
        end
      else match scan_const s with Some x => Some x | None => scan_number s end
  | _, _ => None
  end
with scan_members (fuel : nat) (s : text) : option (list (text * jv) * text) :=
  match fuel, s with
  | S f, c :: s1 =>
      if c =? 34 then
        match scan_string s1 with
        | Some (k, s2) =>
            match skip_ws s2 with
            | c2 :: s3 =>
                if c2 =? 58 then
                  match scan_value f (skip_ws s3) with
                  | Some (v, s4) =>
                      match skip_ws s4 with
                      | c4 :: s5 =>
                          if c4 =? 125 then Some ([(k, v)], s5)
                          else if c4 =? 44 then
                            match scan_members f (skip_ws s5) with
                            | Some (l, r) => Some ((k, v) :: l, r)
                            | None => None
                            end
                          else None
                      | [] => None
                      end
                  | None => None
                  end
                else None
            | [] => None
            end
        | None => None
        end
      else None
  | _, _ => None
  end
with scan_elements (fuel : nat) (s : text) : option (list jv * text) :=
  match fuel with
  | O => None
  | S f =>
      match scan_value f s with
      | Some (v, s4) =>
          match skip_ws s4 with
          | c4 :: s5 =>
              if c4 =? 93 then Some ([v], s5)
              else if c4 =? 44 then
                match scan_elements f (skip_ws s5) with
                | Some (l, r) => Some (v :: l, r)
                | None => None
                end
              else None
          | [] => None
          end
      | None => None
      end
  end.

(* json.loads: white space, one value, white space, nothing else *)
Definition loads (s : text) : option jv :=
  match scan_value (2 * List.length s) (skip_ws s) with
  | Some (v, r) => match skip_ws r with [] => Some v | _ => None end
  | None => None
  end.

(* ---- the payload of a transfer as the contract model sees it ---- *)
Definition to_json (v : jv) : json :=
  match v with
  | VNull => JNull | VBool b => JBool b | VInt z => JInt z | VStr s => JStr (utf8_encode s) | _ => JOther
  end.
(* dict: a later entry replaces an earlier one with the same key *)
Definition obj_map (l : list (text * jv)) : gmap string json :=
  fold_left (fun m kv => <[utf8_encode (fst kv) := to_json (snd kv)]> m) l ∅.
(* network.py:103, converter.py:245: json_loads(_data.decode("utf-8")); all that is not a JSON object stays bytes *)
Definition decode_data (b : string) : data :=
  match utf8_decode b with
  | None => DRaw b
  | Some t => match loads t with Some (VObj l) => DJson (obj_map l) | _ => DRaw b end
  end.

(* ---- json.dumps (ensure_ascii, separators ", " and ": "), without floats ---- *)
Definition hexc (d : N) : N := if d <? 10 then 48 + d else 87 + d.
Definition u_escape (n : N) : text :=
  [92; 117; hexc (n / 4096 mod 16); hexc (n / 256 mod 16); hexc (n / 16 mod 16); hexc (n mod 16)].
(* _json.c ascii_escape_unichar *)
Definition dump_char (n : N) : text :=
  if n =? 34 then [92; 34] else if n =? 92 then [92; 92] else if n =? 10 then [92; 110] else if n =? 13 then [92; 114]
  else if n =? 9 then [92; 116] else if n =? 12 then [92; 102] else if n =? 8 then [92; 98]
  else if (32 <=? n) && (n <=? 126) then [n]
  else if n <? 0x10000 then u_escape n
  else u_escape (0xD800 + (n - 0x10000) / 1024) ++ u_escape (0xDC00 + (n - 0x10000) mod 1024).
Fixpoint dump_chars (s : text) : text := match s with [] => [] | c :: s' => dump_char c ++ dump_chars s' end.
(* str(int): decimal digits; the number of binary digits is enough fuel *)
Fixpoint dec_loop (fuel : nat) (n : N) : text :=
  match fuel with
  | O => [48 + n mod 10]
  | S f => if n <? 10 then [48 + n] else dec_loop f (n / 10) ++ [48 + n mod 10]
  end.
Definition dec (n : N) : text := dec_loop (N.to_nat (N.size n)) n.
Definition dump_int (z : Z) : text := (if (z <? 0)%Z then [45] else []) ++ dec (Z.abs_N z).
Fixpoint dumps (v : jv) : text :=
  match v with
  | VNull => t_null
  | VBool true => t_true
  | VBool false => t_false
  | VInt z => dump_int z
  | VFloat => t_nan (* not used: the contracts dump no floats *)
  | VStr s => 34 :: dump_chars s ++ [34]
  | VArr l =>
      91 :: (fix go (l : list jv) : text :=
               match l with [] => [] | [v] => dumps v | v :: l' => dumps v ++ 44 :: 32 :: go l' end) l ++ [93]
  | VObj l =>
      123 :: (fix go (l : list (text * jv)) : text :=
                match l with
                | [] => []
                | [(k, v)] => 34 :: dump_chars k ++ [34; 58; 32] ++ dumps v
                | (k, v) :: l' => 34 :: dump_chars k ++ [34; 58; 32] ++ dumps v ++ 44 :: 32 :: go l'
                end) l ++ [125]
  end.

(* the code points of an ASCII string *)
Fixpoint codes (s : string) : text :=
  match s with EmptyString => [] | String a s' => N_of_ascii a :: codes s' end.
(* network.py:279-282: data["toToken"] = str(to); data["minReturn"] = m; json_dumps(data).encode(encoding='utf-8').
   m is a JSON integer or boolean (network.py:116) *)
Definition hop_bytes (to : addr) (m : jv) : string :=
  utf8_encode (dumps (VObj [(codes "toToken", VStr (codes (addr_to_string to))); (codes "minReturn", m)])).
