(* Addresses, their textual form, and the text form of conversion paths. *)
From Coq Require Import String Ascii.
From stdpp Require Import base countable list numbers strings.
From Verif Require Import Res.
Local Open Scope N_scope.

(* iconservice Address: a prefix (hx = externally owned account, cx = SCORE) and a 20-byte body.
   The body is a number; real bodies are below 2^160 ([addr_ok]).  Addresses that are not textual
   (messages, storage) may be any number: the theorems then cover more than the real ones. *)
Inductive addr := EOA (n : N) | SCORE (n : N).

Global Instance addr_eq_dec : EqDecision addr.
Proof. solve_decision. Defined.
Global Instance addr_countable : Countable addr.
Proof.
  refine (inj_countable' (fun a => match a with EOA n => inl n | SCORE n => inr n end)
            (fun s => match s with inl n => EOA n | inr n => SCORE n end) _).
  by intros [].
Defined.

(* iconservice ZERO_SCORE_ADDRESS = cx0000...00 *)
Definition zero_score : addr := SCORE 0.
(* iconservice Address.is_contract *)
Definition is_contract (a : addr) : bool := match a with SCORE _ => true | EOA _ => false end.
Definition body (a : addr) : N := match a with EOA n | SCORE n => n end.
Definition addr_ok (a : addr) : Prop := body a < 2 ^ 160.

(* ---- text of addresses: "hx"/"cx" followed by 40 lower-case hexadecimal digits ---- *)
Definition hex_digit (d : N) : ascii :=
  if d <? 10 then ascii_of_N (48 + d) else ascii_of_N (87 + d).
Definition hex_value (c : ascii) : option N :=
  let n := N_of_ascii c in
  if (48 <=? n) && (n <=? 57) then Some (n - 48)
  else if (97 <=? n) && (n <=? 102) then Some (n - 87) else None.

Fixpoint hex_string (k : nat) (n : N) : string :=
  match k with
  | O => EmptyString
  | S k' => String (hex_digit ((n / 16 ^ N.of_nat k') mod 16)) (hex_string k' n)
  end.
Fixpoint hex_parse (s : string) (acc : N) : option N :=
  match s with
  | EmptyString => Some acc
  | String c s' => match hex_value c with Some d => hex_parse s' (acc * 16 + d) | None => None end
  end.

(* iconservice Address.__str__ *)
Definition addr_to_string (a : addr) : string :=
  match a with
  | EOA n => String "h" (String "x" (hex_string 40 n))
  | SCORE n => String "c" (String "x" (hex_string 40 n))
  end.

(* iconservice Address.from_string (InvalidParamsException is None) *)
Definition addr_from_string (s : string) : option addr :=
  match s with
  | String p (String x b) =>
      if bool_decide (x = "x"%char) && bool_decide (String.length b = 40%nat) then
        match hex_parse b 0 with
        | Some n => if bool_decide (p = "h"%char) then Some (EOA n)
                    else if bool_decide (p = "c"%char) then Some (SCORE n) else None
        | None => None
        end
      else None
  | _ => None
  end.

(* ---- Python str.split(",") and str.strip() ---- *)
Fixpoint split_comma (s : string) : list string :=
  match s with
  | EmptyString => [EmptyString]
  | String c s' =>
      if bool_decide (c = ","%char) then EmptyString :: split_comma s'
      else match split_comma s' with
           | x :: l => String c x :: l
           | [] => [String c EmptyString]
           end
  end.

(* A Python str is represented by its UTF-8 bytes.  The white space that str.strip() removes: in one byte, *)
Definition space1 (a : ascii) : bool :=
  let n := N_of_ascii a in ((9 <=? n) && (n <=? 13)) || ((28 <=? n) && (n <=? 32)).
(* in two bytes (U+0085, U+00A0), *)
Definition space2 (a b : ascii) : bool :=
  bool_decide (a = "194"%char) && (bool_decide (b = "133"%char) || bool_decide (b = "160"%char)).
(* in three bytes (U+1680; U+2000 to U+200A, U+2028, U+2029, U+202F; U+205F; U+3000) *)
Definition space3 (a b c : ascii) : bool :=
  (bool_decide (a = "225"%char) && bool_decide (b = "154"%char) && bool_decide (c = "128"%char))
  || (bool_decide (a = "226"%char) && bool_decide (b = "128"%char)
      && ((128 <=? N_of_ascii c) && (N_of_ascii c <=? 138) || bool_decide (c = "168"%char)
          || bool_decide (c = "169"%char) || bool_decide (c = "175"%char)))
  || (bool_decide (a = "226"%char) && bool_decide (b = "129"%char) && bool_decide (c = "159"%char))
  || (bool_decide (a = "227"%char) && bool_decide (b = "128"%char) && bool_decide (c = "128"%char)).

Fixpoint lstrip (s : string) : string :=
  match s with
  | EmptyString => s
  | String a s1 =>
      if space1 a then lstrip s1 else
      match s1 with
      | EmptyString => s
      | String b s2 =>
          if space2 a b then lstrip s2 else
          match s2 with
          | EmptyString => s
          | String c s3 => if space3 a b c then lstrip s3 else s
          end
      end
  end.
Definition blank (s : string) : bool := bool_decide (lstrip s = EmptyString).
Fixpoint rstrip (s : string) : string :=
  match s with
  | EmptyString => EmptyString
  | String c s' => if blank s then EmptyString else String c (rstrip s')
  end.
Definition strip (s : string) : string := rstrip (lstrip s).

(* contracts/network/network.py:86-89 _convert_path: split at commas, strip, Address.from_string each *)
Definition convert_path (path : string) : option (list addr) :=
  mapM (fun s => addr_from_string (strip s)) (split_comma path).

(* ---- specification side: the documented textual path, with white space around each entry ---- *)
(* the UTF-8 bytes of a character below U+10000 *)
Definition utf8_bmp (n : N) : string :=
  if n <? 0x80 then String (ascii_of_N n) EmptyString
  else if n <? 0x800 then String (ascii_of_N (0xC0 + n / 64)) (String (ascii_of_N (0x80 + n mod 64)) EmptyString)
  else String (ascii_of_N (0xE0 + n / 4096))
         (String (ascii_of_N (0x80 + n / 64 mod 64)) (String (ascii_of_N (0x80 + n mod 64)) EmptyString)).
(* the characters that Python treats as white space *)
Definition white : list N :=
  [0x9; 0xA; 0xB; 0xC; 0xD; 0x1C; 0x1D; 0x1E; 0x1F; 0x20; 0x85; 0xA0; 0x1680;
   0x2000; 0x2001; 0x2002; 0x2003; 0x2004; 0x2005; 0x2006; 0x2007; 0x2008; 0x2009; 0x200A;
   0x2028; 0x2029; 0x202F; 0x205F; 0x3000].
Inductive all_space : string -> Prop :=
| all_space_nil : all_space EmptyString
| all_space_cons n s : n ∈ white -> all_space s -> all_space (utf8_bmp n ++ s)%string.
Record entry := Entry { e_pre : string; e_addr : addr; e_post : string }.
Definition entry_text (e : entry) : string := (e_pre e ++ addr_to_string (e_addr e) ++ e_post e)%string.
Definition entry_ok (e : entry) : Prop := all_space (e_pre e) /\ addr_ok (e_addr e) /\ all_space (e_post e).
Fixpoint join_comma (l : list string) : string :=
  match l with
  | [] => EmptyString
  | [s] => s
  | s :: l' => (s ++ String "," (join_comma l'))%string
  end.
Fixpoint no_comma (s : string) : Prop :=
  match s with EmptyString => True | String c s' => c <> ","%char /\ no_comma s' end.
