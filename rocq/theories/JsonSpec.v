(* What JSON text is (RFC 8259, plus NaN, Infinity, -Infinity and lone surrogates, which Python accepts), and what a
   conversion request in JSON is. *)
From Coq Require Import String Ascii.
From stdpp Require Import base countable list numbers strings gmap.
From Verif Require Import Res Codec World JsonModel.
Local Open Scope N_scope.
Local Open Scope list_scope.

(* white space: space, tab, line feed, carriage return *)
Definition ws (t : text) : Prop := Forall (fun c => c = 32 \/ c = 9 \/ c = 10 \/ c = 13) t.

(* four hexadecimal digits and their value *)
Definition hexdigit (c v : N) : Prop :=
  48 <= c <= 57 /\ v = c - 48 \/ 97 <= c <= 102 /\ v = c - 97 + 10 \/ 65 <= c <= 70 /\ v = c - 65 + 10.
Inductive hexquad : text -> N -> Prop :=
| HexQuad a b c d va vb vc vd : hexdigit a va -> hexdigit b vb -> hexdigit c vc -> hexdigit d vd ->
    hexquad [a; b; c; d] (va * 4096 + vb * 256 + vc * 16 + vd).
Definition high_surrogate (u : N) : Prop := 0xD800 <= u <= 0xDBFF.
Definition low_surrogate (u : N) : Prop := 0xDC00 <= u <= 0xDFFF.
(* the escapes of one letter: letter, character *)
Definition escapes : list (N * N) := [(34, 34); (92, 92); (47, 47); (98, 8); (102, 12); (110, 10); (114, 13); (116, 9)].
(* [stext v t]: t, between quotation marks, stands for the string v *)
Inductive stext : text -> text -> Prop :=
| stext_nil : stext [] []
| stext_raw c v t : 32 <= c -> c <> 34 -> c <> 92 -> stext v t -> stext (c :: v) (c :: t)
| stext_escape e c v t : (e, c) ∈ escapes -> stext v t -> stext (c :: v) (92 :: e :: t)
| stext_unicode q u v t : hexquad q u ->
    (* a high surrogate followed by an escaped low one is the next case *)
    ~ (high_surrogate u /\ exists q' u' t', t = 92 :: 117 :: q' ++ t' /\ hexquad q' u' /\ low_surrogate u') ->
    stext v t -> stext (u :: v) (92 :: 117 :: q ++ t)
| stext_pair q u q' u' v t : hexquad q u -> high_surrogate u -> hexquad q' u' -> low_surrogate u' -> stext v t ->
    stext (0x10000 + (u - 0xD800) * 1024 + (u' - 0xDC00) :: v) (92 :: 117 :: q ++ 92 :: 117 :: q' ++ t).

(* decimal digits, most significant first *)
Definition digits (t : text) : Prop := t <> [] /\ Forall (fun c => 48 <= c <= 57) t.
Fixpoint decimal (t : text) : N :=
  match t with [] => 0 | c :: t' => (c - 48) * 10 ^ N.of_nat (List.length t') + decimal t' end.
(* no leading zeros *)
Definition natural (t : text) : Prop := digits t /\ (head t <> Some 48 \/ t = [48]).
Definition sign (g : text) : Prop := g = [] \/ g = [45].
Definition frac (t : text) : Prop := t = [] \/ exists d, digits d /\ t = 46 :: d.
Definition exponent (t : text) : Prop :=
  t = [] \/ exists e g d, (e = 101 \/ e = 69) /\ (g = [] \/ g = [43] \/ g = [45]) /\ digits d /\ t = e :: g ++ d.

(* [renders v t]: the text t, without white space around it, stands for the value v *)
Inductive renders : jv -> text -> Prop :=
| r_null : renders VNull (codes "null")
| r_true : renders (VBool true) (codes "true")
| r_false : renders (VBool false) (codes "false")
| r_nat t : natural t -> renders (VInt (Z.of_N (decimal t))) t
| r_neg t : natural t -> renders (VInt (- Z.of_N (decimal t))) (45 :: t)
| r_float g t f e : sign g -> natural t -> frac f -> exponent e -> (f <> [] \/ e <> []) -> renders VFloat (g ++ t ++ f ++ e)
| r_nan : renders VFloat (codes "NaN")
| r_infinity g : sign g -> renders VFloat (g ++ codes "Infinity")
| r_string v t : stext v t -> renders (VStr v) (34 :: t ++ [34])
| r_array0 w : ws w -> renders (VArr []) (91 :: w ++ [93])
| r_array w l t : ws w -> relements l t -> renders (VArr l) (91 :: w ++ t ++ [93])
| r_object0 w : ws w -> renders (VObj []) (123 :: w ++ [125])
| r_object w l t : ws w -> rmembers l t -> renders (VObj l) (123 :: w ++ t ++ [125])
with relements : list jv -> text -> Prop :=
| r_element v t w : renders v t -> ws w -> relements [v] (t ++ w)
| r_elements v t w w' l t' : renders v t -> ws w -> ws w' -> relements l t' -> relements (v :: l) (t ++ w ++ 44 :: w' ++ t')
with rmembers : list (text * jv) -> text -> Prop :=
| r_member k kt w1 w2 v t w : stext k kt -> ws w1 -> ws w2 -> renders v t -> ws w ->
    rmembers [(k, v)] (34 :: kt ++ 34 :: w1 ++ 58 :: w2 ++ t ++ w)
| r_members k kt w1 w2 v t w w' l t' : stext k kt -> ws w1 -> ws w2 -> renders v t -> ws w -> ws w' -> rmembers l t' ->
    rmembers ((k, v) :: l) (34 :: kt ++ 34 :: w1 ++ 58 :: w2 ++ t ++ w ++ 44 :: w' ++ t').
(* white space around *)
Definition json_text (v : jv) (t : text) : Prop := exists w1 t' w2, ws w1 /\ renders v t' /\ ws w2 /\ t = w1 ++ t' ++ w2.

(* Unicode scalar values: all code points but the surrogates *)
Definition scalar (n : N) : Prop := n < 0xD800 \/ 0xE000 <= n < 0x110000.
(* the bytes b are JSON text, in UTF-8, of the value v *)
Definition json_bytes (v : jv) (b : string) : Prop := exists t, Forall scalar t /\ b = utf8_encode t /\ json_text v t.

(* the value of a key: the last one given *)
Definition has (l : list (text * jv)) (key : string) (v : jv) : Prop :=
  exists l1 l2, l = l1 ++ (codes key, v) :: l2 /\ codes key ∉ map fst l2.
Definition lacks (l : list (text * jv)) (key : string) : Prop := codes key ∉ map fst l.
(* an integer; Python takes true and false for 1 and 0 *)
Definition whole (v : jv) (z : Z) : Prop := v = VInt z \/ v = VBool true /\ z = 1%Z \/ v = VBool false /\ z = 0%Z.

(* the bytes are a conversion request as the network documents it (network.py:157-164): a JSON object with "path",
   "minReturn" and perhaps "for" *)
Definition request_bytes (b : string) (from : addr) (p : list addr) (z : Z) (for_ : addr) : Prop :=
  exists l path v es, json_bytes (VObj l) b /\
    has l "path" (VStr path) /\ Forall entry_ok es /\ es <> [] /\ utf8_encode path = join_comma (map entry_text es) /\ p = map e_addr es /\
    has l "minReturn" v /\ whole v z /\
    ((lacks l "for" \/ has l "for" VNull) /\ for_ = from \/
     has l "for" (VStr (codes (addr_to_string for_))) /\ addr_ok for_).
(* ... a request of the network to a converter (converter.py:245-247) *)
Definition hop_request_bytes (b : string) (to : addr) (z : Z) : Prop :=
  exists l v, json_bytes (VObj l) b /\ has l "toToken" (VStr (codes (addr_to_string to))) /\ addr_ok to /\ has l "minReturn" v /\ whole v z.
