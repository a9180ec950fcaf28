(* One hop of a conversion through the network: its source, interpreted, is the model of World.v. *)
From Coq Require Import String ZArith Lia.
From stdpp Require Import base countable list numbers strings gmap.
From Verif Require Import Res PySyntax PySource Codec World PySemantics SourceBase SourceSteps SourcePath.
Local Open Scope string_scope.
Local Open Scope list_scope.
Local Open Scope Z_scope.

Section equations.
Variables (c : ctx) (order : list cls) (attrs : env) (inst : string -> list value -> act value).
Notation eval := (PySemantics.eval c order attrs names inst).
Notation exec := (PySemantics.exec c order attrs names inst).
Lemma eval_item n m tail e x ix :
  eval (S n) m tail e (ESub x ix) = abind (eval n m tail e x) (fun va => abind (eval n m tail e ix) (fun vi => subscript va vi)).
Proof. reflexivity. Qed.
Lemma denote_assign_item {A} cl n m tail e y x ix l z u ss (k : outcome * env -> act A) w :
  eval n m tail e x = Ret (VList l) -> eval n m tail e ix = Ret (VInt z) -> 0 <= z -> l !! Z.to_nat z = Some u ->
  denote cl c (abind (exec (S (S (S n))) m tail e (SAssign [EName y] (ESub x ix) :: ss)) k) w =
  denote cl c (abind (exec (S (S n)) m tail (update y u e) ss) k) w.
Proof.
  intros Ex Ei Hz Hl. rewrite denote_next, step_assign, denote_abind, eval_item, Ex, abind_ret, Ei, abind_ret.
  cbn [subscript need_int]. apply Z.ltb_ge in Hz. rewrite denote_cond, Hz, denote_need, Hl. reflexivity.
Qed.
Lemma denote_eta {A} cl (t : act A) w : denote cl c t w = denote cl c (abind t Ret) w.
Proof. rewrite denote_abind. destruct (denote cl c t w) as [[a w']| |]; reflexivity. Qed.
End equations.

(* the variables of _convert_by_path before the loop, and after a round *)
Definition irc_proxy (a : addr) : value := VProxy a "abstractmethod" "interfaces.abc_irc_token" "ABCIRCToken".
Definition flex_proxy (a : addr) : value := VProxy a "abstractmethod" "interfaces.abc_flexible_token" "ABCFlexibleToken".
Definition env0 (l : list value) (a : Z) (v : value) (f t0 p0 from : addr) : env :=
  [("self", VSelf); ("path", VList l); ("amount", VInt a); ("min_return", v); ("_for", VAddr f); ("to_token_address", VAddr t0);
   ("from_token_address", VAddr p0); ("from_token", irc_proxy from); ("data", VDict [])].
Definition env1 (l : list value) (a : Z) (v : value) (f t0 p0 from : addr) (d i fl tt ft cv before enc after : value) : env :=
  [("self", VSelf); ("path", VList l); ("amount", VInt a); ("min_return", v); ("_for", VAddr f); ("to_token_address", VAddr t0);
   ("from_token_address", VAddr p0); ("from_token", irc_proxy from); ("data", d); ("i", i); ("flexible_token_address", fl);
   ("to_token", tt); ("flexible_token", ft); ("converter_address", cv); ("amount_before_converting", before); ("encoded_data", enc); ("amount_after_converting", after)].
(* the body of its loop *)
Definition hop_body : list stmt := Eval vm_compute in
  match f_body meth_Network__convert_by_path with [_; _; _; _; SFor _ _ b; _] => b | _ => [] end.
Definition net_tail : list cls := Eval vm_compute in tail_of (closure Net "_convert_by_path").
Definition as_json (v : value) : json := match dump v with Some j => j | None => JNull end.

Section network.
Variables (call : bool -> addr -> addr -> Z -> msg -> M rv) (c : ctx).
Hypothesis K : keeps call c.

(* one round of the loop in the model *)
Definition hop (from fl to : addr) (a : Z) (m : json) : M (rv * Z * Z) :=
  bind (ecall call c fl MGetOwner) (fun r => bind (as_addr r) (fun cv => bind (ecall call c to (MBalanceOf (c_self c))) (fun r1 =>
  bind (as_int r1) (fun before => bind (ecall call c from (MTransfer cv a (Some (hop_data to m)))) (fun _ =>
  bind (ecall call c to (MBalanceOf (c_self c))) (fun r2 => bind (as_int r2) (fun after => ret (r, before, after)))))))).

Definition after_hop l v f p0 (fl to : addr) i (vm : value) (x : rv * Z * Z) : outcome * env :=
  let '(r, before, after) := x in
  (Next, env1 l (after - before) v f to p0 to (VDict [("toToken", VStr (addr_to_string to)); ("minReturn", vm)]) (VInt i) (VAddr fl) (irc_proxy to) (flex_proxy fl) (VRes r)
    (VInt before) (VBytes (hop_data to (as_json vm))) (VInt after)).

Lemma hop_data_put to m : hop_data to m = DJson (put_field "toToken" (JStr (addr_to_string to)) (put_field "minReturn" m no_fields)).
Proof. reflexivity. Qed.
(* the least amount as the callers give it: an integer argument, or a value of the data *)
Definition least (v : value) : Prop := (exists z, v = VInt z) \/ (exists j, v = VJson j).
(* the variables at the start of a round *)
Definition round (e : env) l a v f t0 p0 from : Prop :=
  e = env0 l a v f t0 p0 from \/
  (exists x y i fl tt ft cv before enc after, e = env1 l a v f t0 p0 from (VDict [("toToken", x); ("minReturn", y)]) i fl tt ft cv before enc after).
Ltac hop_tac sc :=
  match goal with
  | |- context [denote ?cl ?c ?t ?w] => let t' := fresh "t" in let E := fresh "E" in remember t as t' eqn:E; long_in E;
     match goal with H : (_ =? _ - 2) = _ |- _ => rewrite H in E end; subst t'
  end;
  match goal with last : bool |- _ => destruct last end;
  cbv beta iota zeta delta [hop bind ecall after_hop ret env1]; rewrite ?hop_data_put; cbn [as_json dump]; rewrite ?hop_data_put; destruct sc; norm;
  repeat first [step K | match goal with |- context [rv_addr ?x] => destruct (rv_addr x) eqn:? end].
Lemma hop_meth n e l a v f t0 p0 from i fl to last w sc :
  least v -> round e l a v f t0 p0 from ->
  0 <= i -> l !! Z.to_nat i = Some (VAddr fl) -> l !! Z.to_nat (i + 1) = Some (VAddr to) -> (i =? Z.of_nat (List.length l) - 2) = last ->
  agrees c (after_hop l v f p0 fl to i (if last then v else VInt 1))
    (denote call c (nexec c (40 + n) "network.network" net_tail (update "i" (VInt i) e) hop_body) (at_ c w sc))
    (hop from fl to a (as_json (if last then v else VInt 1)) (at_ c w sc)).
Proof.
  intros Hv He Hi H1 H2 Hl. rewrite denote_eta. unfold hop_body. 
  destruct Hv as [[z ->]|[j ->]]; (destruct He as [->|(?&?&?&?&?&?&?&?&?&?&->)]); unfold env0, env1; cbn [update String.eqb Ascii.eqb Bool.eqb Nat.add];
  (erewrite denote_assign_item; [|vm_compute; reflexivity|vm_compute; reflexivity|exact Hi|exact H1];
   erewrite denote_assign_item; [|vm_compute; reflexivity|computed|lia|exact H2]);
  hop_tac sc.
Qed.
Lemma after_round l v f p0 fl to i vm r before after :
  round (after_hop l v f p0 fl to i vm (r, before, after)).2 l (after - before) v f to p0 to.
Proof. right. unfold after_hop. cbn [snd]. do 10 eexists. reflexivity. Qed.
End network.
