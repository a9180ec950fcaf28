(* Methods that call other methods: how a statement or a call is one step of the interpreter. *)
From Coq Require Import String ZArith Lia.
From stdpp Require Import base countable list numbers strings gmap.
From Verif Require Import Res PySyntax PySource Codec World PySemantics SourceBase.
Local Open Scope string_scope.
Local Open Scope list_scope.
Local Open Scope Z_scope.

Lemma abind_ret {A B} (a : A) (f : A -> act B) : abind (Ret a) f = f a.
Proof. reflexivity. Qed.
Section equations.
Variables (c : ctx) (order : list cls) (attrs : env) (inst : string -> list value -> act value).
Notation eval := (PySemantics.eval c order attrs names inst).
Notation call := (PySemantics.call c order attrs names inst).
Notation exec := (PySemantics.exec c order attrs names inst).
Notation assign := (PySemantics.assign c order attrs names inst).
Notation step := (PySemantics.step c order attrs names inst).
Definition evals (n : nat) (m : string) (tail : list cls) (e : env) : list expr -> act (list value) :=
  fix evals (xs : list expr) : act (list value) :=
    match xs with [] => Ret [] | x :: xs => abind (eval n m tail e x) (fun v => abind (evals xs) (fun vs => Ret (v :: vs))) end.
Lemma exec_cons n m tail e s ss :
  exec (S n) m tail e (s :: ss) = abind (step n m tail e s) (fun r => match r.1 with Next => exec n m tail r.2 ss | Return v => Ret r end).
Proof. reflexivity. Qed.
Lemma step_if n m tail e b th el :
  step (S n) m tail e (SIf b th el) = abind (eval n m tail e b) (fun v => branch v (exec n m tail e th) (exec n m tail e el)).
Proof. reflexivity. Qed.
Lemma step_return n m tail e x : step (S n) m tail e (SReturn (Some x)) = abind (eval n m tail e x) (fun v => Ret (Return v, e)).
Proof. reflexivity. Qed.
Lemma step_assign n m tail e y x :
  step (S (S n)) m tail e (SAssign [EName y] x) = abind (eval (S n) m tail e x) (fun v => Ret (Next, update y v e)).
Proof. reflexivity. Qed.
Lemma step_expr n m tail e x : step (S n) m tail e (SExpr x) = abind (eval n m tail e x) (fun _ => Ret (Next, e)).
Proof. reflexivity. Qed.
Lemma eval_call n m tail e f xs :
  eval (S n) m tail e (ECall f xs []) = abind (eval n m tail e f) (fun fv => abind (evals n m tail e xs) (fun vs => call n m tail fv vs [])).
Proof. reflexivity. Qed.
Definition params (n : nat) (m : string) (ks : env) : list (string * option expr) -> list value -> act env :=
  fix params (ps : list (string * option expr)) (vs : list value) : act env :=
    match ps, vs with
    | [], [] => Ret []
    | [], _ :: _ => Fail "TypeError"
    | (p, _) :: ps, v :: vs => abind (params ps vs) (fun r => Ret ((p, v) :: r))
    | (p, dflt) :: ps, [] =>
        abind (params ps []) (fun r =>
        match assoc p ks, dflt with
        | Some v, _ => Ret ((p, v) :: r)
        | None, Some x => abind (eval n m [] [] x) (fun v => Ret ((p, v) :: r))
        | None, None => Fail "TypeError"
        end)
    end.
Definition result_of (r : outcome * env) : act value := match r.1 with Return v => Ret v | Next => Ret VNone end.
Lemma call_clos n m tail m' tail' d vs :
  has_deco "eventlog" d = false ->
  call (S n) m tail (VClos m' tail' d true) vs [] =
  abind (params n m' [] (f_params d) (VSelf :: vs)) (fun e => abind (exec n m' tail' e (f_body d)) result_of).
Proof. intros H. cbn [PySemantics.call]. rewrite H. reflexivity. Qed.
Fixpoint zip_params (ps : list (string * option expr)) (vs : list value) : env :=
  match ps, vs with (p, _) :: ps, v :: vs => (p, v) :: zip_params ps vs | _, _ => [] end.
(* all arguments given *)
Lemma call_all n m tail m' tail' d vs :
  has_deco "eventlog" d = false -> List.length (f_params d) = S (List.length vs) ->
  call (S n) m tail (VClos m' tail' d true) vs [] =
  abind (exec n m' tail' (zip_params (f_params d) (VSelf :: vs)) (f_body d)) result_of.
Proof.
  intros H L. rewrite call_clos by exact H.
  assert (E : forall ps us, List.length ps = List.length us -> params n m' [] ps us = Ret (zip_params ps us)).
  { induction ps as [|[p x] ps IH]; intros [|u us] Hl; try discriminate Hl; [reflexivity|].
    cbn [List.length] in Hl. injection Hl as Hl. cbn [params zip_params]. fold (params n m' []). rewrite IH by exact Hl. reflexivity. }
  rewrite E by exact L. reflexivity.
Qed.
(* y = f(xs) as the next statement *)
Lemma denote_assign_call {A} cl n m tail e y f xs ss fv vs (k : outcome * env -> act A) w :
  eval n m tail e f = Ret fv -> evals n m tail e xs = Ret vs ->
  denote cl c (abind (exec (S (S (S n))) m tail e (SAssign [EName y] (ECall f xs []) :: ss)) k) w =
  andthen (denote cl c (call n m tail fv vs []) w) (fun p => denote cl c (abind (exec (S (S n)) m tail (update y p.1 e) ss) k) p.2).
Proof.
  intros Ef Ex. rewrite denote_abind, exec_cons, denote_abind, step_assign, denote_abind, eval_call, Ef, abind_ret, Ex, abind_ret.
  destruct (denote cl c (call n m tail fv vs []) w) as [[v w1]| |]; [|reflexivity|reflexivity].
  cbn [andthen denote fst snd]. by rewrite denote_abind.
Qed.
(* return f(xs) *)
Lemma denote_return_call {A} cl n m tail e f xs ss fv vs (k : outcome * env -> act A) w :
  eval n m tail e f = Ret fv -> evals n m tail e xs = Ret vs ->
  denote cl c (abind (exec (S (S (S n))) m tail e (SReturn (Some (ECall f xs [])) :: ss)) k) w =
  andthen (denote cl c (call n m tail fv vs []) w) (fun p => denote cl c (k (Return p.1, e)) p.2).
Proof.
  intros Ef Ex. rewrite denote_abind, exec_cons, denote_abind, step_return, denote_abind, eval_call, Ef, abind_ret, Ex, abind_ret.
  destruct (denote cl c (call n m tail fv vs []) w) as [[v w1]| |]; reflexivity.
Qed.
(* any statement *)
Lemma denote_next {A} cl n m tail e s ss (k : outcome * env -> act A) w :
  denote cl c (abind (exec (S n) m tail e (s :: ss)) k) w =
  andthen (denote cl c (step n m tail e s) w)
    (fun p => match p.1.1 with Next => denote cl c (abind (exec n m tail p.1.2 ss) k) p.2 | Return v => denote cl c (k p.1) p.2 end).
Proof.
  rewrite denote_abind, exec_cons, denote_abind. destruct (denote cl c (step n m tail e s) w) as [[[[|v] e'] w1]| |]; [|reflexivity..].
  cbn [andthen fst snd]. by rewrite denote_abind.
Qed.
(* the rest of a block *)
Definition rest_of {A} (n : nat) (m : string) (tail : list cls) (ss : list stmt) (k : outcome * env -> act A) (r : outcome * env) : act A :=
  match r.1 with Next => abind (exec n m tail r.2 ss) k | Return v => k r end.
Lemma denote_if {A} cl n m tail e b th el ss x (k : outcome * env -> act A) w :
  eval n m tail e b = Ret (VBool x) ->
  denote cl c (abind (exec (S (S n)) m tail e (SIf b th el :: ss)) k) w =
  denote cl c (abind (exec n m tail e (if x then th else el)) (rest_of (S n) m tail ss k)) w.
Proof.
  intros E. rewrite denote_next, step_if, E, abind_ret. cbn [branch denote]. 
  rewrite denote_abind. destruct x.
  all: match goal with |- andthen ?d _ = _ => destruct d as [[[[|v] e'] w1]| |] end; reflexivity.
Qed.
Lemma denote_if_then {A} cl n m tail e b th el ss (k : outcome * env -> act A) w :
  denote cl c (abind (exec (S (S n)) m tail e (SIf b th el :: ss)) k) w =
  andthen (denote cl c (eval n m tail e b) w)
    (fun p => denote cl c (abind (branch p.1 (exec n m tail e th) (exec n m tail e el)) (rest_of (S n) m tail ss k)) p.2).
Proof.
  rewrite denote_next, step_if, denote_abind. destruct (denote cl c (eval n m tail e b) w) as [[v w1]| |]; [|reflexivity..].
  cbn [andthen fst snd]. rewrite denote_abind.
  match goal with |- andthen ?d _ = _ => destruct d as [[[[|u] e'] w2]| |] end; reflexivity.
Qed.
Lemma step_try n m tail e body hs : step (S n) m tail e (STry body hs) = if all_revert hs then exec n m tail e body else Stuck.
Proof. reflexivity. Qed.
Lemma denote_try {A} cl n m tail e body hs ss (k : outcome * env -> act A) w :
  all_revert hs = true ->
  denote cl c (abind (exec (S (S n)) m tail e (STry body hs :: ss)) k) w =
  denote cl c (abind (exec n m tail e body) (rest_of (S n) m tail ss k)) w.
Proof.
  intros H. rewrite denote_next, step_try, H, denote_abind.
  match goal with |- andthen ?d _ = _ => destruct d as [[[[|u] e'] w2]| |] end; reflexivity.
Qed.
Lemma denote_done {A} cl n m tail e (k : outcome * env -> act A) w :
  denote cl c (abind (exec (S n) m tail e []) k) w = denote cl c (k (Next, e)) w.
Proof. reflexivity. Qed.
(* a static method *)
Lemma call_static n m tail m' tail' d vs :
  has_deco "eventlog" d = false -> List.length (f_params d) = List.length vs ->
  call (S n) m tail (VClos m' tail' d false) vs [] =
  abind (exec n m' tail' (zip_params (f_params d) vs) (f_body d)) result_of.
Proof.
  intros H L. transitivity (abind (params n m' [] (f_params d) vs) (fun e => abind (exec n m' tail' e (f_body d)) result_of)).
  { cbn [PySemantics.call]. rewrite H. reflexivity. }
  assert (E : forall ps us, List.length ps = List.length us -> params n m' [] ps us = Ret (zip_params ps us)).
  { induction ps as [|[p x] ps IH]; intros [|u us] Hl; try discriminate Hl; [reflexivity|].
    cbn [List.length] in Hl. injection Hl as Hl. cbn [params zip_params]. fold (params n m' []). rewrite IH by exact Hl. reflexivity. }
  rewrite E by exact L. reflexivity.
Qed.
(* y = f(xs) where the arguments are computed without effects *)
Lemma denote_assign_call' {A} cl n m tail e t f xs ss fv vs (k : outcome * env -> act A) w :
  eval n m tail e f = Ret fv -> denote cl c (evals n m tail e xs) w = Done (vs, w) ->
  denote cl c (abind (exec (S (S (S n))) m tail e (SAssign [t] (ECall f xs []) :: ss)) k) w =
  andthen (denote cl c (call n m tail fv vs []) w) (fun p => andthen (denote cl c (assign (S n) m tail e t p.1) p.2) (fun q =>
    denote cl c (abind (exec (S (S n)) m tail q.1 ss) k) q.2)).
Proof.
  intros Ef Ex. rewrite denote_next.
  change (step (S (S n)) m tail e (SAssign [t] (ECall f xs [])))
    with (abind (eval (S n) m tail e (ECall f xs [])) (fun v => abind (abind (assign (S n) m tail e t v) Ret) (fun e' => Ret (Next, e')))).
  rewrite eval_call, Ef, abind_ret, denote_abind, denote_abind, Ex. cbn [andthen fst snd].
  destruct (denote cl c (call n m tail fv vs []) w) as [[v w1]| |]; [|reflexivity..]. cbn [andthen fst snd].
  rewrite !denote_abind. destruct (denote cl c (assign (S n) m tail e t v) w1) as [[e' w2]| |]; reflexivity.
Qed.
Lemma denote_assign_fail {A} cl n m tail e t f xs ss fv (k : outcome * env -> act A) w :
  eval n m tail e f = Ret fv -> denote cl c (evals n m tail e xs) w = Failed ->
  denote cl c (abind (exec (S (S (S n))) m tail e (SAssign [t] (ECall f xs []) :: ss)) k) w = Failed.
Proof.
  intros Ef Ex. rewrite denote_next.
  change (step (S (S n)) m tail e (SAssign [t] (ECall f xs [])))
    with (abind (eval (S n) m tail e (ECall f xs [])) (fun v => abind (abind (assign (S n) m tail e t v) Ret) (fun e' => Ret (Next, e')))).
  rewrite eval_call, Ef, abind_ret, denote_abind, denote_abind, Ex. reflexivity.
Qed.
(* f(xs) as a statement *)
Lemma denote_expr_call {A} cl n m tail e f xs ss fv vs (k : outcome * env -> act A) w :
  eval n m tail e f = Ret fv -> evals n m tail e xs = Ret vs ->
  denote cl c (abind (exec (S (S (S n))) m tail e (SExpr (ECall f xs []) :: ss)) k) w =
  andthen (denote cl c (call n m tail fv vs []) w) (fun p => denote cl c (abind (exec (S (S n)) m tail e ss) k) p.2).
Proof.
  intros Ef Ex. rewrite denote_next, step_expr, denote_abind, eval_call, Ef, abind_ret, Ex, abind_ret.
  destruct (denote cl c (call n m tail fv vs []) w) as [[v w1]| |]; reflexivity.
Qed.
(* map, comprehensions, loops *)
Definition map_each (n : nat) (m : string) (tail : list cls) (g : value) : list value -> act (list value) :=
  fix each (l : list value) : act (list value) := match l with [] => Ret [] | v :: l => abind (call n m tail g [v] []) (fun u => abind (each l) (fun us => Ret (u :: us))) end.
Lemma call_map n m tail g l : call (S n) m tail (VBuiltin "map") [g; VList l] [] = abind (map_each n m tail g l) (fun us => Ret (VList us)).
Proof. reflexivity. Qed.
Definition comp_each (n : nat) (m : string) (tail : list cls) (e : env) (x : expr) (ts : list string) (conds : list expr) : list value -> act (list value) :=
  fix each (l : list value) : act (list value) :=
    match l with
    | [] => Ret []
    | v :: l =>
        match bind_targets ts v e with
        | None => Stuck
        | Some e' =>
            match conds with
            | [] => abind (eval n m tail e' x) (fun u => abind (each l) (fun us => Ret (u :: us)))
            | [b] => abind (eval n m tail e' b) (fun vb => branch vb (abind (eval n m tail e' x) (fun u => abind (each l) (fun us => Ret (u :: us)))) (each l))
            | _ => Stuck
            end
        end
    end.
Lemma eval_list_comp n m tail e x ts it conds :
  eval (S (S n)) m tail e (EListComp x ts it conds) =
  abind (eval (S n) m tail e it) (fun vi => match items vi with Some l => abind (comp_each n m tail e x ts conds l) (fun vs => Ret (VList vs)) | None => Stuck end).
Proof. reflexivity. Qed.
Lemma eval_set_comp n m tail e x ts it conds :
  eval (S (S n)) m tail e (ESetComp x ts it conds) =
  abind (eval (S n) m tail e it) (fun vi => match items vi with Some l => abind (comp_each n m tail e x ts conds l) (fun vs => Ret (VSet vs)) | None => Stuck end).
Proof. reflexivity. Qed.
Definition loop_each (n : nat) (m : string) (tail : list cls) (y : string) (body : list stmt) : env -> list value -> act (outcome * env) :=
  fix each (e : env) (l : list value) : act (outcome * env) :=
    match l with
    | [] => Ret (Next, e)
    | v :: l => abind (exec n m tail (update y v e) body) (fun r => match r.1 with Next => each r.2 l | Return _ => Ret r end)
    end.
Lemma denote_for {A} cl n m tail e y it body ss vi l (k : outcome * env -> act A) w :
  eval (S n) m tail e it = Ret vi -> items vi = Some l ->
  denote cl c (abind (exec (S (S (S n))) m tail e (SFor y it body :: ss)) k) w =
  denote cl c (abind (loop_each n m tail y body e l) (rest_of (S (S n)) m tail ss k)) w.
Proof.
  intros E I. rewrite denote_next.
  change (step (S (S n)) m tail e (SFor y it body))
    with (abind (eval (S n) m tail e it) (fun vi => match items vi with Some l => loop_each n m tail y body e l | None => Stuck end)).
  rewrite E, abind_ret, I, denote_abind.
  match goal with |- andthen ?d _ = _ => destruct d as [[[[|u] e'] w2]| |] end; reflexivity.
Qed.
Lemma denote_loop_cons cl n m tail y body e v l w :
  denote cl c (loop_each n m tail y body e (v :: l)) w =
  andthen (denote cl c (exec n m tail (update y v e) body) w)
    (fun p => match p.1.1 with Next => denote cl c (loop_each n m tail y body p.1.2 l) p.2 | Return _ => Done p end).
Proof.
  cbn [loop_each]. rewrite denote_abind. match goal with |- andthen ?d _ = _ => destruct d as [[[[|u] e'] w2]| |] end; reflexivity.
Qed.
End equations.

(* ------------------------------------------------------------- tactics ---- *)
Definition closure (k : cls) (x : string) : value := match in_classes names (order_of k) x true with Some v => v | None => VNone end.
(* enter a method all whose arguments are given *)
Tactic Notation "enter" constr(k) constr(x) :=
  let f := eval vm_compute in (closure k x) in change (closure k x) with f;
  rewrite call_all by reflexivity; cbn [f_params f_body zip_params].
Tactic Notation "first_call" constr(k) constr(x) := erewrite denote_assign_call; [| |vm_compute; reflexivity]; [|instantiate (1 := closure k x); vm_compute; reflexivity].

(* run the next statement *)
Ltac run_step := match goal with
  | |- context [denote _ _ (Get _) (at_ _ _ _)] => rewrite denote_get
  | |- context [denote _ _ (Mod _ _) (at_ _ _ _)] => rewrite denote_mod
  | |- context [denote _ _ (Cond _ _ _) _] => rewrite denote_cond
  | |- context [denote _ _ (Ret _) _] => rewrite denote_ret
  | |- context [denote _ _ (Fail _) _] => rewrite denote_fail
  | |- context [denote _ _ (Need _ _) _] => rewrite denote_need
  end.
Ltac next := rewrite denote_next;
  match goal with
  | |- context [denote ?cl ?c (step ?a ?b ?d ?e ?f ?g ?h ?i ?j ?k) ?w] =>
      let t' := fresh "t" in let E := fresh "E" in remember (step a b d e f g h i j k) as t' eqn:E; tree_in E; subst t'
  end; repeat run_step.

Ltac go := repeat run_step; cbn [andthen fst snd negb].
Ltac computed := match goal with |- ?t = _ => let t' := fresh "t" in let E := fresh "E" in remember t as t' eqn:E; tree_in E; subst t'; reflexivity end.
Ltac next_if := erewrite denote_if by computed; cbv beta iota.
Tactic Notation "ret_call" constr(k) constr(x) :=
  erewrite denote_return_call; [| |vm_compute; reflexivity]; [|instantiate (1 := closure k x); vm_compute; reflexivity].
Lemma agrees_then {A} c (f : A -> value) d r (g : value * world -> result (value * world)) :
  agrees c f d r -> (forall v w, g (v, w) = Done (v, w)) -> agrees c f (andthen d g) r.
Proof. intros [[-> [e ->]]|(a & w & sc & -> & ->)] G; [apply agrees_fail|]. cbn [andthen]. rewrite G. by apply agrees_done. Qed.
Lemma denote_branch {A B} cl c b (t e : act A) (k : A -> act B) w :
  denote cl c (abind (branch (VBool b) t e) k) w = if b then denote cl c (abind t k) w else denote cl c (abind e k) w.
Proof. reflexivity. Qed.
Lemma method_src_at c k x vs f : in_classes names (order_of k) x true = Some f ->
  method_src k c x vs = PySemantics.call c (order_of k) (attrs_of k) names formula_object 100 "" [] f vs [].
Proof. intros E. unfold method_src, method. by rewrite E. Qed.
