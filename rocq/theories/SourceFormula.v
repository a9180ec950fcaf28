(* The methods of FixedMapFormula, as interpreted from their source text, compute the functions of FormulaModel.v. *)
From Coq Require Import String ZArith Lia.
From stdpp Require Import base list numbers strings.
From Verif Require Import Res FormulaConsts FormulaModel PySyntax PySource Codec World PySemantics.
Local Open Scope string_scope.
Local Open Scope list_scope.
Local Open Scope Z_scope.

Lemma run_abind {A B} (t : act A) (f : A -> act B) : run (abind t f) = andthen (run t) (fun a => run (f a)).
Proof. induction t as [a|e| |b t IHt e IHe|X o k IH|k IH|g k IH|e k IH|to v m k IH|r k IH]; cbn; try reflexivity; [by destruct b|by destruct o]. Qed.

Definition FO : list cls := Eval vm_compute in order_of formula_class.
Lemma FO_eq : order_of formula_class = FO.
Proof. vm_compute. reflexivity. Qed.
Definition fm : string := "formula.fixed_map_formula".
Notation feval := (eval no_ctx FO [] names (fun _ _ => Stuck)).
Notation fcall := (call no_ctx FO [] names (fun _ _ => Stuck)).
Notation fexec := (exec no_ctx FO [] names (fun _ _ => Stuck)).
Notation fstep := (step no_ctx FO [] names (fun _ _ => Stuck)).
Notation floop := (loop no_ctx FO [] names (fun _ _ => Stuck)).
Definition FT : list cls := Eval vm_compute in tl FO.

Ltac crunch := lazy -[Z.add Z.sub Z.mul Z.div Z.modulo Z.opp Z.pow Z.shiftl Z.shiftr Z.land Z.lor Z.leb Z.ltb Z.eqb];
  repeat match goal with |- context[Z.eqb (Zpos ?p) 0] => change (Z.eqb (Zpos p) 0) with false | |- context[Z.ltb (Zpos ?p) 0] => change (Z.ltb (Zpos p) 0) with false end; cbv iota.

(* one statement *)
Lemma exec_next n e e' s ss : run (fstep n fm FT e s) = Done (Next, e') -> run (fexec (S n) fm FT e (s :: ss)) = run (fexec n fm FT e' ss).
Proof. intros H. change (fexec (S n) fm FT e (s :: ss)) with (abind (fstep n fm FT e s) (fun r => match r.1 with Next => fexec n fm FT r.2 ss | Return v => Ret r end)). by rewrite run_abind, H. Qed.

Definition env_log (x r : Z) : env := [("self", VSelf); ("x", VInt x); ("res", VInt r)].
Lemma log_hi_step n t a d x r ss : (10 <= n)%nat -> d =? 0 = false ->
  run (fexec (S n) fm FT (env_log x r)
    (SIf (ECompare (EName "x") [(CGe, (EInt t))])
      [SAug (EName "res") BAdd (EInt a);
       SAssign [(EName "x")] (EBin BFloorDiv (EBin BMul (EName "x") (EAttr (EName "self") "_FIXED_1")) (EInt d))]
      [] :: ss))
  = if t <=? x then run (fexec n fm FT (env_log (x * FIXED_1 / d) (r + a)) ss) else run (fexec n fm FT (env_log x r) ss).
Proof.
  intros Hn Hd. destruct (Z.leb_spec t x) as [L|L].
  - apply exec_next. replace n with (10 + (n - 10))%nat by lia. generalize (n - 10)%nat as k; intros k. crunch.
    apply Z.leb_le in L; rewrite L, Hd; reflexivity.
  - apply exec_next. replace n with (10 + (n - 10))%nat by lia. generalize (n - 10)%nat as k; intros k. crunch.
    apply Z.leb_gt in L; rewrite L. reflexivity.
Qed.

(* the results of a method body *)
Definition returned (r : result (outcome * env)) : result value :=
  andthen r (fun p => match p.1 with Return v => Done v | Next => Done VNone end).
(* a call of a method of the object with integer arguments *)
Fixpoint bind_ints (ps : list (string * option expr)) (zs : list Z) : env :=
  match ps, zs with (p, _) :: ps, z :: zs => (p, VInt z) :: bind_ints ps zs | _, _ => [] end.
Lemma call_body1 n f x p1 b : f = FunDef (f_name f) [("self", None); (p1, None)] [] b ->
  run (fcall (S n) fm FT (VClos fm FT f true) [VInt x] []) = returned (run (fexec n fm FT [("self", VSelf); (p1, VInt x)] b)).
Proof.
  intros ->.
  change (fcall (S n) fm FT (VClos fm FT (FunDef (f_name f) [("self", None); (p1, None)] [] b) true) [VInt x] []) with
    (abind (fexec n fm FT [("self", VSelf); (p1, VInt x)] b) (fun r => match r.1 with Return v => Ret v | Next => Ret VNone end)).
  rewrite run_abind. unfold returned. destruct (run _) as [[[|v] e']| |]; reflexivity.
Qed.
Lemma call_body2 n f x y p1 p2 b : f = FunDef (f_name f) [("self", None); (p1, None); (p2, None)] [] b ->
  run (fcall (S n) fm FT (VClos fm FT f true) [VInt x; VInt y] []) = returned (run (fexec n fm FT [("self", VSelf); (p1, VInt x); (p2, VInt y)] b)).
Proof.
  intros ->.
  change (fcall (S n) fm FT (VClos fm FT (FunDef (f_name f) [("self", None); (p1, None); (p2, None)] [] b) true) [VInt x; VInt y] []) with
    (abind (fexec n fm FT [("self", VSelf); (p1, VInt x); (p2, VInt y)] b) (fun r => match r.1 with Return v => Ret v | Next => Ret VNone end)).
  rewrite run_abind. unfold returned. destruct (run _) as [[[|v] e']| |]; reflexivity.
Qed.

Definition fargs (n : nat) (e : env) : list expr -> act (list value) :=
  fix evals (xs : list expr) : act (list value) :=
    match xs with [] => Ret [] | x :: xs => abind (feval n fm FT e x) (fun v => abind (evals xs) (fun vs => Ret (v :: vs))) end.
Ltac more k := match goal with |- context[run (fargs ?n _ _)] => let m := fresh "k" in replace n with (k + (n - k))%nat by lia; generalize (n - k)%nat as m; intros m | |- context[run (_ ?n fm FT _ _)] => let m := fresh "k" in replace n with (k + (n - k))%nat by lia; generalize (n - k)%nat as m; intros m end.
Ltac plain k := apply exec_next; more k; crunch; reflexivity.
Lemma exec_return n e x v ss : run (feval n fm FT e x) = Done v -> run (fexec (S (S n)) fm FT e (SReturn (Some x) :: ss)) = Done (Return v, e).
Proof.
  intros H. change (fexec (S (S n)) fm FT e (SReturn (Some x) :: ss)) with
    (abind (abind (feval n fm FT e x) (fun v => Ret (Return v, e))) (fun r => match r.1 with Next => fexec (S n) fm FT r.2 ss | Return v => Ret r end)).
  rewrite !run_abind, H. reflexivity.
Qed.

(* ------------------------------------------------------------- _optimal_log ---- *)
Definition log_hi_stmt (p : Z * Z * Z) : stmt :=
  let '(t, a, d) := p in
  SIf (ECompare (EName "x") [(CGe, (EInt t))])
    [SAug (EName "res") BAdd (EInt a);
     SAssign [(EName "x")] (EBin BFloorDiv (EBin BMul (EName "x") (EAttr (EName "self") "_FIXED_1")) (EInt d))]
    [].
Lemma log_hi_src l n x r ss : (length l + 10 <= n)%nat -> Forall (fun p => (p.2 =? 0) = false) l ->
  run (fexec n fm FT (env_log x r) (map log_hi_stmt l ++ ss)) =
  run (fexec (n - length l) fm FT (env_log (optimal_log_hi_loop l x r).1 (optimal_log_hi_loop l x r).2) ss).
Proof.
  revert n x r. induction l as [|[[t a] d] l IH]; intros n x r Hn Hl; cbn [length map app optimal_log_hi_loop fst snd].
  { by replace (n - 0)%nat with n by lia. }
  apply Forall_cons in Hl as [Hd Hl]. cbn [length] in Hn. destruct n as [|n]; [lia|].
  unfold log_hi_stmt at 1. rewrite log_hi_step by (done || lia).
  replace (S n - S (length l))%nat with (n - length l)%nat by lia.
  destruct (t <=? x); apply IH; (done || lia).
Qed.
Definition env_log2 (x r z y w : Z) : env := env_log x r ++ [("z", VInt z); ("y", VInt y); ("w", VInt w)].
Definition log_lo_stmt (p : Z * Z) : stmt :=
  SAug (EName "res") BAdd (EBin BFloorDiv (EBin BMul (EName "z") (EBin BSub (EInt p.1) (EName "y"))) (EInt p.2)).
Definition log_z_stmt : stmt := SAssign [(EName "z")] (EBin BFloorDiv (EBin BMul (EName "z") (EName "w")) (EAttr (EName "self") "_FIXED_1")).
Lemma log_lo_step n p x r z y w ss : (10 <= n)%nat -> p.2 =? 0 = false ->
  run (fexec (S n) fm FT (env_log2 x r z y w) (log_lo_stmt p :: ss)) = run (fexec n fm FT (env_log2 x (r + z * (p.1 - y) / p.2) z y w) ss).
Proof. intros Hn Hp. apply exec_next. more 10%nat. crunch. destruct p as [a d]. cbn [snd fst] in *. rewrite Hp. reflexivity. Qed.
Lemma log_z_step n x r z y w ss : (10 <= n)%nat ->
  run (fexec (S n) fm FT (env_log2 x r z y w) (log_z_stmt :: ss)) = run (fexec n fm FT (env_log2 x r (z * w / FIXED_1) y w) ss).
Proof. intros Hn. plain 10%nat. Qed.
Fixpoint log_lo_stmts (l : list (Z * Z)) : list stmt :=
  match l with [] => [] | [p] => [log_lo_stmt p] | p :: l => log_lo_stmt p :: log_z_stmt :: log_lo_stmts l end.
Lemma log_lo_src l n x r z y w ss : (2 * length l + 10 <= n)%nat -> Forall (fun p => (p.2 =? 0) = false) l ->
  exists n' z', (n - 2 * length l <= n')%nat /\
  run (fexec n fm FT (env_log2 x r z y w) (log_lo_stmts l ++ ss)) =
  run (fexec n' fm FT (env_log2 x (optimal_log_lo_loop l y w z r) z' y w) ss).
Proof.
  revert n r z. induction l as [|p l IH]; intros n r z Hn Hl.
  { exists n, z. split; [cbn; lia|reflexivity]. }
  apply Forall_cons in Hl as [Hp Hl]. destruct n as [|[|n]]; [cbn in Hn; lia..|]. cbn [length] in Hn.
  destruct p as [a d]. destruct l as [|q l].
  - exists (S n), z. split; [cbn; lia|]. cbn [log_lo_stmts app optimal_log_lo_loop]. rewrite log_lo_step by (done || lia). reflexivity.
  - destruct (IH n (r + z * (a - y) / d) (z * w / FIXED_1)) as (n' & z' & Hn' & E); [lia|done|].
    exists n', z'. split; [cbn [length] in *; lia|]. refine (eq_trans _ E). clear E IH. cbn [log_lo_stmts app].
    rewrite log_lo_step by (done || lia). rewrite log_z_step by lia. reflexivity.
Qed.
Lemma optimal_log_src n x : (60 <= n)%nat ->
  run (fcall n fm FT (VClos fm FT meth_FixedMapFormula__optimal_log true) [VInt x] []) = Done (VInt (optimal_log x)).
Proof.
  intros Hn. destruct n as [|n]; [lia|].
  rewrite (call_body1 n meth_FixedMapFormula__optimal_log x "x" (f_body meth_FixedMapFormula__optimal_log)) by reflexivity.
  change (f_body meth_FixedMapFormula__optimal_log) with
    (SAssign [(EName "res")] (EInt 0) :: map log_hi_stmt optimal_log_hi ++
      SAssign [(EName "z"); (EName "y")] (EBin BSub (EName "x") (EAttr (EName "self") "_FIXED_1")) ::
      SAssign [(EName "w")] (EBin BFloorDiv (EBin BMul (EName "y") (EName "y")) (EAttr (EName "self") "_FIXED_1")) ::
      log_lo_stmts optimal_log_lo ++ [SReturn (Some (EName "res"))]).
  destruct n as [|n]; [lia|].
  rewrite (exec_next n _ (env_log x 0)); [|more 5%nat; crunch; reflexivity].
  rewrite log_hi_src; [|cbn; lia|by repeat constructor].
  unfold optimal_log. destruct (optimal_log_hi_loop optimal_log_hi x 0) as [x' r']. cbn [fst snd].
  set (n1 := (n - length optimal_log_hi)%nat). assert (Hn1 : (50 <= n1)%nat) by (unfold n1; cbn; lia). clearbody n1.
  destruct n1 as [|[|n1]]; [lia..|].
  rewrite (exec_next (S n1) _ (env_log x' r' ++ [("z", VInt (x' - FIXED_1)); ("y", VInt (x' - FIXED_1))])); [|more 10%nat; crunch; reflexivity].
  rewrite (exec_next n1 _ (env_log2 x' r' (x' - FIXED_1) (x' - FIXED_1) ((x' - FIXED_1) * (x' - FIXED_1) / FIXED_1))); [|more 10%nat; crunch; reflexivity].
  destruct (log_lo_src optimal_log_lo n1 x' r' (x' - FIXED_1) (x' - FIXED_1) ((x' - FIXED_1) * (x' - FIXED_1) / FIXED_1) [SReturn (Some (EName "res"))])
    as (n' & z' & Hn' & E); [cbn; lia|by repeat constructor|].
  rewrite E. clear E. cbn [length optimal_log_lo] in Hn'. destruct n' as [|[|[|n']]]; [lia..|].
  rewrite (exec_return (S n') _ _ (VInt (optimal_log_lo_loop optimal_log_lo (x' - FIXED_1) ((x' - FIXED_1) * (x' - FIXED_1) / FIXED_1) (x' - FIXED_1) r'))); reflexivity.
Qed.

(* ------------------------------------------------------------- _optimal_exp ---- *)
Definition env_exp (x r z y : Z) : env := [("self", VSelf); ("x", VInt x); ("res", VInt r); ("z", VInt z); ("y", VInt y)].
Definition exp_lo_stmts (k : Z) : list stmt :=
  [SAssign [(EName "z")] (EBin BFloorDiv (EBin BMul (EName "z") (EName "y")) (EAttr (EName "self") "_FIXED_1"));
   SAug (EName "res") BAdd (EBin BMul (EName "z") (EInt k))].
Lemma exp_lo_src l n x r z y ss : (2 * length l + 10 <= n)%nat ->
  exists z', run (fexec n fm FT (env_exp x r z y) (concat (map exp_lo_stmts l) ++ ss)) =
  run (fexec (n - 2 * length l) fm FT (env_exp x (optimal_exp_lo_loop l y z r) z' y) ss).
Proof.
  revert n r z. induction l as [|k l IH]; intros n r z Hn; cbn [length map app optimal_exp_lo_loop concat exp_lo_stmts].
  { exists z. by replace (n - 2 * 0)%nat with n by lia. }
  cbn [length] in Hn. destruct n as [|[|n]]; [lia..|].
  destruct (IH n (r + (z * y / FIXED_1) * k) (z * y / FIXED_1)) as [z' E]; [lia|]. exists z'.
  replace (S (S n) - 2 * S (length l))%nat with (n - 2 * length l)%nat by lia. refine (eq_trans _ E). clear E IH.
  rewrite (exec_next (S n) _ (env_exp x r (z * y / FIXED_1) y)); [|more 10%nat; crunch; reflexivity].
  apply exec_next. more 10%nat. crunch. reflexivity.
Qed.
Definition exp_hi_stmt (p : Z * Z * Z) : stmt :=
  let '(m, a, d) := p in
  SIf (ECompare (EBin BAnd (EName "x") (EInt m)) [(CNe, (EInt 0))])
    [SAssign [(EName "res")] (EBin BFloorDiv (EBin BMul (EName "res") (EInt a)) (EInt d))]
    [].
Lemma exp_hi_src l n x r z y ss : (length l + 10 <= n)%nat -> Forall (fun p => (p.2 =? 0) = false) l ->
  run (fexec n fm FT (env_exp x r z y) (map exp_hi_stmt l ++ ss)) = run (fexec (n - length l) fm FT (env_exp x (optimal_exp_hi_loop l x r) z y) ss).
Proof.
  revert n r. induction l as [|[[m a] d] l IH]; intros n r Hn Hl; cbn [length map app optimal_exp_hi_loop fst snd].
  { by replace (n - 0)%nat with n by lia. }
  apply Forall_cons in Hl as [Hd Hl]. cbn [length] in Hn. destruct n as [|n]; [lia|].
  replace (S n - S (length l))%nat with (n - length l)%nat by lia. cbn [snd] in Hd.
  destruct (negb (Z.land x m =? 0)) eqn:E.
  - rewrite (exec_next n _ (env_exp x (r * a / d) z y)); [apply IH; (done || lia)|]. more 10%nat. crunch.
    destruct (Z.land x m =? 0); [discriminate|]. rewrite Hd. reflexivity.
  - rewrite (exec_next n _ (env_exp x r z y)); [apply IH; (done || lia)|]. more 10%nat. crunch.
    destruct (Z.land x m =? 0); [reflexivity|discriminate].
Qed.
Lemma optimal_exp_src n x : (80 <= n)%nat ->
  run (fcall n fm FT (VClos fm FT meth_FixedMapFormula__optimal_exp true) [VInt x] []) = Done (VInt (optimal_exp x)).
Proof.
  intros Hn. destruct n as [|n]; [lia|].
  rewrite (call_body1 n meth_FixedMapFormula__optimal_exp x "x" (f_body meth_FixedMapFormula__optimal_exp)) by reflexivity.
  change (f_body meth_FixedMapFormula__optimal_exp) with
    (SAssign [(EName "res")] (EInt 0) ::
     SAssign [(EName "z"); (EName "y")] (EBin BMod (EName "x") (EInt optimal_exp_mod)) ::
     concat (map exp_lo_stmts optimal_exp_coefs) ++
     SAssign [(EName "res")] (EBin BAdd (EBin BAdd (EBin BFloorDiv (EName "res") (EInt optimal_exp_divisor)) (EName "y")) (EAttr (EName "self") "_FIXED_1")) ::
     map exp_hi_stmt optimal_exp_hi ++ [SReturn (Some (EName "res"))]).
  destruct n as [|[|n]]; [lia..|].
  rewrite (exec_next (S n) _ (env_log x 0)); [|more 5%nat; crunch; reflexivity].
  rewrite (exec_next n _ (env_exp x 0 (x mod optimal_exp_mod) (x mod optimal_exp_mod))); [|more 10%nat; crunch; reflexivity].
  unfold optimal_exp. set (y := x mod optimal_exp_mod). clearbody y. cbv zeta.
  destruct (exp_lo_src optimal_exp_coefs n x 0 y y
    (SAssign [(EName "res")] (EBin BAdd (EBin BAdd (EBin BFloorDiv (EName "res") (EInt optimal_exp_divisor)) (EName "y")) (EAttr (EName "self") "_FIXED_1")) ::
     map exp_hi_stmt optimal_exp_hi ++ [SReturn (Some (EName "res"))])) as [z' E]; [cbn; lia|].
  rewrite E. clear E. generalize (optimal_exp_lo_loop optimal_exp_coefs y y 0) as r; intros r.
  set (n1 := (n - 2 * length optimal_exp_coefs)%nat). assert (Hn1 : (30 <= n1)%nat) by (unfold n1; cbn; lia). clearbody n1.
  destruct n1 as [|n1]; [lia|].
  rewrite (exec_next n1 _ (env_exp x (r / optimal_exp_divisor + y + FIXED_1) z' y)); [|more 10%nat; crunch; reflexivity].
  rewrite exp_hi_src; [|cbn; lia|by repeat constructor].
  set (n2 := (n1 - length optimal_exp_hi)%nat). assert (Hn2 : (10 <= n2)%nat) by (unfold n2; cbn; lia). clearbody n2.
  destruct n2 as [|[|[|n2]]]; [lia..|].
  rewrite (exec_return (S n2) _ _ (VInt (optimal_exp_hi_loop optimal_exp_hi x (r / optimal_exp_divisor + y + FIXED_1)))); reflexivity.
Qed.

(* ------------------------------------------------------------- _general_exp ---- *)
Definition env_gexp (x p xi r : Z) : env := [("self", VSelf); ("x", VInt x); ("precision", VInt p); ("xi", VInt xi); ("res", VInt r)].
Definition gexp_stmts (k : Z) : list stmt :=
  [SAssign [(EName "xi")] (EBin BShr (EBin BMul (EName "xi") (EName "x")) (EName "precision"));
   SAug (EName "res") BAdd (EBin BMul (EName "xi") (EInt k))].
Lemma gexp_src l n x p xi r ss : (2 * length l + 10 <= n)%nat -> p <? 0 = false ->
  exists xi', run (fexec n fm FT (env_gexp x p xi r) (concat (map gexp_stmts l) ++ ss)) =
  run (fexec (n - 2 * length l) fm FT (env_gexp x p xi' (general_exp_loop l x p xi r)) ss).
Proof.
  intros Hn Hp. revert n r xi Hn. induction l as [|k l IH]; intros n r xi Hn; cbn [length map app general_exp_loop concat gexp_stmts].
  { exists xi. by replace (n - 2 * 0)%nat with n by lia. }
  cbn [length] in Hn. destruct n as [|[|n]]; [lia..|].
  destruct (IH n (r + (Z.shiftr (xi * x) p) * k) (Z.shiftr (xi * x) p)) as [z' E]; [lia|]. exists z'.
  replace (S (S n) - 2 * S (length l))%nat with (n - 2 * length l)%nat by lia. refine (eq_trans _ E). clear E IH.
  rewrite (exec_next (S n) _ (env_gexp x p (Z.shiftr (xi * x) p) r)); [|more 10%nat; crunch; rewrite Hp; reflexivity].
  apply exec_next. more 10%nat. crunch. reflexivity.
Qed.
Lemma general_exp_src n x p : (100 <= n)%nat -> 0 <= p ->
  run (fcall n fm FT (VClos fm FT meth_FixedMapFormula__general_exp true) [VInt x; VInt p] []) = Done (VInt (general_exp x p)).
Proof.
  intros Hn Hp. apply Z.ltb_ge in Hp. destruct n as [|n]; [lia|].
  rewrite (call_body2 n meth_FixedMapFormula__general_exp x p "x" "precision" (f_body meth_FixedMapFormula__general_exp)) by reflexivity.
  change (f_body meth_FixedMapFormula__general_exp) with
    (SAssign [(EName "xi")] (EName "x") :: SAssign [(EName "res")] (EInt 0) :: concat (map gexp_stmts general_exp_coefs) ++
     [SReturn (Some (EBin BAdd (EBin BAdd (EBin BFloorDiv (EName "res") (EInt general_exp_divisor)) (EName "x")) (EBin BShl (EAttr (EName "self") "_ONE") (EName "precision"))))]).
  destruct n as [|[|n]]; [lia..|].
  rewrite (exec_next (S n) _ [("self", VSelf); ("x", VInt x); ("precision", VInt p); ("xi", VInt x)]); [|more 5%nat; crunch; reflexivity].
  rewrite (exec_next n _ (env_gexp x p x 0)); [|more 10%nat; crunch; reflexivity].
  match goal with |- context[concat (map gexp_stmts general_exp_coefs) ++ ?ss] => destruct (gexp_src general_exp_coefs n x p x 0 ss) as [xi' E]; [cbn; lia|done|] end.
  rewrite E. clear E. unfold general_exp. generalize (general_exp_loop general_exp_coefs x p x 0) as r; intros r.
  set (n2 := (n - 2 * length general_exp_coefs)%nat). assert (Hn2 : (20 <= n2)%nat) by (unfold n2; cbn; lia). clearbody n2.
  destruct n2 as [|[|n2]]; [lia..|].
  rewrite (exec_return n2 _ _ (VInt (r / general_exp_divisor + x + Z.shiftl ONE p))); [reflexivity|].
  more 10%nat. crunch. rewrite Hp. reflexivity.
Qed.

(* ------------------------------------------------------------------- loops ---- *)
Lemma while_step n e b body : run (fstep (S n) fm FT e (SWhile b body)) =
  andthen (run (feval n fm FT e b)) (fun v => match v with
    | VBool true => andthen (run (fexec n fm FT e body)) (fun r => match r.1 with Next => run (fstep n fm FT r.2 (SWhile b body)) | Return _ => Done r end)
    | VBool false => Done (Next, e)
    | _ => NoMeaning end).
Proof.
  change (fstep (S n) fm FT e (SWhile b body)) with
    (abind (feval n fm FT e b) (fun v => branch v (abind (fexec n fm FT e body) (fun r => match r.1 with Next => fstep n fm FT r.2 (SWhile b body) | Return _ => Ret r end)) (Ret (Next, e)))).
  rewrite run_abind. destruct (run (feval n fm FT e b)) as [v| |]; [|reflexivity..]. cbn [andthen].
  destruct v as [| |[]| | | | | | | | | | | | | | | | | | | | | | | | | | | | | | |]; try reflexivity.
  cbn [branch run]. rewrite run_abind. destruct (run (fexec n fm FT e body)) as [[[|u] e']| |]; reflexivity.
Qed.
Lemma if_step n e b th el : run (fstep (S n) fm FT e (SIf b th el)) =
  andthen (run (feval n fm FT e b)) (fun v => match v with VBool true => run (fexec n fm FT e th) | VBool false => run (fexec n fm FT e el) | _ => NoMeaning end).
Proof.
  change (fstep (S n) fm FT e (SIf b th el)) with (abind (feval n fm FT e b) (fun v => branch v (fexec n fm FT e th) (fexec n fm FT e el))).
  rewrite run_abind. destruct (run (feval n fm FT e b)) as [v| |]; [|reflexivity..]. cbn [andthen].
  destruct v as [| |[]| | | | | | | | | | | | | | | | | | | | | | | | | | | | | | |]; reflexivity.
Qed.
Lemma exec_cons n e s ss : run (fexec (S n) fm FT e (s :: ss)) =
  andthen (run (fstep n fm FT e s)) (fun r => match r.1 with Next => run (fexec n fm FT r.2 ss) | Return _ => Done r end).
Proof.
  change (fexec (S n) fm FT e (s :: ss)) with (abind (fstep n fm FT e s) (fun r => match r.1 with Next => fexec n fm FT r.2 ss | Return v => Ret r end)).
  rewrite run_abind. destruct (run (fstep n fm FT e s)) as [[[|u] e']| |]; reflexivity.
Qed.

(* -------------------------------------------------------------- _floor_log2 ---- *)
Definition env_fl (n r : Z) : env := [("self", VSelf); ("n", VInt n); ("res", VInt r)].
Definition fl_while1 : stmt := SWhile (ECompare (EName "n") [(CGt, (EInt 1))]) [SAug (EName "n") BShr (EInt 1); SAug (EName "res") BAdd (EInt 1)].
Lemma fl_loop1_src f n x r a : (f + 10 <= n)%nat -> floor_log2_loop1 f x r = Ok a ->
  exists x', run (fstep n fm FT (env_fl x r) fl_while1) = Done (Next, env_fl x' a).
Proof.
  revert n x r. induction f as [|f IH]; intros n x r Hn H; cbn [floor_log2_loop1] in H; destruct n as [|n]; try lia;
    unfold fl_while1; rewrite while_step; destruct (1 <? x) eqn:L; try discriminate.
  - exists x. apply Ok_inj in H as ->.
    assert (run (feval n fm FT (env_fl x a) (ECompare (EName "n") [(CGt, EInt 1)])) = Done (VBool false)) as ->; [more 8%nat; crunch; by rewrite L|reflexivity].
  - assert (run (feval n fm FT (env_fl x r) (ECompare (EName "n") [(CGt, EInt 1)])) = Done (VBool true)) as ->; [more 8%nat; crunch; by rewrite L|].
    cbn [andthen].
    assert (run (fexec n fm FT (env_fl x r) [SAug (EName "n") BShr (EInt 1); SAug (EName "res") BAdd (EInt 1)]) = Done (Next, env_fl (Z.shiftr x 1) (r + 1))) as ->;
      [more 8%nat; crunch; reflexivity|]. cbn [andthen fst snd]. apply IH; [lia|done].
  - exists x. apply Ok_inj in H as ->.
    assert (run (feval n fm FT (env_fl x a) (ECompare (EName "n") [(CGt, EInt 1)])) = Done (VBool false)) as ->; [more 8%nat; crunch; by rewrite L|reflexivity].
Qed.
Definition env_fl2 (n r s : Z) : env := env_fl n r ++ [("s", VInt s)].
Definition fl_body2 : list stmt :=
  [SIf (ECompare (EName "n") [(CGe, (EBin BShl (EAttr (EName "self") "_ONE") (EName "s")))])
     [SAug (EName "n") BShr (EName "s"); SAug (EName "res") BOr (EName "s")] [];
   SAug (EName "s") BShr (EInt 1)].
Lemma fl_loop2_src f n x r s a : (f + 10 <= n)%nat -> floor_log2_loop2 f s x r = Ok a ->
  exists x' s', run (fstep n fm FT (env_fl2 x r s) (SWhile (ECompare (EName "s") [(CGt, (EInt 0))]) fl_body2)) = Done (Next, env_fl2 x' a s').
Proof.
  revert n x r s. induction f as [|f IH]; intros n x r s Hn H; cbn [floor_log2_loop2] in H; destruct n as [|n]; try lia;
    rewrite while_step; destruct (0 <? s) eqn:L; try discriminate.
  - exists x, s. apply Ok_inj in H as ->.
    assert (run (feval n fm FT (env_fl2 x a s) (ECompare (EName "s") [(CGt, EInt 0)])) = Done (VBool false)) as ->; [more 8%nat; crunch; by rewrite L|reflexivity].
  - assert (run (feval n fm FT (env_fl2 x r s) (ECompare (EName "s") [(CGt, EInt 0)])) = Done (VBool true)) as ->; [more 8%nat; crunch; by rewrite L|].
    cbn [andthen]. assert (Hs : s <? 0 = false) by (apply Z.ltb_lt in L; apply Z.ltb_ge; lia).
    destruct (Z.shiftl ONE s <=? x) eqn:Lx.
    + assert (run (fexec n fm FT (env_fl2 x r s) fl_body2) = Done (Next, env_fl2 (Z.shiftr x s) (Z.lor r s) (Z.shiftr s 1))) as ->.
      { more 10%nat. crunch. rewrite Hs. change 1 with ONE at 1. rewrite Lx. reflexivity. }
      cbn [andthen fst snd]. apply IH; [lia|done].
    + assert (run (fexec n fm FT (env_fl2 x r s) fl_body2) = Done (Next, env_fl2 x r (Z.shiftr s 1))) as ->.
      { more 10%nat. crunch. rewrite Hs. change 1 with ONE at 1. rewrite Lx. reflexivity. }
      cbn [andthen fst snd]. apply IH; [lia|done].
  - exists x, s. apply Ok_inj in H as ->.
    assert (run (feval n fm FT (env_fl2 x a s) (ECompare (EName "s") [(CGt, EInt 0)])) = Done (VBool false)) as ->; [more 8%nat; crunch; by rewrite L|reflexivity].
Qed.
Lemma fl_loop1_total f n acc : 0 <= acc -> n < 2 ^ (Z.of_nat f + 1) -> exists a, floor_log2_loop1 f n acc = Ok a /\ 0 <= a.
Proof.
  revert n acc. induction f as [|f IH]; intros n acc Ha Hn; cbn [floor_log2_loop1]; destruct (1 <? n) eqn:L; try (by exists acc).
  - apply Z.ltb_lt in L. cbn in Hn. lia.
  - apply IH; [lia|]. rewrite Z.shiftr_div_pow2 by lia. apply Z.div_lt_upper_bound; [lia|].
    change (2 ^ 1) with 2. rewrite <- Z.pow_succ_r by lia. replace (Z.succ (Z.of_nat f + 1)) with (Z.of_nat (S f) + 1) by lia. done.
Qed.
Lemma fl_loop2_total f s n acc : 0 <= acc -> s < 2 ^ (Z.of_nat f) -> exists a, floor_log2_loop2 f s n acc = Ok a /\ 0 <= a.
Proof.
  revert s n acc. induction f as [|f IH]; intros s n acc Ha Hs; cbn [floor_log2_loop2]; destruct (0 <? s) eqn:L; try (by exists acc).
  - apply Z.ltb_lt in L. cbn in Hs. lia.
  - apply Z.ltb_lt in L.
    assert (Z.shiftr s 1 < 2 ^ Z.of_nat f).
    { rewrite Z.shiftr_div_pow2 by lia. apply Z.div_lt_upper_bound; [lia|].
      change (2 ^ 1) with 2. rewrite <- Z.pow_succ_r by lia. replace (Z.succ (Z.of_nat f)) with (Z.of_nat (S f)) by lia. done. }
    destruct (Z.shiftl ONE s <=? n); apply IH; try done. apply Z.lor_nonneg. lia.
Qed.
Lemma floor_log2_total n : exists a, floor_log2 n = Ok a /\ 0 <= a.
Proof.
  unfold floor_log2. destruct (n <? 256) eqn:L.
  - apply fl_loop1_total; [lia|]. apply Z.ltb_lt in L. change (2 ^ (Z.of_nat 8 + 1)) with 512. lia.
  - apply fl_loop2_total; [lia|]. reflexivity.
Qed.
Lemma floor_log2_src n x a : (40 <= n)%nat -> floor_log2 x = Ok a ->
  run (fcall n fm FT (VClos fm FT meth_FixedMapFormula__floor_log2 true) [VInt x] []) = Done (VInt a).
Proof.
  intros Hn H. destruct n as [|n]; [lia|].
  rewrite (call_body1 n meth_FixedMapFormula__floor_log2 x "n" (f_body meth_FixedMapFormula__floor_log2)) by reflexivity.
  change (f_body meth_FixedMapFormula__floor_log2) with
    [SAssign [(EName "res")] (EInt 0);
     SIf (ECompare (EName "n") [(CLt, (EInt 256))]) [fl_while1] [SAssign [(EName "s")] (EInt 128); SWhile (ECompare (EName "s") [(CGt, (EInt 0))]) fl_body2];
     SReturn (Some (EName "res"))].
  destruct n as [|[|n]]; [lia..|].
  rewrite (exec_next (S n) _ (env_fl x 0)); [|more 5%nat; crunch; reflexivity].
  rewrite exec_cons. destruct n as [|n]; [lia|]. rewrite if_step. unfold floor_log2 in H.
  assert (run (feval n fm FT (env_fl x 0) (ECompare (EName "n") [(CLt, (EInt 256))])) = Done (VBool (x <? 256))) as -> by (more 5%nat; crunch; reflexivity).
  cbn [andthen]. destruct n as [|n]; [lia|]. destruct (x <? 256).
  - rewrite exec_cons. destruct (fl_loop1_src 8 n x 0 a ltac:(lia) H) as [x' E]. rewrite E. clear E. cbn [andthen fst snd].
    replace (run (fexec n fm FT (env_fl x' a) [])) with (Done (Next, env_fl x' a) : result (outcome * env)) by (destruct n; [lia|reflexivity]).
    cbn [andthen fst snd]. rewrite (exec_return n _ _ (VInt a)); [reflexivity|]. more 5%nat. reflexivity.
  - destruct n as [|n]; [lia|]. rewrite (exec_next (S n) _ (env_fl2 x 0 128)); [|more 5%nat; crunch; reflexivity].
    rewrite exec_cons. destruct (fl_loop2_src 8 n x 0 128 a ltac:(lia) H) as (x' & s' & E). rewrite E. clear E. cbn [andthen fst snd].
    replace (run (fexec n fm FT (env_fl2 x' a s') [])) with (Done (Next, env_fl2 x' a s') : result (outcome * env)) by (destruct n; [lia|reflexivity]).
    cbn [andthen fst snd]. rewrite (exec_return (S n) _ _ (VInt a)); [reflexivity|]. more 5%nat. reflexivity.
Qed.

(* ------------------------------------------------------- calls of own methods ---- *)
Lemma self_call n e f xs fd vs : run (feval n fm FT e (EAttr (EName "self") f)) = Done (VClos fm FT fd true) ->
  run (fargs n e xs) = Done vs ->
  run (feval (S n) fm FT e (ECall (EAttr (EName "self") f) xs [])) = run (fcall n fm FT (VClos fm FT fd true) vs []).
Proof.
  intros Hf Hx.
  change (feval (S n) fm FT e (ECall (EAttr (EName "self") f) xs [])) with
    (abind (feval n fm FT e (EAttr (EName "self") f)) (fun fv => abind (fargs n e xs) (fun vs => fcall n fm FT fv vs []))).
  rewrite run_abind, Hf. cbn [andthen]. rewrite run_abind, Hx. reflexivity.
Qed.
Lemma assign_step n e y x : run (fstep (S (S n)) fm FT e (SAssign [EName y] x)) = andthen (run (feval (S n) fm FT e x)) (fun v => Done (Next, update y v e)).
Proof.
  change (fstep (S (S n)) fm FT e (SAssign [EName y] x)) with (abind (feval (S n) fm FT e x) (fun v => Ret (Next, update y v e))).
  rewrite run_abind. destruct (run _); reflexivity.
Qed.

(* ------------------------------------------------------------- _general_log ---- *)
Definition env_gl (x r : Z) (rest : env) : env := ("self", VSelf) :: ("x", VInt x) :: ("res", VInt r) :: rest.
Definition gl_body : list stmt :=
  [SAssign [(EName "x")] (EBin BFloorDiv (EBin BMul (EName "x") (EName "x")) (EAttr (EName "self") "_FIXED_1"));
   SIf (ECompare (EName "x") [(CGe, (EAttr (EName "self") "_FIXED_2"))])
     [SAug (EName "x") BShr (EInt 1); SAug (EName "res") BAdd (EBin BShl (EAttr (EName "self") "_ONE") (EBin BSub (EName "i") (EInt 1)))] []].
Definition count_env (c : option Z) : env := match c with Some c => [("count", VInt c)] | None => [] end.
Lemma gl_body_src n x r c i : (15 <= n)%nat -> 1 <= i ->
  run (fexec n fm FT (env_gl x r (count_env c ++ [("i", VInt i)])) gl_body) =
  Done (Next, if FIXED_2 <=? x * x / FIXED_1
              then env_gl (Z.shiftr (x * x / FIXED_1) 1) (r + Z.shiftl ONE (i - 1)) (count_env c ++ [("i", VInt i)])
              else env_gl (x * x / FIXED_1) r (count_env c ++ [("i", VInt i)])).
Proof.
  intros Hn Hi. assert (Hi' : i - 1 <? 0 = false) by (apply Z.ltb_ge; lia).
  destruct (FIXED_2 <=? x * x / FIXED_1) eqn:E; unfold FIXED_2, FIXED_1 in E; destruct c as [c|]; more 15%nat; crunch; rewrite ?E, ?Hi'; reflexivity.
Qed.
Definition each_loop (n : nat) (y : string) (body : list stmt) : env -> list value -> act (outcome * env) :=
  fix each (e : env) (l : list value) : act (outcome * env) :=
    match l with
    | [] => Ret (Next, e)
    | v :: l => abind (fexec n fm FT (update y v e) body) (fun r => match r.1 with Next => each r.2 l | Return _ => Ret r end)
    end.
Lemma gl_loop_src k n x r c e : (15 <= n)%nat -> (forall v, update "i" v e = env_gl x r (count_env c ++ [("i", v)])) ->
  exists x' rest, run (each_loop n "i" gl_body e (map (fun j => VInt (Z.of_nat j)) (rev (seq 1 k)))) =
    Done (Next, if bool_decide (k = 0)%nat then e else env_gl x' (general_log_loop k x r) rest).
Proof.
  revert x r e. induction k as [|k IH]; intros x r e Hn He.
  { exists 0, []. reflexivity. }
  rewrite seq_S, rev_app_distr. cbn [rev app map each_loop].
  replace (1 + k)%nat with (S k) by lia. rewrite He. rewrite run_abind, gl_body_src by lia. cbn [andthen fst snd general_log_loop]. cbv zeta.
  rewrite bool_decide_eq_false_2 by lia. fold (each_loop n "i" gl_body). destruct (FIXED_2 <=? x * x / FIXED_1).
  - destruct (IH (Z.shiftr (x * x / FIXED_1) 1) (r + Z.shiftl ONE (Z.of_nat (S k) - 1))
      (env_gl (Z.shiftr (x * x / FIXED_1) 1) (r + Z.shiftl ONE (Z.of_nat (S k) - 1)) (count_env c ++ [("i", VInt (Z.of_nat (S k)))]))) as (x' & rest & E); [done|by intros; destruct c|].
    rewrite E. destruct k as [|k]; [eexists _, _; rewrite bool_decide_eq_true_2 by done; reflexivity|].
    eexists _, _. rewrite bool_decide_eq_false_2 by done. reflexivity.
  - destruct (IH (x * x / FIXED_1) r (env_gl (x * x / FIXED_1) r (count_env c ++ [("i", VInt (Z.of_nat (S k)))]))) as (x' & rest & E); [done|by intros; destruct c|].
    rewrite E. destruct k as [|k]; [eexists _, _; rewrite bool_decide_eq_true_2 by done; reflexivity|].
    eexists _, _. rewrite bool_decide_eq_false_2 by done. reflexivity.
Qed.
Lemma gl_for n x r c : (30 <= n)%nat -> exists x' rest,
  run (fstep n fm FT (env_gl x r (count_env c)) (SFor "i" (ECall (EName "range") [(EAttr (EName "self") "_MAX_PRECISION"); (EInt 0); (ENeg (EInt 1))] []) gl_body)) =
  Done (Next, env_gl x' (general_log_loop (Z.to_nat MAX_PRECISION) x r) rest).
Proof.
  intros Hn. destruct n as [|n]; [lia|].
  change (fstep (S n) fm FT (env_gl x r (count_env c)) (SFor "i" (ECall (EName "range") [(EAttr (EName "self") "_MAX_PRECISION"); (EInt 0); (ENeg (EInt 1))] []) gl_body))
    with (abind (feval n fm FT (env_gl x r (count_env c)) (ECall (EName "range") [(EAttr (EName "self") "_MAX_PRECISION"); (EInt 0); (ENeg (EInt 1))] []))
            (fun vi => match items vi with Some l => floop n fm FT (env_gl x r (count_env c)) "i" gl_body l | None => Stuck end)).
  rewrite run_abind.
  assert (run (feval n fm FT (env_gl x r (count_env c)) (ECall (EName "range") [(EAttr (EName "self") "_MAX_PRECISION"); (EInt 0); (ENeg (EInt 1))] [])) = Done (VRange 127 0 (- 1))) as ->.
  { destruct c; more 10%nat; crunch; reflexivity. }
  cbn [andthen]. destruct n as [|n]; [lia|].
  replace (items (VRange 127 0 (-1))) with (Some (map (fun j => VInt (Z.of_nat j)) (rev (seq 1 127)))) by (vm_compute; reflexivity).
  cbv iota.
  change (floop (S n) fm FT (env_gl x r (count_env c)) "i" gl_body (map (fun j => VInt (Z.of_nat j)) (rev (seq 1 127)))) with
    (each_loop n "i" gl_body (env_gl x r (count_env c)) (map (fun j => VInt (Z.of_nat j)) (rev (seq 1 127)))).
  destruct (gl_loop_src 127 n x r c (env_gl x r (count_env c))) as (x' & rest & E); [lia|by intros; destruct c|].
  exists x', rest. rewrite E. reflexivity.
Qed.
Lemma general_log_src n x a : (80 <= n)%nat -> general_log x = Ok a ->
  run (fcall n fm FT (VClos fm FT meth_FixedMapFormula__general_log true) [VInt x] []) = Done (VInt a).
Proof.
  intros Hn H. destruct n as [|n]; [lia|].
  rewrite (call_body1 n meth_FixedMapFormula__general_log x "x" (f_body meth_FixedMapFormula__general_log)) by reflexivity.
  change (f_body meth_FixedMapFormula__general_log) with
   [SAssign [(EName "res")] (EInt 0);
    SIf (ECompare (EName "x") [(CGe, (EAttr (EName "self") "_FIXED_2"))])
    [SAssign [(EName "count")] (ECall (EAttr (EName "self") "_floor_log2") [(EBin BFloorDiv (EName "x") (EAttr (EName "self") "_FIXED_1"))] []);
     SAug (EName "x") BShr (EName "count");
     SAssign [(EName "res")] (EBin BMul (EName "count") (EAttr (EName "self") "_FIXED_1"))]
    [];
    SIf (ECompare (EName "x") [(CGt, (EAttr (EName "self") "_FIXED_1"))])
    [SFor "i" (ECall (EName "range") [(EAttr (EName "self") "_MAX_PRECISION"); (EInt 0); (ENeg (EInt 1))] []) gl_body]
    [];
    SReturn (Some (EBin BFloorDiv (EBin BMul (EName "res") (EAttr (EName "self") "_LN2_NUMERATOR")) (EAttr (EName "self") "_LN2_DENOMINATOR")))].
  destruct n as [|[|n]]; [lia..|].
  rewrite (exec_next (S n) _ (env_gl x 0 [])); [|more 5%nat; crunch; reflexivity].
  set (st := SIf (ECompare (EName "x") [(CGe, (EAttr (EName "self") "_FIXED_2"))]) [_; _; _] []).
  assert (S1 : exists x1 r1 c1, general_log x = Ok ((if FIXED_1 <? x1 then general_log_loop (Z.to_nat MAX_PRECISION) x1 r1 else r1) * LN2_NUMERATOR / LN2_DENOMINATOR) /\
     run (fstep n fm FT (env_gl x 0 []) st) = Done (Next, env_gl x1 r1 (count_env c1))).
  { unfold general_log, st. destruct n as [|[|[|[|[|n]]]]]; [lia..|]. rewrite if_step.
    assert (run (feval (S (S (S (S n)))) fm FT (env_gl x 0 []) (ECompare (EName "x") [(CGe, (EAttr (EName "self") "_FIXED_2"))])) = Done (VBool (FIXED_2 <=? x))) as -> by (more 5%nat; crunch; reflexivity).
    cbn [andthen]. destruct (FIXED_2 <=? x) eqn:L.
    - destruct (floor_log2_total (x / FIXED_1)) as (k & Ek & Hk). rewrite Ek. cbn [rbind].
      exists (Z.shiftr x k), (k * FIXED_1), (Some k). split; [reflexivity|].
      rewrite (exec_next _ _ (env_gl x 0 [("count", VInt k)])).
      + assert (Hk' : k <? 0 = false) by (apply Z.ltb_ge; lia). more 10%nat. crunch. rewrite Hk'. reflexivity.
      + rewrite assign_step. rewrite (self_call _ _ _ _ meth_FixedMapFormula__floor_log2 [VInt (x / FIXED_1)]); [|more 5%nat; crunch; reflexivity..].
        rewrite (floor_log2_src _ _ k); [reflexivity|lia|done].
    - exists x, 0, None. split; [reflexivity|]. reflexivity. }
  destruct S1 as (x1 & r1 & c1 & E1 & E2). rewrite E1 in H. apply Ok_inj in H as <-. clear E1.
  destruct n as [|[|[|[|n]]]]; [lia..|].
  rewrite (exec_next _ _ _ _ _ E2). clear E2 st. rewrite exec_cons, if_step.
  assert (run (feval (S (S n)) fm FT (env_gl x1 r1 (count_env c1)) (ECompare (EName "x") [(CGt, (EAttr (EName "self") "_FIXED_1"))])) = Done (VBool (FIXED_1 <? x1))) as ->
    by (destruct c1; more 5%nat; crunch; reflexivity).
  cbn [andthen]. destruct (FIXED_1 <? x1).
  - rewrite exec_cons. destruct (gl_for (S n) x1 r1 c1) as (x' & rest & E); [lia|]. rewrite E. clear E. cbn [andthen fst snd].
    replace (run (fexec (S n) fm FT (env_gl x' (general_log_loop (Z.to_nat MAX_PRECISION) x1 r1) rest) []))
      with (Done (Next, env_gl x' (general_log_loop (Z.to_nat MAX_PRECISION) x1 r1) rest) : result (outcome * env)) by reflexivity.
    cbn [andthen fst snd]. generalize (general_log_loop (Z.to_nat MAX_PRECISION) x1 r1) as r; intros r.
    rewrite (exec_return (S n) _ _ (VInt (r * LN2_NUMERATOR / LN2_DENOMINATOR))); [reflexivity|]. more 10%nat; crunch; reflexivity.
  - replace (run (fexec (S (S n)) fm FT (env_gl x1 r1 (count_env c1)) [])) with (Done (Next, env_gl x1 r1 (count_env c1)) : result (outcome * env)) by reflexivity.
    cbn [andthen fst snd]. rewrite (exec_return (S n) _ _ (VInt (r1 * LN2_NUMERATOR / LN2_DENOMINATOR))); [reflexivity|].
    destruct c1; more 10%nat; crunch; reflexivity.
Qed.
Lemma general_log_total x : exists a, general_log x = Ok a.
Proof. unfold general_log. destruct (FIXED_2 <=? x); [destruct (floor_log2_total (x / FIXED_1)) as (k & -> & _)|]; eexists; reflexivity. Qed.

(* ------------------------------------------- _find_position_in_max_exp_array ---- *)
Definition max_exp_value (o : option Z) : value := match o with Some z => VInt z | None => VNone end.
Lemma max_exp_names : assoc "_max_exp_array" (names formula_class) = Some (VList (map max_exp_value max_exp_array)).
Proof. vm_compute. reflexivity. Qed.
Lemma max_exp_some i : 32 <= i <= 127 -> exists v, nth_error max_exp_array (Z.to_nat i) = Some (Some v).
Proof.
  intros H. assert (G : forallb (fun k => match nth_error max_exp_array k with Some (Some _) => true | _ => false end) (seq 32 96) = true) by (vm_compute; reflexivity).
  rewrite forallb_forall in G. specialize (G (Z.to_nat i)). rewrite in_seq in G. specialize (G ltac:(lia)).
  destruct (nth_error max_exp_array (Z.to_nat i)) as [[v|]|]; [by exists v|discriminate..].
Qed.
Lemma max_exp_sub n e y i v : (8 <= n)%nat -> 0 <= i -> nth_error max_exp_array (Z.to_nat i) = Some (Some v) ->
  run (feval n fm FT e (EName y)) = Done (VInt i) ->
  assoc "self" e = Some VSelf ->
  run (feval (S n) fm FT e (ESub (EAttr (EName "self") "_max_exp_array") (EName y))) = Done (VInt v).
Proof.
  intros Hn Hi Hv Hy He.
  change (feval (S n) fm FT e (ESub (EAttr (EName "self") "_max_exp_array") (EName y))) with
    (abind (feval n fm FT e (EAttr (EName "self") "_max_exp_array")) (fun va => abind (feval n fm FT e (EName y)) (fun vi => subscript va vi))).
  rewrite run_abind.
  assert (run (feval n fm FT e (EAttr (EName "self") "_max_exp_array")) = Done (VList (map max_exp_value max_exp_array))) as ->.
  { destruct n as [|[|n]]; [lia..|].
    change (feval (S (S n)) fm FT e (EAttr (EName "self") "_max_exp_array")) with
      (abind (match assoc "self" e with Some v => Ret v | None => match global fm "self" with
                    | GFun m' f => Ret (VClos m' [] f false)
                    | GClass m' k => Ret (VClass m' (k_name k))
                    | GExpr m' x' => feval n m' [] [] x'
                    | GExt y => if String.eqb y "ZERO_SCORE_ADDRESS" then Ret (VAddr zero_score) else Ret (VBuiltin y)
                    end end) (fun v => attribute no_ctx FO [] names FT v "_max_exp_array")).
    rewrite He. cbn [abind]. vm_compute. reflexivity. }
  cbn [andthen]. rewrite run_abind, Hy. cbn [andthen subscript need_int run].
  assert (Hi' : i <? 0 = false) by (apply Z.ltb_ge; lia). rewrite Hi'.
  rewrite list_lookup_fmap. change (max_exp_array !! Z.to_nat i) with (max_exp_array !! Z.to_nat i).
  assert (max_exp_array !! Z.to_nat i = Some (Some v)) as ->. { rewrite <- Hv. clear. generalize (Z.to_nat i) as k. induction max_exp_array as [|a l IH]; intros [|k]; cbn; auto. }
  reflexivity.
Qed.
Lemma max_exp_cmp n e y i v x : (10 <= n)%nat -> 0 <= i -> nth_error max_exp_array (Z.to_nat i) = Some (Some v) ->
  assoc y e = Some (VInt i) -> assoc "x" e = Some (VInt x) -> assoc "self" e = Some VSelf ->
  run (feval n fm FT e (ECompare (ESub (EAttr (EName "self") "_max_exp_array") (EName y)) [(CGe, (EName "x"))])) = Done (VBool (x <=? v)).
Proof.
  intros Hn Hi Hv Hy Hx He.
  destruct n as [|[|n]]; [lia..|].
  change (feval (S (S n)) fm FT e (ECompare (ESub (EAttr (EName "self") "_max_exp_array") (EName y)) [(CGe, (EName "x"))])) with
    (abind (feval (S n) fm FT e (ESub (EAttr (EName "self") "_max_exp_array") (EName y))) (fun va =>
      abind (feval (S n) fm FT e (EName "x")) (fun vb => abind (cmp_sem CGe va vb) (fun r => Ret r)))).
  assert (Hn' : forall z v, assoc z e = Some v -> run (feval n fm FT e (EName z)) = Done v).
  { intros z u Hz. destruct n as [|n]; [lia|]. cbn [eval]. rewrite Hz. reflexivity. }
  assert (Hx' : run (feval (S n) fm FT e (EName "x")) = Done (VInt x)). { cbn [eval]. rewrite Hx. reflexivity. }
  rewrite run_abind, (max_exp_sub n e y i v) by (auto || lia). cbn [andthen]. rewrite run_abind, Hx'. reflexivity.
Qed.
Definition mid_env (o : option Z) : env := match o with Some z => [("mid", VInt z)] | None => [] end.
Definition env_fp (x lo hi : Z) (o : option Z) : env := ("self", VSelf) :: ("x", VInt x) :: ("lo", VInt lo) :: ("hi", VInt hi) :: mid_env o.
Definition fp_if : stmt := SIf (ECompare (ESub (EAttr (EName "self") "_max_exp_array") (EName "mid")) [(CGe, (EName "x"))])
      [SAssign [(EName "lo")] (EName "mid")]
      [SAssign [(EName "hi")] (EName "mid")].
Definition fp_while : stmt := SWhile (ECompare (EBin BAdd (EName "lo") (EInt 1)) [(CLt, (EName "hi"))])
    [SAssign [(EName "mid")] (EBin BFloorDiv (EBin BAdd (EName "lo") (EName "hi")) (EInt 2)); fp_if].
Lemma fp_loop_src f n x lo hi o : (f + 20 <= n)%nat -> 32 <= lo -> lo < hi -> hi <= 127 -> hi - lo <= 2 ^ Z.of_nat f ->
  exists lo' hi' o', find_position_loop f lo hi x = Ok (lo', hi') /\ 32 <= lo' /\ lo' < hi' /\ hi' <= 127 /\
    run (fstep n fm FT (env_fp x lo hi o) fp_while) = Done (Next, env_fp x lo' hi' o').
Proof.
  revert n lo hi o. induction f as [|f IH]; intros n lo hi o Hn H1 H2 H3 H4; destruct n as [|n]; try lia;
    unfold fp_while; rewrite while_step;
    (assert (run (feval n fm FT (env_fp x lo hi o) (ECompare (EBin BAdd (EName "lo") (EInt 1)) [(CLt, (EName "hi"))])) = Done (VBool (lo + 1 <? hi))) as ->
      by (destruct o; more 10%nat; crunch; reflexivity)); cbn [andthen find_position_loop]; destruct (lo + 1 <? hi) eqn:L.
  - apply Z.ltb_lt in L. cbn in H4. lia.
  - exists lo, hi, o. auto.
  - apply Z.ltb_lt in L. cbv zeta. set (mid := (lo + hi) / 2).
    assert (Hm : lo < mid < hi). { unfold mid. split; [apply Z.lt_le_trans with (lo + 1); [lia|apply Z.div_le_lower_bound; lia]|apply Z.div_lt_upper_bound; lia]. }
    assert (Hd : hi - mid <= 2 ^ Z.of_nat f /\ mid - lo <= 2 ^ Z.of_nat f).
    { replace (Z.of_nat (S f)) with (Z.succ (Z.of_nat f)) in H4 by lia. rewrite Z.pow_succ_r in H4 by lia. unfold mid in *. clear -H4 L.
      pose proof (Z.div_mod (lo + hi) 2 ltac:(lia)). pose proof (Z.mod_pos_bound (lo + hi) 2 ltac:(lia)). lia. }
    unfold max_exp_ge. destruct (max_exp_some mid ltac:(lia)) as [v Hv]. rewrite Hv. cbn [rbind].
    destruct n as [|n]; [lia|]. rewrite (exec_next n _ (env_fp x lo hi (Some mid))); [|destruct o; more 10%nat; crunch; reflexivity].
    destruct n as [|n]; [lia|]. rewrite exec_cons. destruct n as [|n]; [lia|]. unfold fp_if. rewrite if_step.
    rewrite (max_exp_cmp n _ "mid" mid v x); [|lia|lia|done|reflexivity..].
    clearbody mid. clear Hv. cbn [andthen]. destruct (x <=? v).
    + assert (run (fexec n fm FT (env_fp x lo hi (Some mid)) [SAssign [EName "lo"] (EName "mid")]) = Done (Next, env_fp x mid hi (Some mid))) as -> by (more 10%nat; crunch; reflexivity).
      cbn [andthen fst snd]. replace (run (fexec (S n) fm FT (env_fp x mid hi (Some mid)) [])) with (Done (Next, env_fp x mid hi (Some mid)) : result (outcome * env)) by reflexivity.
      cbn [andthen fst snd]. apply IH; lia.
    + assert (run (fexec n fm FT (env_fp x lo hi (Some mid)) [SAssign [EName "hi"] (EName "mid")]) = Done (Next, env_fp x lo mid (Some mid))) as -> by (more 10%nat; crunch; reflexivity).
      cbn [andthen fst snd]. replace (run (fexec (S n) fm FT (env_fp x lo mid (Some mid)) [])) with (Done (Next, env_fp x lo mid (Some mid)) : result (outcome * env)) by reflexivity.
      cbn [andthen fst snd]. apply IH; lia.
  - exists lo, hi, o. auto.
Qed.
Lemma find_position_src n x : (60 <= n)%nat -> exists p, find_position_in_max_exp_array x = Ok p /\ 0 <= p <= 127 /\
  run (fcall n fm FT (VClos fm FT meth_FixedMapFormula__find_position_in_max_exp_array true) [VInt x] []) = Done (VInt p).
Proof.
  intros Hn. destruct n as [|n]; [lia|].
  rewrite (call_body1 n meth_FixedMapFormula__find_position_in_max_exp_array x "x" (f_body meth_FixedMapFormula__find_position_in_max_exp_array)) by reflexivity.
  change (f_body meth_FixedMapFormula__find_position_in_max_exp_array) with
    [SAssign [(EName "lo")] (EAttr (EName "self") "_MIN_PRECISION");
     SAssign [(EName "hi")] (EAttr (EName "self") "_MAX_PRECISION");
     fp_while;
     SIf (ECompare (ESub (EAttr (EName "self") "_max_exp_array") (EName "hi")) [(CGe, (EName "x"))]) [SReturn (Some (EName "hi"))] [];
     SIf (ECompare (ESub (EAttr (EName "self") "_max_exp_array") (EName "lo")) [(CGe, (EName "x"))]) [SReturn (Some (EName "lo"))] [];
     SReturn (Some (EInt 0))].
  destruct n as [|[|[|[|[|[|[|n]]]]]]]; [lia..|].
  rewrite (exec_next _ _ [("self", VSelf); ("x", VInt x); ("lo", VInt 32)]); [|more 5%nat; crunch; reflexivity].
  rewrite (exec_next _ _ (env_fp x 32 127 None)); [|more 5%nat; crunch; reflexivity].
  destruct (fp_loop_src 7 (S (S (S (S n)))) x 32 127 None) as (lo & hi & o & E1 & Hlo & Hlt & Hhi & E2); [lia..|vm_compute; discriminate|].
  rewrite (exec_next _ _ _ _ _ E2). clear E2.
  unfold find_position_in_max_exp_array. change MIN_PRECISION with 32. change MAX_PRECISION with 127. rewrite E1. clear E1. cbn [rbind].
  unfold max_exp_ge.
  destruct (max_exp_some hi ltac:(lia)) as [vh Hvh]. destruct (max_exp_some lo ltac:(lia)) as [vl Hvl]. rewrite Hvh, Hvl. cbn [rbind].
  rewrite exec_cons, if_step. rewrite (max_exp_cmp _ _ "hi" hi vh x); [|lia|lia|done|reflexivity..]. cbn [andthen].
  destruct (x <=? vh).
  { exists hi. split; [done|]. split; [lia|]. more 5%nat. crunch. reflexivity. }
  replace (run (fexec (S (S n)) fm FT (env_fp x lo hi o) [])) with (Done (Next, env_fp x lo hi o) : result (outcome * env)) by reflexivity. cbn [andthen fst snd].
  rewrite exec_cons, if_step. rewrite (max_exp_cmp _ _ "lo" lo vl x); [|lia|lia|done|reflexivity..]. cbn [andthen].
  destruct (x <=? vl).
  { exists lo. split; [done|]. split; [lia|]. more 5%nat. crunch. reflexivity. }
  exists 0. split; [done|]. split; [lia|]. more 5%nat. crunch. reflexivity.
Qed.

(* ------------------------------------------------------------------- _power ---- *)
Local Opaque general_exp optimal_exp optimal_log general_log.
Lemma exec_fail n e s ss : run (fstep n fm FT e s) = Failed -> run (fexec (S n) fm FT e (s :: ss)) = Failed.
Proof. intros H. by rewrite exec_cons, H. Qed.
Definition env_pow (a b c d : Z) (rest : list Z) : env :=
  [("self", VSelf); ("base_n", VInt a); ("base_d", VInt b); ("exp_n", VInt c); ("exp_d", VInt d)] ++ zip_with (fun x z => (x, VInt z)) ["base"; "base_log"; "base_log_times_exp"] rest.
Lemma power_src n a b c d : (150 <= n)%nat ->
  run (fcall n fm FT (VClos fm FT meth_FixedMapFormula__power true) [VInt a; VInt b; VInt c; VInt d] []) =
  andthen (of_res (power a b c d)) (fun p => Done (VTuple [VInt p.1; VInt p.2])) /\
  (forall r p, power a b c d = Ok (r, p) -> 0 <= p).
Proof.
  intros Hn. destruct n as [|n]; [lia|].
  change (fcall (S n) fm FT (VClos fm FT meth_FixedMapFormula__power true) [VInt a; VInt b; VInt c; VInt d] []) with
    (abind (fexec n fm FT (env_pow a b c d []) (f_body meth_FixedMapFormula__power)) (fun r => match r.1 with Return v => Ret v | Next => Ret VNone end)).
  rewrite run_abind. unfold power.
  change (f_body meth_FixedMapFormula__power) with
   [SExpr (ECall (EName "require") [(ECompare (EName "base_n") [(CLt, (EAttr (EName "self") "_MAX_NUM"))]); (EStr "Invalid input")] []);
    SAssign [(EName "base")] (EBin BFloorDiv (EBin BMul (EName "base_n") (EAttr (EName "self") "_FIXED_1")) (EName "base_d"));
    SIf (ECompare (EName "base") [(CLt, (EAttr (EName "self") "_OPT_LOG_MAX_VAL"))])
    [SAssign [(EName "base_log")] (ECall (EAttr (EName "self") "_optimal_log") [(EName "base")] [])]
    [SAssign [(EName "base_log")] (ECall (EAttr (EName "self") "_general_log") [(EName "base")] [])];
    SAssign [(EName "base_log_times_exp")] (EBin BFloorDiv (EBin BMul (EName "base_log") (EName "exp_n")) (EName "exp_d"));
    SIf (ECompare (EName "base_log_times_exp") [(CLt, (EAttr (EName "self") "_OPT_EXP_MAX_VAL"))])
    [SReturn (Some (ETupleL [(ECall (EAttr (EName "self") "_optimal_exp") [(EName "base_log_times_exp")] []); (EAttr (EName "self") "_MAX_PRECISION")]))]
    [SAssign [(EName "precision")] (ECall (EAttr (EName "self") "_find_position_in_max_exp_array") [(EName "base_log_times_exp")] []);
     SReturn (Some (ETupleL [(ECall (EAttr (EName "self") "_general_exp") [(EBin BShr (EName "base_log_times_exp") (EBin BSub (EAttr (EName "self") "_MAX_PRECISION") (EName "precision"))); (EName "precision")] []); (EName "precision")]))]].
  destruct n as [|[|[|[|[|[|[|[|[|[|n]]]]]]]]]]; [lia..|].
  (* require *)
  unfold rrequire. destruct (a <? MAX_NUM) eqn:E1; unfold MAX_NUM in E1.
  2: { rewrite exec_fail; [split; [reflexivity|discriminate]|]. more 10%nat. crunch. rewrite E1. reflexivity. }
  rewrite (exec_next _ _ (env_pow a b c d [])); [|more 10%nat; crunch; rewrite E1; reflexivity]. cbn [rbind]. clear E1.
  (* base *)
  unfold py_div at 1 3. destruct (b =? 0) eqn:E1.
  { rewrite exec_fail; [split; [reflexivity|discriminate]|]. more 10%nat. crunch. rewrite E1. reflexivity. }
  cbn [rbind]. set (base := a * FIXED_1 / b).
  rewrite (exec_next _ _ (env_pow a b c d [base])); [|more 10%nat; crunch; rewrite E1; reflexivity]. clearbody base. clear E1.
  (* base_log *)
  assert (L : exists lg, (if base <? OPT_LOG_MAX_VAL then Ok (optimal_log base) else general_log base) = Ok lg /\
     run (fstep (S (S (S (S (S (S (S n))))))) fm FT (env_pow a b c d [base])
       (SIf (ECompare (EName "base") [(CLt, (EAttr (EName "self") "_OPT_LOG_MAX_VAL"))])
    [SAssign [(EName "base_log")] (ECall (EAttr (EName "self") "_optimal_log") [(EName "base")] [])]
    [SAssign [(EName "base_log")] (ECall (EAttr (EName "self") "_general_log") [(EName "base")] [])])) = Done (Next, env_pow a b c d [base; lg])).
  { rewrite if_step.
    assert (run (feval (S (S (S (S (S (S n)))))) fm FT (env_pow a b c d [base]) (ECompare (EName "base") [(CLt, (EAttr (EName "self") "_OPT_LOG_MAX_VAL"))])) = Done (VBool (base <? OPT_LOG_MAX_VAL))) as ->
      by (more 10%nat; crunch; reflexivity).
    cbn [andthen]. destruct (base <? OPT_LOG_MAX_VAL).
    - exists (optimal_log base). split; [done|]. rewrite (exec_next _ _ (env_pow a b c d [base; optimal_log base])); [reflexivity|].
      rewrite assign_step. rewrite (self_call _ _ _ _ meth_FixedMapFormula__optimal_log [VInt base]); [|more 5%nat; crunch; reflexivity..].
      rewrite optimal_log_src by lia. reflexivity.
    - destruct (general_log_total base) as [lg Hlg]. exists lg. split; [done|]. rewrite (exec_next _ _ (env_pow a b c d [base; lg])); [reflexivity|].
      rewrite assign_step. rewrite (self_call _ _ _ _ meth_FixedMapFormula__general_log [VInt base]); [|more 5%nat; crunch; reflexivity..].
      rewrite (general_log_src _ _ lg) by (done || lia). reflexivity. }
  destruct L as (lg & E1 & E2). rewrite E1. rewrite (exec_next _ _ _ _ _ E2). clear E1 E2. cbn [rbind].
  (* base_log_times_exp *)
  unfold py_div. destruct (d =? 0) eqn:E1.
  { rewrite exec_fail; [split; [reflexivity|discriminate]|]. more 10%nat. crunch. rewrite E1. reflexivity. }
  cbn [rbind]. set (y := lg * c / d).
  rewrite (exec_next _ _ (env_pow a b c d [base; lg; y])); [|more 10%nat; crunch; rewrite E1; reflexivity]. clearbody y. clear E1.
  rewrite exec_cons, if_step.
  assert (run (feval (S (S (S (S n)))) fm FT (env_pow a b c d [base; lg; y]) (ECompare (EName "base_log_times_exp") [(CLt, (EAttr (EName "self") "_OPT_EXP_MAX_VAL"))])) = Done (VBool (y <? OPT_EXP_MAX_VAL))) as ->
    by (more 10%nat; crunch; reflexivity).
  cbn [andthen]. destruct (y <? OPT_EXP_MAX_VAL).
  - split; [|intros r p [= <- <-]; done]. rewrite (exec_return _ _ _ (VTuple [VInt (optimal_exp y); VInt MAX_PRECISION])); [reflexivity|].
    change (feval (S (S n)) fm FT (env_pow a b c d [base; lg; y]) (ETupleL [(ECall (EAttr (EName "self") "_optimal_exp") [(EName "base_log_times_exp")] []); (EAttr (EName "self") "_MAX_PRECISION")])) with
      (abind (abind (feval (S n) fm FT (env_pow a b c d [base; lg; y]) (ECall (EAttr (EName "self") "_optimal_exp") [(EName "base_log_times_exp")] [])) (fun v => 
         abind (fargs (S n) (env_pow a b c d [base; lg; y]) [(EAttr (EName "self") "_MAX_PRECISION")]) (fun vs => Ret (v :: vs)))) (fun vs => Ret (VTuple vs))).
    rewrite !run_abind. rewrite (self_call _ _ _ _ meth_FixedMapFormula__optimal_exp [VInt y]); [|more 5%nat; crunch; reflexivity..].
    rewrite optimal_exp_src by lia. cbn [andthen]. rewrite run_abind.
    assert (run (fargs (S n) (env_pow a b c d [base; lg; y]) [(EAttr (EName "self") "_MAX_PRECISION")]) = Done [VInt MAX_PRECISION]) as -> by (more 5%nat; crunch; reflexivity).
    reflexivity.
  - destruct (find_position_src (S n) y) as (p & E1 & Hp & E2); [lia|]. rewrite E1. cbn [rbind]. split; [|intros r q [= <- <-]; lia].
    set (e' := env_pow a b c d [base; lg; y] ++ [("precision", VInt p)]).
    rewrite (exec_next _ _ e').
    2: { rewrite assign_step. rewrite (self_call _ _ _ _ meth_FixedMapFormula__find_position_in_max_exp_array [VInt y]); [|more 5%nat; crunch; reflexivity..]. rewrite E2. reflexivity. }
    set (sh := Z.shiftr y (MAX_PRECISION - p)). assert (Esh : sh = Z.shiftr y (MAX_PRECISION - p)) by reflexivity. clearbody sh.
    rewrite (exec_return _ _ _ (VTuple [VInt (general_exp sh p); VInt p])); [reflexivity|].
    destruct n as [|[|n]]; [lia..|].
    match goal with |- run (feval (S ?k) fm FT e' (ETupleL [?x; ?z])) = _ => 
      change (feval (S k) fm FT e' (ETupleL [x; z])) with
      (abind (abind (feval k fm FT e' x) (fun v => abind (fargs k e' [z]) (fun vs => Ret (v :: vs)))) (fun vs => Ret (VTuple vs))) end.
    assert (Hs : 127 - p <? 0 = false) by (apply Z.ltb_ge; lia).
    rewrite !run_abind. rewrite (self_call _ _ _ _ meth_FixedMapFormula__general_exp [VInt sh; VInt p]); [|more 5%nat; crunch; reflexivity|rewrite Esh; more 10%nat; crunch; rewrite Hs; reflexivity].
    rewrite general_exp_src by lia. cbn [andthen]. rewrite run_abind.
    match goal with |- context[run (fargs ?k e' [EName "precision"])] => assert (run (fargs k e' [EName "precision"]) = Done [VInt p]) as -> by (more 5%nat; crunch; reflexivity) end.
    reflexivity.
Qed.

(* ------------------------------------------------------- the three quotations ---- *)
Lemma tuple_step n e y z x : run (fstep (S (S n)) fm FT e (SAssign [ETupleL [EName y; EName z]] x)) =
  andthen (run (feval (S n) fm FT e x)) (fun v => match v with VTuple [a; b] => Done (Next, update z b (update y a e)) | _ => NoMeaning end).
Proof.
  change (fstep (S (S n)) fm FT e (SAssign [ETupleL [EName y; EName z]] x)) with
    (abind (feval (S n) fm FT e x) (fun v => abind (abind (match v with VTuple [a; b] => Ret (update z b (update y a e)) | _ => Stuck end) (fun e' => Ret e')) (fun e' => Ret (Next, e')))).
  rewrite run_abind. destruct (run _) as [v| |]; [|reflexivity..]. cbn [andthen]. rewrite !run_abind.
  destruct v as [| | | | | | | | | | | |l| | | | | | | | | | | | | | | | | | | | |]; try reflexivity. destruct l as [|a [|b [|]]]; reflexivity.
Qed.
Lemma power_call n e xa xb xc xd a b c d : (160 <= n)%nat -> run (feval n fm FT e (EAttr (EName "self") "_power")) = Done (VClos fm FT meth_FixedMapFormula__power true) ->
  run (fargs n e [xa; xb; xc; xd]) = Done [VInt a; VInt b; VInt c; VInt d] ->
  run (fstep (S (S n)) fm FT e (SAssign [ETupleL [EName "result"; EName "precision"]] (ECall (EAttr (EName "self") "_power") [xa; xb; xc; xd] []))) =
  andthen (of_res (power a b c d)) (fun p => Done (Next, update "precision" (VInt p.2) (update "result" (VInt p.1) e))).
Proof.
  intros Hn Hf Hx. rewrite tuple_step, (self_call _ _ _ _ _ _ Hf Hx). destruct (power_src n a b c d) as [E _]; [lia|]. rewrite E.
  destruct (power a b c d) as [[r p]|]; reflexivity.
Qed.
Local Opaque power.
Lemma call_any n m tail m' tail' f d bd vs ks : fcall (S n) m tail (VClos f d bd true) vs ks = fcall (S n) m' tail' (VClos f d bd true) vs ks.
Proof. reflexivity. Qed.
Lemma formula_call x fd vs : in_classes names FO x true = Some (VClos fm FT fd true) ->
  run (formula_method x vs) = run (fcall (S 199) fm FT (VClos fm FT fd true) vs []).
Proof.
  intros H. unfold formula_method, method. rewrite FO_eq, H. by rewrite (call_any 199 _ _ fm FT). Qed.
Definition start_env (f : fundef) (vs : list value) : env := zip_with (fun p v => (p.1, v)) (f_params f) (VSelf :: vs).
Ltac at_start fd := match goal with |- context[run (fcall (S ?n) fm FT (VClos fm FT ?f true) ?vs [])] =>
    let e := eval lazy in (start_env fd vs) in
    change (fcall (S n) fm FT (VClos fm FT f true) vs []) with
      (abind (fexec n fm FT e (f_body f)) (fun r => match r.1 with Return v => Ret v | Next => Ret VNone end));
    rewrite run_abind; let b := eval cbv [fd f_body] in (f_body fd) in change (f_body f) with b end.

Lemma returned_cons r k : andthen r (fun p => run (match p.1 with Return v => Ret v | Next => Ret VNone end)) = k -> returned r = k.
Proof. intros <-. unfold returned. destruct r as [[[|v] e]| |]; reflexivity. Qed.
Ltac failing := rewrite exec_fail; [reflexivity|more 12%nat; crunch; repeat match goal with E : _ = _ :> bool |- _ => rewrite E end; reflexivity].
Ltac next_ := erewrite exec_next; [|more 12%nat; crunch; repeat match goal with E : _ = _ :> bool |- _ => rewrite E end; reflexivity].
(* a conditional with no else: taken and returning, or skipped *)
Lemma exec_if n e b th ss v : run (feval n fm FT e b) = Done (VBool v) ->
  run (fexec (S (S n)) fm FT e (SIf b th [] :: ss)) =
  if v then andthen (run (fexec n fm FT e th)) (fun r => match r.1 with Next => run (fexec (S n) fm FT r.2 ss) | Return _ => Done r end)
  else run (fexec (S n) fm FT e ss).
Proof.
  intros H. rewrite exec_cons, if_step, H. cbn [andthen]. destruct v; [reflexivity|].
  destruct n as [|n]; [discriminate|]. reflexivity.
Qed.
Lemma exec_return_fail n e x ss : run (feval n fm FT e x) = Failed -> run (fexec (S (S n)) fm FT e (SReturn (Some x) :: ss)) = Failed.
Proof.
  intros H. change (fexec (S (S n)) fm FT e (SReturn (Some x) :: ss)) with
    (abind (abind (feval n fm FT e x) (fun v => Ret (Return v, e))) (fun r => match r.1 with Next => fexec (S n) fm FT r.2 ss | Return v => Ret r end)).
  rewrite !run_abind, H. reflexivity.
Qed.
Ltac on_if b := erewrite (exec_if _ _ _ _ _ b); [|more 12%nat; crunch; reflexivity].
Ltac returning := erewrite exec_return; [|more 12%nat; crunch; repeat match goal with E : _ = _ :> bool |- _ => rewrite E end; reflexivity]; reflexivity.
Lemma purchase_src_ n s b w a : (190 <= n)%nat ->
  int_result (run (fcall (S n) fm FT (VClos fm FT meth_FixedMapFormula_calculate_purchase_return true) [VInt s; VInt b; VInt w; VInt a] [])) = of_res (calculate_purchase_return s b w a).
Proof.
  intros Hn. at_start meth_FixedMapFormula_calculate_purchase_return.
  unfold calculate_purchase_return, valid_weight, rrequire. do 20 (destruct n as [|n]; [lia|]).
  destruct (0 <? s) eqn:E1; cbn [andb rbind]; [|failing].
  destruct (0 <? b) eqn:E2; cbn [andb rbind]; [|failing].
  destruct (w <=? MAX_WEIGHT) eqn:E3; cbn [andb rbind]; unfold MAX_WEIGHT in E3; [|failing].
  destruct (0 <? w) eqn:E4; cbn [andb rbind]; [|failing].
  next_. clear E1 E3 E4.
  on_if (a =? 0). destruct (a =? 0); [returning|].
  on_if (w =? MAX_WEIGHT). destruct (w =? MAX_WEIGHT).
  { unfold py_div. assert (b =? 0 = false) as E3 by (apply Z.eqb_neq; apply Z.ltb_lt in E2; lia). rewrite E3. returning. }
  next_.
  erewrite exec_cons, power_call; [|lia|more 12%nat; crunch; reflexivity..].
  change MAX_WEIGHT with 1000000.
  destruct (power (a + b) b w 1000000) as [[r p]|] eqn:EP; [|reflexivity]. cbn [of_res andthen fst snd rbind].
  pose proof (proj2 (power_src 150 _ _ _ _ ltac:(lia)) _ _ EP) as Hp. apply Z.ltb_ge in Hp. clear EP.
  next_. returning.
Qed.
Lemma sale_src_ n s b w a : (190 <= n)%nat ->
  int_result (run (fcall (S n) fm FT (VClos fm FT meth_FixedMapFormula_calculate_sale_return true) [VInt s; VInt b; VInt w; VInt a] [])) = of_res (calculate_sale_return s b w a).
Proof.
  intros Hn. at_start meth_FixedMapFormula_calculate_sale_return.
  unfold calculate_sale_return, valid_weight, rrequire. do 20 (destruct n as [|n]; [lia|]).
  destruct (0 <? s) eqn:E1; cbn [andb rbind]; [|failing].
  destruct (0 <? b) eqn:E2; cbn [andb rbind]; [|failing].
  destruct (w <=? MAX_WEIGHT) eqn:E3; cbn [andb rbind]; unfold MAX_WEIGHT in E3; [|failing].
  destruct (0 <? w) eqn:E4; cbn [andb rbind]; [|failing].
  destruct (a <=? s) eqn:E5; cbn [andb rbind]; [|failing].
  next_. clear E2 E3 E4 E5.
  on_if (a =? 0). destruct (a =? 0); [returning|].
  on_if (a =? s). destruct (a =? s); [returning|].
  on_if (w =? MAX_WEIGHT). destruct (w =? MAX_WEIGHT).
  { unfold py_div. assert (s =? 0 = false) as E3 by (apply Z.eqb_neq; apply Z.ltb_lt in E1; lia). rewrite E3. returning. }
  next_.
  erewrite exec_cons, power_call; [|lia|more 12%nat; crunch; reflexivity..].
  change MAX_WEIGHT with 1000000.
  destruct (power s (s - a) 1000000 w) as [[r p]|] eqn:EP; [|reflexivity]. cbn [of_res andthen fst snd rbind].
  pose proof (proj2 (power_src 150 _ _ _ _ ltac:(lia)) _ _ EP) as Hp. apply Z.ltb_ge in Hp. clear EP.
  next_. next_. unfold py_div. destruct (r =? 0) eqn:E6; [|returning].
  rewrite exec_return_fail; [reflexivity|more 12%nat; crunch; rewrite E6; reflexivity].
Qed.
Lemma cross_src_ n fb fw tb tw a : (190 <= n)%nat ->
  int_result (run (fcall (S n) fm FT (VClos fm FT meth_FixedMapFormula_calculate_cross_connector_return true) [VInt fb; VInt fw; VInt tb; VInt tw; VInt a] [])) =
  of_res (calculate_cross_connector_return fb fw tb tw a).
Proof.
  intros Hn. at_start meth_FixedMapFormula_calculate_cross_connector_return.
  unfold calculate_cross_connector_return, valid_weight, rrequire. do 20 (destruct n as [|n]; [lia|]).
  destruct (0 <? fb) eqn:E1; cbn [andb rbind]; [|failing].
  destruct (fw <=? MAX_WEIGHT) eqn:E2; cbn [andb rbind]; unfold MAX_WEIGHT in E2; [|failing].
  destruct (0 <? fw) eqn:E3; cbn [andb rbind]; [|failing].
  destruct (0 <? tb) eqn:E4; cbn [andb rbind]; [|failing].
  destruct (tw <=? MAX_WEIGHT) eqn:E5; cbn [andb rbind]; unfold MAX_WEIGHT in E5; [|failing].
  destruct (0 <? tw) eqn:E6; cbn [andb rbind]; [|failing].
  next_. clear E1 E2 E3 E4 E5 E6.
  on_if (fw =? tw). destruct (fw =? tw).
  { unfold py_div. destruct (fb + a =? 0) eqn:E6; [|returning].
    rewrite exec_return_fail; [reflexivity|more 12%nat; crunch; rewrite E6; reflexivity]. }
  next_.
  erewrite exec_cons, power_call; [|lia|more 12%nat; crunch; reflexivity..].
  destruct (power (fb + a) fb fw tw) as [[r p]|] eqn:EP; [|reflexivity]. cbn [of_res andthen fst snd rbind].
  pose proof (proj2 (power_src 150 _ _ _ _ ltac:(lia)) _ _ EP) as Hp. apply Z.ltb_ge in Hp. clear EP.
  next_. next_. unfold py_div. destruct (r =? 0) eqn:E6; [|returning].
  rewrite exec_return_fail; [reflexivity|more 12%nat; crunch; rewrite E6; reflexivity].
Qed.

Lemma formula_result_call x fd vs : in_classes names FO x true = Some (VClos fm FT fd true) ->
  formula_result x vs = int_result (run (fcall (S 199) fm FT (VClos fm FT fd true) vs [])).
Proof. intros H. unfold formula_result. exact (f_equal int_result (formula_call x fd vs H)). Qed.
Lemma purchase_src s b w a : formula_result "calculate_purchase_return" [VInt s; VInt b; VInt w; VInt a] = of_res (calculate_purchase_return s b w a).
Proof. rewrite (formula_result_call _ meth_FixedMapFormula_calculate_purchase_return); [apply purchase_src_; lia|vm_compute; reflexivity]. Qed.
Lemma sale_src s b w a : formula_result "calculate_sale_return" [VInt s; VInt b; VInt w; VInt a] = of_res (calculate_sale_return s b w a).
Proof. rewrite (formula_result_call _ meth_FixedMapFormula_calculate_sale_return); [apply sale_src_; lia|vm_compute; reflexivity]. Qed.
Lemma cross_src fb fw tb tw a : formula_result "calculate_cross_connector_return" [VInt fb; VInt fw; VInt tb; VInt tw; VInt a] =
  of_res (calculate_cross_connector_return fb fw tb tw a).
Proof. rewrite (formula_result_call _ meth_FixedMapFormula_calculate_cross_connector_return); [apply cross_src_; lia|vm_compute; reflexivity]. Qed.
