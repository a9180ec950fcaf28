(* The JSON scanner accepts exactly JSON text, and reads the value it stands for. *)
From Coq Require Import String Ascii Lia.
From stdpp Require Import base countable list numbers strings gmap.
From Verif Require Import Res Codec CodecProofs World JsonModel JsonSpec JsonProofs.
Local Open Scope N_scope.
Local Open Scope list_scope.

(* ---------- numbers ---------- *)
Lemma is_digit_iff c : is_digit c = true <-> 48 <= c <= 57.
Proof. unfold is_digit. rewrite andb_true_iff, !N.leb_le. done. Qed.
Definition no_digit (t : text) : Prop := match t with c :: _ => is_digit c = false | [] => True end.
Lemma take_digits_app d r : Forall (fun c => 48 <= c <= 57) d -> no_digit r -> take_digits (d ++ r) = (d, r).
Proof.
  intros Hd Hr. induction Hd as [|c d Hc Hd IH]; cbn [app take_digits].
  - destruct r as [|c r]; [done|]. cbn in *. by rewrite Hr.
  - rewrite (proj2 (is_digit_iff c) Hc), IH. done.
Qed.
Lemma take_digits_spec s d r : take_digits s = (d, r) -> s = d ++ r /\ Forall (fun c => 48 <= c <= 57) d /\ no_digit r.
Proof.
  revert d r. induction s as [|c s IH]; intros d r; cbn [take_digits].
  - intros [= <- <-]. done.
  - destruct (is_digit c) eqn:Hc.
    + destruct (take_digits s) as [d' r'] eqn:E. intros [= <- <-]. destruct (IH _ _ eq_refl) as (-> & Hd & Hr).
      split; [done|]. split; [|done]. constructor; [by apply is_digit_iff|done].
    + intros [= <- <-]. done.
Qed.
Lemma fold_value d : forall acc, fold_left (fun acc c => acc * 10 + (c - 48)) d acc = acc * 10 ^ N.of_nat (List.length d) + decimal d.
Proof.
  induction d as [|c d IH]; intros acc; cbn [fold_left decimal List.length].
  - change (N.of_nat 0) with 0. rewrite N.pow_0_r. lia.
  - rewrite IH. rewrite Nat2N.inj_succ, N.pow_succ_r'. lia.
Qed.
Lemma digits_value_decimal d : digits_value d = decimal d.
Proof. unfold digits_value. rewrite fold_value. lia. Qed.

(* what may follow a number *)
Definition follow (r : text) : Prop :=
  match r with c :: _ => is_digit c = false /\ c <> 46 /\ c <> 101 /\ c <> 69 | [] => True end.
Lemma follow_no_digit r : follow r -> no_digit r.
Proof. destruct r; [done|]. by intros []. Qed.
Lemma exponent_no_digit e r : exponent e -> follow r -> no_digit (e ++ r).
Proof. intros [->|(x & g & d & [->| ->] & _ & _ & ->)] Hr; [by apply follow_no_digit|done|done]. Qed.

Lemma scan_exp_complete e r : exponent e -> follow r -> scan_exp (e ++ r) = (bool_decide (e <> []), r).
Proof.
  intros [->|(x & g & d & Hx & Hg & [Hd0 Hd] & ->)] Hr.
  - destruct r as [|c r]; [done|]. destruct Hr as (_ & _ & H1 & H2). cbn [app scan_exp].
    rewrite (proj2 (N.eqb_neq c 101) H1), (proj2 (N.eqb_neq c 69) H2). done.
  - rewrite (bool_decide_eq_true_2 _) by done. cbn [app scan_exp].
    assert ((x =? 101) || (x =? 69) = true) as -> by (destruct Hx as [->| ->]; done).
    assert (match (g ++ d) ++ r with g :: s'' => if (g =? 43) || (g =? 45) then s'' else (g :: s'') | [] => [] end = d ++ r) as E.
    { destruct Hg as [->|[->| ->]]; cbn [app]; [|done|done]. destruct d as [|c d]; [done|]. inversion Hd as [|? ? Hc ?]; subst. cbn [app].
      rewrite (proj2 (N.eqb_neq c 43)), (proj2 (N.eqb_neq c 45)) by lia. done. }
    assert (match (g ++ d) ++ r with g0 :: s'' => if (g0 =? 43) || (g0 =? 45) then s'' else (g ++ d) ++ r | [] => (g ++ d) ++ r end = d ++ r) as E'.
    { rewrite <- E. by destruct ((g ++ d) ++ r). }
    rewrite E', take_digits_app by (done || by apply follow_no_digit). by destruct d.
Qed.
Lemma scan_exp_sound s b r : scan_exp s = (b, r) -> exists e, s = e ++ r /\ exponent e /\ b = bool_decide (e <> []).
Proof.
  unfold scan_exp. destruct s as [|c s']. { intros [= <- <-]. exists []. split; [done|]. split; [by left|done]. }
  assert ((false, c :: s') = (b, r) -> exists e, c :: s' = e ++ r /\ exponent e /\ b = bool_decide (e <> [])) as None_.
  { intros [= <- <-]. exists []. split; [done|]. split; [by left|done]. }
  destruct ((c =? 101) || (c =? 69)) eqn:Ec; [|done]. apply orb_true_iff in Ec. rewrite !N.eqb_eq in Ec.
  set (s2 := match s' with g :: s'' => if (g =? 43) || (g =? 45) then s'' else s' | [] => s' end).
  destruct (take_digits s2) as [[|d0 d] r'] eqn:Et; [done|]. intros [= <- <-]. apply take_digits_spec in Et as (E2 & Hd & _).
  assert (exists g, (g = [] \/ g = [43] \/ g = [45]) /\ s' = g ++ s2) as (g & Hg & Es).
  { unfold s2. destruct s' as [|g s'']; [exists []; auto|]. destruct ((g =? 43) || (g =? 45)) eqn:Eg; [|exists []; auto].
    apply orb_true_iff in Eg. rewrite !N.eqb_eq in Eg. exists [g]. split; [|done]. destruct Eg as [->| ->]; auto. }
  exists (c :: g ++ d0 :: d). split; [cbn; rewrite <- app_assoc, <- E2, <- Es; done|]. split; [|done].
  right. exists c, g, (d0 :: d). split; [done|]. split; [done|]. split; [by split|done].
Qed.
Lemma scan_frac_complete f e r : frac f -> exponent e -> follow r -> scan_frac (f ++ e ++ r) = (bool_decide (f <> []), e ++ r).
Proof.
  intros [->|(d & [Hd0 Hd] & ->)] He Hr.
  - cbn [app]. destruct (e ++ r) as [|c s] eqn:E; [done|]. cbn [scan_frac].
    destruct (N.eqb_spec c 46) as [->|_]; [|done]. exfalso. destruct He as [->|(x & g & d & Hx & _ & _ & ->)].
    + cbn in E. subst r. by destruct Hr as (_ & ? & _).
    + cbn in E. injection E as -> _. destruct Hx; done.
  - rewrite (bool_decide_eq_true_2 _) by done. cbn [app scan_frac]. change (46 =? 46) with true. cbn iota.
    rewrite take_digits_app by (done || by apply exponent_no_digit). by destruct d.
Qed.
Lemma scan_frac_sound s b r : scan_frac s = (b, r) -> exists f, s = f ++ r /\ frac f /\ b = bool_decide (f <> []).
Proof.
  unfold scan_frac. destruct s as [|c s']. { intros [= <- <-]. exists []. split; [done|]. split; [by left|done]. }
  assert ((false, c :: s') = (b, r) -> exists f, c :: s' = f ++ r /\ frac f /\ b = bool_decide (f <> [])) as None_.
  { intros [= <- <-]. exists []. split; [done|]. split; [by left|done]. }
  destruct (N.eqb_spec c 46) as [->|_]; [|done].
  destruct (take_digits s') as [[|d0 d] r'] eqn:Et; [done|]. intros [= <- <-]. apply take_digits_spec in Et as (-> & Hd & _).
  exists (46 :: d0 :: d). split; [done|]. split; [|done]. right. exists (d0 :: d). split; [by split|done].
Qed.

Definition negate (g : text) (z : Z) : Z := match g with [] => z | _ => (- z)%Z end.
Lemma natural_head t : natural t -> exists c t', t = c :: t' /\ 48 <= c <= 57.
Proof. intros [[H0 H] _]. destruct t as [|c t]; [done|]. inversion H; subst. eauto. Qed.
Lemma natural_split t r : natural t -> no_digit r ->
  match t ++ r with [] => False | c :: s2 => is_digit c = true /\ (if c =? 48 then ([c], s2) else take_digits (t ++ r)) = (t, r) end.
Proof.
  intros Ht Hr. pose proof (natural_head t Ht) as (c & t' & -> & Hc). destruct Ht as [[_ Hd] Hz].
  cbn [app]. split; [by apply is_digit_iff|]. destruct (N.eqb_spec c 48) as [->|Hn].
  - destruct Hz as [?|[= ->]]; [done|]. done.
  - change (c :: t' ++ r) with ((c :: t') ++ r). by apply take_digits_app.
Qed.
Lemma scan_number_complete g t f e r : sign g -> natural t -> frac f -> exponent e -> follow r ->
  scan_number (g ++ t ++ f ++ e ++ r) =
    Some (if bool_decide (f <> []) || bool_decide (e <> []) then VFloat else VInt (negate g (Z.of_N (decimal t))), r).
Proof.
  intros Hg Ht Hf He Hr. unfold scan_number.
  assert (scan_sign (g ++ t ++ f ++ e ++ r) = (match g with [] => false | _ => true end, t ++ f ++ e ++ r)) as ->.
  { destruct Hg as [->| ->]; [|done]. destruct (natural_head t Ht) as (c & t' & -> & Hc). unfold scan_sign. cbn [app].
    rewrite (proj2 (N.eqb_neq c 45)) by lia. done. }
  assert (no_digit (f ++ e ++ r)) as Hnd.
  { destruct Hf as [->|(d & _ & ->)]; [exact (exponent_no_digit e r He Hr)|done]. }
  pose proof (natural_split t (f ++ e ++ r) Ht Hnd) as H. destruct (t ++ f ++ e ++ r) as [|c s2]; [done|]. destruct H as [Hc H].
  rewrite Hc, H. rewrite scan_frac_complete, scan_exp_complete by done. f_equal. f_equal.
  rewrite digits_value_decimal. destruct (_ || _); [done|]. by destruct Hg as [->| ->].
Qed.
Lemma scan_number_sound s v r : scan_number s = Some (v, r) -> exists t, s = t ++ r /\ renders v t.
Proof.
  unfold scan_number.
  destruct (scan_sign s) as [neg s1] eqn:Eg.
  assert (exists g, sign g /\ s = g ++ s1 /\ neg = match g with [] => false | _ => true end) as (g & Hg & -> & Hneg).
  { unfold scan_sign in Eg. destruct s as [|c s']. { injection Eg as <- <-. exists []. split; [by left|done]. }
    destruct (N.eqb_spec c 45) as [->|_]; injection Eg as <- <-; [exists [45]; split; [by right|done]|exists []; split; [by left|done]]. }
  clear Eg. destruct s1 as [|c s2]; [done|]. destruct (is_digit c) eqn:Hc; [|done].
  destruct (if c =? 48 then ([c], s2) else take_digits (c :: s2)) as [d r0] eqn:Ed.
  assert (c :: s2 = d ++ r0 /\ natural d) as [Es Hd].
  { destruct (N.eqb_spec c 48) as [->|Hn].
    - injection Ed as <- <-. split; [done|]. split; [split; [done|]|by right]. repeat constructor; lia.
    - destruct d as [|c' d].
      { exfalso. cbn [take_digits] in Ed. rewrite Hc in Ed. destruct (take_digits s2); done. }
      apply take_digits_spec in Ed as (E & Hd & _). injection E as <- ->. split; [done|]. split; [by split|]. left. intros [= ->]. done. }
  destruct (scan_frac r0) as [b1 r1] eqn:Ef. destruct (scan_exp r1) as [b2 r2] eqn:Ee. intros [= <- <-].
  apply scan_frac_sound in Ef as (f & -> & Hf & ->). apply scan_exp_sound in Ee as (e & -> & He & ->).
  exists (g ++ d ++ f ++ e). split; [rewrite Es, <- !app_assoc; done|].
  destruct (bool_decide (f <> []) || bool_decide (e <> [])) eqn:Eb.
  - apply orb_true_iff in Eb. rewrite !bool_decide_eq_true in Eb. by apply r_float.
  - apply orb_false_iff in Eb as [E1 E2]. apply bool_decide_eq_false, dec_stable in E1, E2. subst f e.
    rewrite digits_value_decimal. rewrite !app_nil_r. destruct Hg as [->| ->]; subst neg; [by apply r_nat|by apply r_neg].
Qed.

(* ---------- constants ---------- *)
Lemma strip_prefix_app p r : strip_prefix p (p ++ r) = Some r.
Proof. induction p as [|c p IH]; [done|]. cbn. by rewrite N.eqb_refl. Qed.
Lemma strip_prefix_Some p s r : strip_prefix p s = Some r -> s = p ++ r.
Proof.
  revert s. induction p as [|c p IH]; intros s; cbn; [by intros [= <-]|]. destruct s as [|d s]; [done|].
  destruct (N.eqb_spec c d) as [->|_]; [|done]. intros H. by rewrite (IH _ H).
Qed.
Lemma scan_const_sound s v r : scan_const s = Some (v, r) -> exists t, s = t ++ r /\ renders v t.
Proof.
  unfold scan_const.
  destruct (strip_prefix t_null s) as [r0|] eqn:E1. { intros [= <- <-]. exists t_null. split; [by apply strip_prefix_Some|]. apply r_null. }
  destruct (strip_prefix t_true s) as [r0|] eqn:E2. { intros [= <- <-]. exists t_true. split; [by apply strip_prefix_Some|]. apply r_true. }
  destruct (strip_prefix t_false s) as [r0|] eqn:E3. { intros [= <- <-]. exists t_false. split; [by apply strip_prefix_Some|]. apply r_false. }
  destruct (strip_prefix t_nan s) as [r0|] eqn:E4. { intros [= <- <-]. exists t_nan. split; [by apply strip_prefix_Some|]. apply r_nan. }
  destruct (strip_prefix t_infinity s) as [r0|] eqn:E5. { intros [= <- <-]. exists t_infinity. split; [by apply strip_prefix_Some|]. apply (r_infinity []). by left. }
  destruct (strip_prefix (45 :: t_infinity) s) as [r0|] eqn:E6; [|done].
  intros [= <- <-]. exists (45 :: t_infinity). split; [by apply strip_prefix_Some|]. apply (r_infinity [45]). by right.
Qed.
Lemma scan_const_number g t r : sign g -> natural t -> scan_const (g ++ t ++ r) = None.
Proof.
  intros Hg Ht. destruct (natural_head t Ht) as (c & t' & -> & Hc). unfold scan_const, t_null, t_true, t_false, t_nan, t_infinity.
  destruct Hg as [->| ->]; cbn -[N.eqb].
  - rewrite !(proj2 (N.eqb_neq _ c)) by lia. done.
  - rewrite !(proj2 (N.eqb_neq _ c)) by lia. done.
Qed.

(* ---------- values ---------- *)
Definition vhead (c : N) : Prop :=
  is_ws c = false /\ c <> 93 /\ c <> 125 /\ c <> 44.
Lemma digit_vhead c : 48 <= c <= 57 -> vhead c.
Proof.
  intros H. split; [|lia]. destruct (is_ws c) eqn:E; [|done]. apply is_ws_iff in E. lia.
Qed.
Lemma renders_head v t : renders v t -> exists c t', t = c :: t' /\ vhead c.
Proof.
  assert (forall t r, natural t -> exists c t', t ++ r = c :: t' /\ vhead c) as Hnat.
  { intros t0 r H. destruct (natural_head t0 H) as (c & t' & -> & Hc). eexists c, _. split; [done|by apply digit_vhead]. }
  intros Hv. destruct Hv as [| | |t0 H|t0 H|g t0 f e Hg H Hf He Hfe| |g Hg|v0 t0 H|w H|w l t0 H H'|w H|w l t0 H H'];
    try (eexists _, _; split; [reflexivity|]; split; [vm_compute; reflexivity|repeat split; vm_compute; discriminate]).
  - destruct (Hnat t0 [] H) as (c & t' & E & Hc). rewrite app_nil_r in E. eauto.
  - destruct Hg as [->| ->]; [exact (Hnat t0 (f ++ e) H)|]. eexists _, _. split; [reflexivity|]. split; [vm_compute; reflexivity|repeat split; vm_compute; discriminate].
  - destruct Hg as [->| ->]; (eexists _, _; split; [reflexivity|]; split; [vm_compute; reflexivity|repeat split; vm_compute; discriminate]).
Qed.

Scheme renders_mind := Minimality for renders Sort Prop
with relements_mind := Minimality for relements Sort Prop
with rmembers_mind := Minimality for rmembers Sort Prop.
Combined Scheme renders_mutind from renders_mind, relements_mind, rmembers_mind.

Lemma relements_head l t : relements l t -> exists c t', t = c :: t' /\ vhead c.
Proof. destruct 1 as [v t w H _|v t w w' l t' H _ _ _]; destruct (renders_head _ _ H) as (c & u & -> & Hc); eexists c, _; done. Qed.
Lemma ws_follow w c r : ws w -> follow (c :: r) -> follow (w ++ c :: r).
Proof.
  intros Hw Hc. destruct Hw as [|x w Hx _]; [done|]. cbn. split; [|lia].
  destruct (is_digit x) eqn:E; [|done]. apply is_digit_iff in E. lia.
Qed.
Lemma follow_comma r : follow (44 :: r). Proof. repeat split; done. Qed.
Lemma follow_bracket r : follow (93 :: r). Proof. repeat split; done. Qed.
Lemma follow_brace r : follow (125 :: r). Proof. repeat split; done. Qed.
Local Hint Resolve follow_comma follow_bracket follow_brace : core.

Lemma scan_value_other f c s : c <> 34 -> c <> 123 -> c <> 91 ->
  scan_value (S f) (c :: s) = match scan_const (c :: s) with Some x => Some x | None => scan_number (c :: s) end.
Proof. intros H1 H2 H3. cbn [scan_value]. by rewrite (proj2 (N.eqb_neq c 34) H1), (proj2 (N.eqb_neq c 123) H2), (proj2 (N.eqb_neq c 91) H3). Qed.
Lemma scan_value_const f p v r c p' : p = c :: p' -> c <> 34 -> c <> 123 -> c <> 91 -> scan_const (p ++ r) = Some (v, r) ->
  scan_value (S f) (p ++ r) = Some (v, r).
Proof. intros -> H1 H2 H3 H. cbn [app]. rewrite scan_value_other by done. by rewrite <- app_comm_cons in H; rewrite H. Qed.
Lemma scan_value_number f g t u e r : sign g -> natural t -> frac u -> exponent e -> follow r ->
  scan_value (S f) (g ++ t ++ u ++ e ++ r) =
    Some (if bool_decide (u <> []) || bool_decide (e <> []) then VFloat else VInt (negate g (Z.of_N (decimal t))), r).
Proof.
  intros Hg Ht Hu He Hr. rewrite <- scan_number_complete by done.
  pose proof (scan_const_number g t (u ++ e ++ r) Hg Ht) as Hc.
  assert (exists c s, g ++ t ++ u ++ e ++ r = c :: s /\ c <> 34 /\ c <> 123 /\ c <> 91) as (c & s & E & H1 & H2 & H3).
  { destruct (natural_head t Ht) as (c & t' & -> & Hcd). destruct Hg as [->| ->]; eexists _, _; (split; [reflexivity|lia]). }
  rewrite E in *. rewrite scan_value_other by done. by rewrite Hc.
Qed.

Lemma scan_complete :
  (forall v t, renders v t -> forall f r, follow r -> (2 * List.length t <= S f)%nat -> scan_value f (t ++ r) = Some (v, r)) /\
  (forall l t, relements l t -> forall f r, (2 * List.length t <= f)%nat -> scan_elements f (t ++ 93 :: r) = Some (l, r)) /\
  (forall l t, rmembers l t -> forall f r, (2 * List.length t <= f)%nat -> scan_members f (t ++ 125 :: r) = Some (l, r)).
Proof.
  apply renders_mutind.
  - intros f r _ Hf. destruct f as [|f]; [cbn in Hf; lia|]. eapply scan_value_const; [reflexivity|done..|reflexivity].
  - intros f r _ Hf. destruct f as [|f]; [cbn in Hf; lia|]. eapply scan_value_const; [reflexivity|done..|reflexivity].
  - intros f r _ Hf. destruct f as [|f]; [cbn in Hf; lia|]. eapply scan_value_const; [reflexivity|done..|reflexivity].
  - intros t Ht f r Hr Hf. destruct (natural_head t Ht) as (c & t' & Et & _). destruct f as [|f]; [subst t; cbn in Hf; lia|].
    apply (scan_value_number f [] t [] [] r); [by left|done|by left|by left|done].
  - intros t Ht f r Hr Hf. destruct (natural_head t Ht) as (c & t' & Et & _). destruct f as [|f]; [subst t; cbn in Hf; lia|].
    apply (scan_value_number f [45] t [] [] r); [by right|done|by left|by left|done].
  - intros g t u e Hg Ht Hu He Hue f r Hr Hf. destruct (natural_head t Ht) as (c & t' & Et & _).
    destruct f as [|f]; [subst t; rewrite app_length in Hf; cbn in Hf; lia|].
    rewrite <- !app_assoc. rewrite scan_value_number by done.
    assert (bool_decide (u <> []) || bool_decide (e <> []) = true) as ->; [|done].
    apply orb_true_iff. rewrite !bool_decide_eq_true. done.
  - intros f r _ Hf. destruct f as [|f]; [cbn in Hf; lia|]. eapply scan_value_const; [reflexivity|done..|reflexivity].
  - intros g [->| ->] f r _ Hf; (destruct f as [|f]; [cbn in Hf; lia|]); (eapply scan_value_const; [reflexivity|done..|reflexivity]).
  - intros v t Ht f r _ Hf. destruct f as [|f]; [cbn in Hf; lia|]. cbn [app scan_value]. change (34 =? 34) with true. cbn iota.
    rewrite <- app_assoc. cbn [app]. by rewrite (scan_string_complete v t r).
  - intros w Hw f r _ Hf. destruct f as [|f]; [cbn in Hf; lia|]. cbn [app scan_value].
    change (91 =? 34) with false. change (91 =? 123) with false. change (91 =? 91) with true. cbn iota.
    rewrite <- app_assoc, skip_ws_app by done. done.
  - intros w l t Hw Hl IH f r _ Hf. destruct f as [|f]; [cbn in Hf; lia|]. cbn [app scan_value].
    change (91 =? 34) with false. change (91 =? 123) with false. change (91 =? 91) with true. cbn iota.
    destruct (relements_head _ _ Hl) as (c & t' & Et & Hc1 & Hc2 & _). rewrite <- !app_assoc.
    rewrite skip_ws_app by (done || by rewrite Et). rewrite Et. cbn [app]. rewrite (proj2 (N.eqb_neq c 93)) by done.
    change (c :: t' ++ 93 :: r) with ((c :: t') ++ 93 :: r). rewrite <- Et. rewrite IH; [done|].
    cbn in Hf. rewrite !app_length in Hf. cbn in Hf. lia.
  - intros w Hw f r _ Hf. destruct f as [|f]; [cbn in Hf; lia|]. cbn [app scan_value].
    change (123 =? 34) with false. change (123 =? 123) with true. cbn iota.
    rewrite <- app_assoc, skip_ws_app by done. done.
  - intros w l t Hw Hl IH f r _ Hf. destruct f as [|f]; [cbn in Hf; lia|]. cbn [app scan_value].
    change (123 =? 34) with false. change (123 =? 123) with true. cbn iota.
    assert (exists t', t = 34 :: t') as (t' & Et) by (destruct Hl; eauto). rewrite <- !app_assoc.
    rewrite skip_ws_app by (done || by rewrite Et). rewrite Et. cbn [app]. change (34 =? 125) with false. cbn iota.
    change (34 :: t' ++ 125 :: r) with ((34 :: t') ++ 125 :: r). rewrite <- Et. rewrite IH; [done|].
    cbn in Hf. rewrite !app_length in Hf. cbn in Hf. lia.
  - intros v t w Hv IH Hw f r Hf. rewrite app_length in Hf. destruct (renders_head _ _ Hv) as (c & t' & Et & _).
    destruct f as [|f]; [subst t; cbn in Hf; lia|]. cbn [scan_elements]. rewrite <- app_assoc.
    rewrite IH; [|apply ws_follow; auto|lia]. rewrite skip_ws_app by done. done.
  - intros v t w w' l t' Hv IH Hw Hw' Hl IHl f r Hf. rewrite !app_length in Hf. cbn in Hf. rewrite app_length in Hf.
    destruct f as [|f]; [lia|]. cbn [scan_elements]. rewrite <- !app_assoc. cbn [app].
    rewrite IH; [|apply ws_follow; auto|lia]. rewrite skip_ws_app by done. change (44 =? 93) with false. change (44 =? 44) with true. cbn iota.
    destruct (relements_head _ _ Hl) as (c & u & Et & Hc & _). rewrite <- app_assoc. rewrite skip_ws_app by (done || by rewrite Et).
    rewrite IHl by lia. done.
  - intros k kt w1 w2 v t w Hk Hw1 Hw2 Hv IH Hw f r Hf. destruct (renders_head _ _ Hv) as (c & t' & Et & Hc & _).
    cbn in Hf. rewrite !app_length in Hf. cbn in Hf. rewrite !app_length in Hf. cbn in Hf. rewrite !app_length in Hf.
    destruct f as [|f]; [lia|]. cbn [app scan_members]. change (34 =? 34) with true. cbn iota.
    rewrite <- !app_assoc. cbn [app]. rewrite (scan_string_complete k kt) by done.
    rewrite <- !app_assoc. cbn [app]. rewrite skip_ws_app by done. change (58 =? 58) with true. cbn iota.
    rewrite <- !app_assoc. rewrite skip_ws_app by (done || by rewrite Et).
    rewrite IH; [|apply ws_follow; auto|lia]. rewrite skip_ws_app by done. done.
  - intros k kt w1 w2 v t w w' l t' Hk Hw1 Hw2 Hv IH Hw Hw' Hl IHl f r Hf. destruct (renders_head _ _ Hv) as (c & u & Et & Hc & _).
    cbn in Hf. rewrite !app_length in Hf. cbn in Hf. rewrite !app_length in Hf. cbn in Hf. rewrite !app_length in Hf. cbn in Hf. rewrite !app_length in Hf.
    destruct f as [|f]; [lia|]. cbn [app scan_members]. change (34 =? 34) with true. cbn iota.
    rewrite <- !app_assoc. cbn [app]. rewrite (scan_string_complete k kt) by done.
    rewrite <- !app_assoc. cbn [app]. rewrite skip_ws_app by done. change (58 =? 58) with true. cbn iota.
    rewrite <- !app_assoc. cbn [app]. rewrite skip_ws_app by (done || by rewrite Et).
    rewrite IH; [|apply ws_follow; auto|lia]. rewrite skip_ws_app by done. change (44 =? 125) with false. change (44 =? 44) with true. cbn iota.
    assert (exists x, t' = 34 :: x) as (x & Ex) by (destruct Hl; eauto). rewrite <- app_assoc.
    rewrite skip_ws_app by (done || by rewrite Ex). rewrite IHl by lia. done.
Qed.

Lemma scan_sound f :
  (forall s v r, scan_value f s = Some (v, r) -> exists t, s = t ++ r /\ renders v t) /\
  (forall s l r, scan_elements f s = Some (l, r) -> exists t, s = t ++ 93 :: r /\ relements l t) /\
  (forall s l r, scan_members f s = Some (l, r) -> exists t, s = t ++ 125 :: r /\ rmembers l t).
Proof.
  induction f as [|f (IHv & IHe & IHm)]; [split; [|split]; intros [] ? ?; done|].
  split; [|split].
  - intros s v r. destruct s as [|c s]; [done|].
    destruct (N.eqb_spec c 34) as [->|N34].
    { cbn [scan_value]. change (34 =? 34) with true. cbn iota. destruct (scan_string s) as [[k s']|] eqn:E; [|done]. intros [= <- <-].
      apply scan_string_sound in E as (t & -> & Ht). exists (34 :: t ++ [34]). split; [cbn; by rewrite <- app_assoc|by constructor]. }
    destruct (N.eqb_spec c 123) as [->|N123].
    { cbn [scan_value]. change (123 =? 34) with false. change (123 =? 123) with true. cbn iota.
      destruct (skip_ws_spec s) as (w & Hw & Es & _). destruct (skip_ws s) as [|d s'] eqn:E; [done|].
      destruct (N.eqb_spec d 125) as [->|_].
      { intros [= <- <-]. exists (123 :: w ++ [125]). split; [rewrite Es; cbn; by rewrite <- app_assoc|by constructor]. }
      destruct (scan_members f (d :: s')) as [[l r']|] eqn:Em; [|done]. intros [= <- <-]. apply IHm in Em as (t & Et & Ht).
      exists (123 :: w ++ t ++ [125]). split; [rewrite Es, Et; cbn; by rewrite <- !app_assoc|by constructor]. }
    destruct (N.eqb_spec c 91) as [->|N91].
    { cbn [scan_value]. change (91 =? 34) with false. change (91 =? 123) with false. change (91 =? 91) with true. cbn iota.
      destruct (skip_ws_spec s) as (w & Hw & Es & _). destruct (skip_ws s) as [|d s'] eqn:E; [done|].
      destruct (N.eqb_spec d 93) as [->|_].
      { intros [= <- <-]. exists (91 :: w ++ [93]). split; [rewrite Es; cbn; by rewrite <- app_assoc|by constructor]. }
      destruct (scan_elements f (d :: s')) as [[l r']|] eqn:Em; [|done]. intros [= <- <-]. apply IHe in Em as (t & Et & Ht).
      exists (91 :: w ++ t ++ [93]). split; [rewrite Es, Et; cbn; by rewrite <- !app_assoc|by constructor]. }
    rewrite scan_value_other by done. destruct (scan_const (c :: s)) as [[v' r']|] eqn:Ec.
    { intros [= <- <-]. by apply scan_const_sound. }
    apply scan_number_sound.
  - intros s l r. cbn [scan_elements]. destruct (scan_value f s) as [[v s4]|] eqn:Ev; [|done].
    apply IHv in Ev as (t & -> & Ht). destruct (skip_ws_spec s4) as (w & Hw & Es & _). destruct (skip_ws s4) as [|c4 s5]; [done|].
    destruct (N.eqb_spec c4 93) as [->|_].
    { intros [= <- <-]. exists (t ++ w). split; [by rewrite Es, <- app_assoc|by constructor]. }
    destruct (N.eqb_spec c4 44) as [->|_]; [|done].
    destruct (skip_ws_spec s5) as (w' & Hw' & Es' & _).
    destruct (scan_elements f (skip_ws s5)) as [[l' r']|] eqn:El; [|done]. intros [= <- <-]. apply IHe in El as (t' & Et' & Ht').
    exists (t ++ w ++ 44 :: w' ++ t'). split; [|by constructor]. rewrite Es, Es', Et'. rewrite <- !app_assoc. cbn. by rewrite <- app_assoc.
  - intros s l r. destruct s as [|c s1]; [done|]. cbn [scan_members]. destruct (N.eqb_spec c 34) as [->|_]; [|done].
    destruct (scan_string s1) as [[k s2]|] eqn:Ek; [|done]. apply scan_string_sound in Ek as (kt & -> & Hk).
    destruct (skip_ws_spec s2) as (w1 & Hw1 & Es2 & _). destruct (skip_ws s2) as [|c2 s3]; [done|].
    destruct (N.eqb_spec c2 58) as [->|_]; [|done].
    destruct (skip_ws_spec s3) as (w2 & Hw2 & Es3 & _).
    destruct (scan_value f (skip_ws s3)) as [[v s4]|] eqn:Ev; [|done].
    apply IHv in Ev as (t & Et & Ht). destruct (skip_ws_spec s4) as (w & Hw & Es & _). destruct (skip_ws s4) as [|c4 s5]; [done|].
    destruct (N.eqb_spec c4 125) as [->|_].
    { intros [= <- <-]. exists (34 :: kt ++ 34 :: w1 ++ 58 :: w2 ++ t ++ w). split; [|by constructor].
      rewrite Es2, Es3, Et, Es. cbn. rewrite <- app_assoc. cbn. rewrite <- app_assoc. cbn. by rewrite <- !app_assoc. }
    destruct (N.eqb_spec c4 44) as [->|_]; [|done].
    destruct (skip_ws_spec s5) as (w' & Hw' & Es' & _).
    destruct (scan_members f (skip_ws s5)) as [[l' r']|] eqn:El; [|done]. intros [= <- <-]. apply IHm in El as (t' & Et' & Ht').
    exists (34 :: kt ++ 34 :: w1 ++ 58 :: w2 ++ t ++ w ++ 44 :: w' ++ t'). split; [|by constructor].
    rewrite Es2, Es3, Et, Es, Es', Et'. cbn. rewrite <- app_assoc. cbn. rewrite <- app_assoc. cbn. rewrite <- !app_assoc. cbn. by rewrite <- app_assoc.
Qed.

(* json.loads reads v from exactly the texts of v *)
Lemma loads_iff v s : loads s = Some v <-> json_text v s.
Proof.
  unfold loads, json_text. split.
  - destruct (skip_ws_spec s) as (w1 & Hw1 & Es & _). destruct (scan_value _ (skip_ws s)) as [[v' r]|] eqn:E; [|done].
    destruct (skip_ws_spec r) as (w2 & Hw2 & Er & _). destruct (skip_ws r); [|done]. intros [= <-].
    apply scan_sound in E as (t & Et & Ht). exists w1, t, w2. split; [done|]. split; [done|]. split; [done|].
    rewrite Es, Et, Er at 1. by rewrite app_nil_r.
  - intros (w1 & t & w2 & Hw1 & Ht & Hw2 & ->). destruct (renders_head _ _ Ht) as (c & t' & Et & Hc & _).
    rewrite skip_ws_app by (done || by rewrite Et). rewrite (proj1 scan_complete v t Ht).
    + by rewrite skip_ws_ws.
    + destruct Hw2 as [|x w2 Hx _]; [done|]. cbn. split; [|lia]. destruct (is_digit x) eqn:E; [|done]. apply is_digit_iff in E. lia.
    + rewrite !app_length. lia.
Qed.
