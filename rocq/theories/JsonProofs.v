(* Proofs about the text of requests: UTF-8, the JSON scanner, json.dumps. *)
From Coq Require Import String Ascii Lia.
From stdpp Require Import base countable list numbers strings gmap.
From Verif Require Import Res Codec CodecProofs World JsonModel JsonSpec.
Local Open Scope N_scope.
Local Open Scope list_scope.

(* ---------- UTF-8 ---------- *)
Ltac ndiv := zify; Z.to_euclidean_division_equations; lia.

Lemma byte_code n : n < 256 -> N_of_ascii (ascii_of_N n) = n.
Proof. apply N_ascii_embedding. Qed.
Lemma cont_code y : y < 64 -> cont (ascii_of_N (0x80 + y)) = Some y.
Proof.
  intros H. unfold cont. rewrite byte_code by first [lia | ndiv].
  rewrite (proj2 (N.leb_le _ _)), (proj2 (N.ltb_lt _ _)) by lia. cbn [andb]. f_equal. lia.
Qed.
Lemma cont_Some a y : cont a = Some y -> y < 64 /\ a = ascii_of_N (0x80 + y).
Proof.
  unfold cont. destruct ((128 <=? N_of_ascii a) && (N_of_ascii a <? 192)) eqn:E; [|done]. intros [= <-].
  apply andb_true_iff in E as [E1 E2]. apply N.leb_le in E1. apply N.ltb_lt in E2. split; [lia|].
  rewrite <- (ascii_N_embedding a) at 1. f_equal. lia.
Qed.

Ltac decide_tests :=
  repeat match goal with
  | |- context [ (?a <? ?b)%N ] => first [rewrite (proj2 (N.ltb_lt a b)) by first [lia | ndiv] | rewrite (proj2 (N.ltb_ge a b)) by first [lia | ndiv]]
  | |- context [ (?a <=? ?b)%N ] => first [rewrite (proj2 (N.leb_le a b)) by first [lia | ndiv] | rewrite (proj2 (N.leb_gt a b)) by first [lia | ndiv]]
  end.

Lemma surrogate_false n : scalar n -> surrogate n = false.
Proof. unfold scalar, surrogate. intros [H|H]; decide_tests; done. Qed.

Lemma utf8_step_char n s : scalar n -> utf8_step (utf8_char n ++ s)%string = Some (n, s).
Proof.
  intros Hn. assert (n < 0x110000) as Hmax by (destruct Hn; lia). unfold utf8_char, utf8_bmp.
  destruct (n <? 65536) eqn:E1; [apply N.ltb_lt in E1|apply N.ltb_ge in E1].
  - destruct (n <? 128) eqn:E2; [apply N.ltb_lt in E2|apply N.ltb_ge in E2].
    + rewrite app_cons, app_nil_l'. cbn [utf8_step]. rewrite byte_code by first [lia | ndiv]. decide_tests. done.
    + destruct (n <? 2048) eqn:E3; [apply N.ltb_lt in E3|apply N.ltb_ge in E3].
      * assert (n / 64 < 32) by (apply N.div_lt_upper_bound; lia). assert (n mod 64 < 64) by (apply N.mod_lt; lia).
        rewrite !app_cons, app_nil_l'. cbn [utf8_step]. rewrite byte_code by first [lia | ndiv]. rewrite cont_code by done.
        decide_tests. cbn [andb].
        replace ((192 + n / 64 - 192) * 64 + n mod 64) with n by ndiv. decide_tests. done.
      * assert (n / 4096 < 16) by (apply N.div_lt_upper_bound; lia). assert (n mod 64 < 64) by (apply N.mod_lt; lia).
        assert (n / 64 mod 64 < 64) by (apply N.mod_lt; lia).
        rewrite !app_cons, app_nil_l'. cbn [utf8_step]. rewrite byte_code by first [lia | ndiv]. rewrite !cont_code by done.
        decide_tests. cbn [andb].
        replace ((224 + n / 4096 - 224) * 4096 + n / 64 mod 64 * 64 + n mod 64) with n.
        { decide_tests. by rewrite surrogate_false. }
        ndiv.
  - assert (n / 262144 < 5) by (apply N.div_lt_upper_bound; lia). assert (n mod 64 < 64) by (apply N.mod_lt; lia).
    assert (n / 64 mod 64 < 64) by (apply N.mod_lt; lia). assert (n / 4096 mod 64 < 64) by (apply N.mod_lt; lia).
    rewrite !app_cons, app_nil_l'. cbn [utf8_step]. rewrite byte_code by first [lia | ndiv]. rewrite !cont_code by done.
    decide_tests. cbn [andb].
    replace ((240 + n / 262144 - 240) * 262144 + n / 4096 mod 64 * 4096 + n / 64 mod 64 * 64 + n mod 64) with n by ndiv.
    decide_tests. done.
Qed.

Lemma utf8_step_Some s k s' : utf8_step s = Some (k, s') -> scalar k /\ s = (utf8_char k ++ s')%string.
Proof.
  destruct s as [|a s1]; [done|]. cbn [utf8_step].
  pose proof (N_ascii_bounded a) as Ha. pose proof (ascii_N_embedding a) as Ea. set (x := N_of_ascii a) in *.
  destruct (x <? 128) eqn:E1; [apply N.ltb_lt in E1|apply N.ltb_ge in E1].
  { intros [= <- <-]. split; [left; lia|]. unfold utf8_char, utf8_bmp. decide_tests. by rewrite Ea. }
  destruct s1 as [|b s2]; [done|]. destruct (cont b) as [y|] eqn:Eb; [|done]. apply cont_Some in Eb as [Hy ->].
  destruct ((192 <=? x) && (x <? 224)) eqn:E2.
  { apply andb_true_iff in E2 as [E2 E3]. apply N.leb_le in E2. apply N.ltb_lt in E3.
    destruct (128 <=? (x - 192) * 64 + y) eqn:E4; [|done]. apply N.leb_le in E4. intros [= <- <-].
    set (n := (x - 192) * 64 + y) in *. split; [left; lia|]. unfold utf8_char, utf8_bmp. decide_tests.
    rewrite !app_cons, app_nil_l'. replace (n / 64) with (x - 192) by ndiv. replace (n mod 64) with y by ndiv.
    replace (192 + (x - 192)) with x by lia. by rewrite Ea. }
  destruct s2 as [|c s3]; [done|]. destruct (cont c) as [z|] eqn:Ec; [|done]. apply cont_Some in Ec as [Hz ->].
  destruct ((224 <=? x) && (x <? 240)) eqn:E3.
  { apply andb_true_iff in E3 as [E3 E4]. apply N.leb_le in E3. apply N.ltb_lt in E4.
    set (n := (x - 224) * 4096 + y * 64 + z) in *. assert (n = (x - 224) * 4096 + y * 64 + z) as Hn by done.
    destruct (2048 <=? n) eqn:E5; [|done]. apply N.leb_le in E5. cbn [andb].
    destruct (surrogate n) eqn:E6; [done|]. intros [= <- <-]. unfold surrogate in E6. apply andb_false_iff in E6.
    rewrite N.leb_gt, N.ltb_ge in E6. split; [unfold scalar; lia|]. unfold utf8_char, utf8_bmp. decide_tests.
    rewrite !app_cons, app_nil_l'. clearbody n. replace (n / 4096) with (x - 224) by ndiv. replace (n / 64 mod 64) with y by ndiv.
    replace (n mod 64) with z by ndiv.
    replace (224 + (x - 224)) with x by lia. by rewrite Ea. }
  destruct s3 as [|d s4]; [done|]. destruct (cont d) as [t|] eqn:Ed; [|done]. apply cont_Some in Ed as [Ht ->].
  destruct ((240 <=? x) && (x <? 248)) eqn:E4; [|done].
  apply andb_true_iff in E4 as [E4 E5]. apply N.leb_le in E4. apply N.ltb_lt in E5.
  set (n := (x - 240) * 262144 + y * 4096 + z * 64 + t) in *. assert (n = (x - 240) * 262144 + y * 4096 + z * 64 + t) as Hn by done.
  destruct ((65536 <=? n) && (n <=? 1114111)) eqn:E6; [|done]. apply andb_true_iff in E6 as [E6 E7].
  apply N.leb_le in E6, E7. intros [= <- <-]. split; [unfold scalar; lia|]. unfold utf8_char. decide_tests.
  rewrite !app_cons, app_nil_l'. clearbody n. replace (n / 262144) with (x - 240) by ndiv.
  replace (n / 4096 mod 64) with y by ndiv. replace (n / 64 mod 64) with z by ndiv. replace (n mod 64) with t by ndiv.
  replace (240 + (x - 240)) with x by lia. by rewrite Ea.
Qed.

Lemma utf8_char_nonempty n : exists a s, utf8_char n = String a s.
Proof. unfold utf8_char, utf8_bmp. repeat case_match; eauto. Qed.
Lemma str_length_app (s t : string) : String.length (s ++ t) = (String.length s + String.length t)%nat.
Proof. induction s as [|c s IH]; [done|]. rewrite app_cons. cbn. by rewrite IH. Qed.

(* decoding inverts encoding, and only encodings are decoded *)
Lemma utf8_decode_iff s t : utf8_decode s = Some t <-> Forall scalar t /\ s = utf8_encode t.
Proof.
  unfold utf8_decode. assert (String.length s <= String.length s)%nat as Hf by lia.
  revert Hf. generalize (String.length s) at 2 3. intros f. revert s t.
  induction f as [|f IH]; intros s t Hf.
  - destruct s; [|cbn in Hf; lia]. cbn. split.
    + intros [= <-]. done.
    + intros [_ Hs]. destruct t as [|n t]; [done|]. cbn in Hs. destruct (utf8_char_nonempty n) as (a & q & E). rewrite E in Hs. done.
  - destruct s as [|a s].
    + cbn. split; [by intros [= <-]|]. intros [_ Hs]. destruct t as [|n t]; [done|]. cbn in Hs.
      destruct (utf8_char_nonempty n) as (a & q & E). rewrite E in Hs. done.
    + cbn [utf8_loop]. split.
      * destruct (utf8_step (String a s)) as [[n s']|] eqn:E; [|done]. apply utf8_step_Some in E as [Hn E].
        destruct (utf8_loop f s') as [t'|] eqn:E'; [|done]. intros [= <-].
        apply IH in E' as [Ht ->].
        { split; [by constructor|done]. }
        assert (String.length (String a s) = String.length (utf8_char n ++ s')) as HL by by rewrite E.
        rewrite str_length_app in HL. cbn in HL, Hf. destruct (utf8_char_nonempty n) as (b & q & Eq). rewrite Eq in HL. cbn in HL. lia.
      * intros [Ht Hs]. destruct t as [|n t]; [done|]. inversion Ht as [|? ? Hn Ht']; subst. cbn in Hs. rewrite Hs.
        rewrite utf8_step_char by done. assert (utf8_loop f (utf8_encode t) = Some t) as ->; [|done]. apply IH; [|done].
        assert (String.length (String a s) = String.length (utf8_char n ++ utf8_encode t)) as HL by by rewrite Hs.
        rewrite str_length_app in HL. cbn in HL, Hf. destruct (utf8_char_nonempty n) as (b & q & Eq). rewrite Eq in HL. cbn in HL. lia.
Qed.

(* ASCII text is its own encoding *)
Fixpoint ascii_only (s : string) : Prop :=
  match s with EmptyString => True | String a s' => N_of_ascii a < 128 /\ ascii_only s' end.
Lemma utf8_codes s : ascii_only s -> utf8_encode (codes s) = s.
Proof.
  induction s as [|a s IH]; [done|]. intros [Ha Hs]. cbn [codes utf8_encode]. unfold utf8_char, utf8_bmp. decide_tests.
  by rewrite app_cons, app_nil_l', ascii_N_embedding, IH.
Qed.

Lemma utf8_lead n : n < 0x110000 -> exists a s, utf8_char n = String a s /\
  (n < 128 /\ s = EmptyString /\ N_of_ascii a = n \/ 128 <= n /\ 128 <= N_of_ascii a).
Proof.
  intros Hn. unfold utf8_char, utf8_bmp.
  destruct (n <? 65536) eqn:E1; [apply N.ltb_lt in E1|apply N.ltb_ge in E1].
  - destruct (n <? 128) eqn:E2; [apply N.ltb_lt in E2|apply N.ltb_ge in E2].
    { eexists _, _. split; [done|]. left. rewrite byte_code by lia. done. }
    destruct (n <? 2048) eqn:E3; [apply N.ltb_lt in E3|apply N.ltb_ge in E3];
      (eexists _, _; split; [done|]; right; rewrite byte_code by ndiv; split; [done|ndiv]).
  - eexists _, _. split; [done|]. right. rewrite byte_code by ndiv. split; [lia|ndiv].
Qed.
Definition points (t : text) : Prop := Forall (fun n => n < 0x110000) t.
(* only ASCII text is encoded as ASCII text *)
Lemma utf8_ascii_inv t s : points t -> ascii_only s -> utf8_encode t = s -> t = codes s.
Proof.
  intros Ht. revert s. induction Ht as [|n t Hn Ht IH]; intros s Hs E; [by subst s|].
  cbn in E. destruct (utf8_lead n Hn) as (a & r & Ea & Ha). rewrite Ea, app_cons in E. subst s. destruct Hs as [Ha' Hs].
  destruct Ha as [(H1 & -> & H2)|[H1 H2]]; [|lia]. cbn [codes]. rewrite H2. f_equal. by apply IH.
Qed.
Lemma ascii_only_hex k n : ascii_only (hex_string k n).
Proof.
  induction k as [|k IH]; [done|]. cbn [hex_string ascii_only]. split; [|done].
  set (d := (n / 16 ^ N.of_nat k) mod 16). assert (d < 16) by (apply N.mod_lt; lia). unfold hex_digit.
  destruct (d <? 10) eqn:E; [apply N.ltb_lt in E|apply N.ltb_ge in E]; rewrite byte_code by lia; lia.
Qed.
Lemma ascii_only_addr a : ascii_only (addr_to_string a).
Proof. destruct a; cbn [addr_to_string ascii_only]; (split; [vm_compute; done|]; split; [vm_compute; done|]; apply ascii_only_hex). Qed.

(* ---------- white space ---------- *)
Lemma is_ws_iff c : is_ws c = true <-> c = 32 \/ c = 9 \/ c = 10 \/ c = 13.
Proof. unfold is_ws. rewrite !orb_true_iff, !N.eqb_eq. tauto. Qed.
Definition starts (t : text) : Prop := match t with c :: _ => is_ws c = false | [] => True end.
Lemma skip_ws_starts t : starts t -> skip_ws t = t.
Proof. destruct t as [|c t]; [done|]. cbn. by intros ->. Qed.
Lemma skip_ws_app w t : ws w -> starts t -> skip_ws (w ++ t) = t.
Proof.
  intros Hw Ht. induction Hw as [|c w Hc Hw IH]; [by apply skip_ws_starts|].
  cbn. by rewrite (proj2 (is_ws_iff c) Hc).
Qed.
Lemma skip_ws_spec t : exists w, ws w /\ t = w ++ skip_ws t /\ starts (skip_ws t).
Proof.
  induction t as [|c t (w & Hw & E & S)]; [by exists []; repeat constructor|]. cbn.
  destruct (is_ws c) eqn:Hc.
  - exists (c :: w). split; [by constructor; [apply is_ws_iff|]|]. split; [|done]. cbn. by rewrite <- E.
  - exists []. split; [constructor|]. done.
Qed.
Lemma skip_ws_ws w : ws w -> skip_ws w = [].
Proof. intros H. rewrite <- (app_nil_r w) at 1. by apply skip_ws_app. Qed.

(* ---------- strings ---------- *)
Lemma hexv_iff c v : hexv c = Some v <-> hexdigit c v.
Proof.
  unfold hexv, hexdigit.
  destruct (48 <=? c) eqn:E1; [apply N.leb_le in E1|apply N.leb_gt in E1];
  (destruct (c <=? 57) eqn:E2; [apply N.leb_le in E2|apply N.leb_gt in E2]);
  (destruct (97 <=? c) eqn:E3; [apply N.leb_le in E3|apply N.leb_gt in E3]);
  (destruct (c <=? 102) eqn:E4; [apply N.leb_le in E4|apply N.leb_gt in E4]);
  (destruct (65 <=? c) eqn:E5; [apply N.leb_le in E5|apply N.leb_gt in E5]);
  (destruct (c <=? 70) eqn:E6; [apply N.leb_le in E6|apply N.leb_gt in E6]); cbn [andb];
  (split; [intros [= <-]; lia|intros H; first [f_equal; lia|exfalso; lia]]).
Qed.
Lemma hex4_iff a b c d u : hex4 a b c d = Some u <-> hexquad [a; b; c; d] u.
Proof.
  unfold hex4. split.
  - destruct (hexv a) as [va|] eqn:Ea; [|done]. destruct (hexv b) as [vb|] eqn:Eb; [|done].
    destruct (hexv c) as [vc|] eqn:Ec; [|done]. destruct (hexv d) as [vd|] eqn:Ed; [|done].
    apply hexv_iff in Ea, Eb, Ec, Ed. intros [= <-].
    replace (((va * 16 + vb) * 16 + vc) * 16 + vd) with (va * 4096 + vb * 256 + vc * 16 + vd) by lia. by constructor.
  - inversion 1 as [? ? ? ? va vb vc vd Ha Hb Hc Hd]; subst. apply hexv_iff in Ha, Hb, Hc, Hd. rewrite Ha, Hb, Hc, Hd. f_equal. lia.
Qed.
Lemma hexquad_length q u : hexquad q u -> exists a b c d, q = [a; b; c; d].
Proof. inversion 1; subst. eauto. Qed.
Lemma hexquad_bound q u : hexquad q u -> u < 0x10000.
Proof. inversion 1 as [? ? ? ? va vb vc vd Ha Hb Hc Hd]; subst. unfold hexdigit in *. lia. Qed.
Lemma high_iff u : high u = true <-> high_surrogate u.
Proof. unfold high, high_surrogate. rewrite andb_true_iff, N.leb_le, N.ltb_lt. lia. Qed.
Lemma low_iff u : low u = true <-> low_surrogate u.
Proof. unfold low, low_surrogate. rewrite andb_true_iff, N.leb_le, N.ltb_lt. lia. Qed.
Lemma escape_iff e c : escape e = Some c <-> (e, c) ∈ escapes.
Proof.
  unfold escape, escapes. split.
  - intros H. repeat match type of H with
    | (if ?a =? ?b then _ else _) = _ => destruct (N.eqb_spec a b) as [->|?]; [injection H as <-; set_solver|]
    end. done.
  - rewrite !elem_of_cons, elem_of_nil. intros H.
    repeat (destruct H as [[= -> ->]|H]; [reflexivity|]). done.
Qed.

Lemma scan_string_complete v t r : stext v t -> scan_string (t ++ 34 :: r) = Some (v, r).
Proof.
  intros H. induction H as [|c v t H1 H2 H3 Ht IH|e c v t He Ht IH|q u v t Hq Hn Ht IH|q u q' u' v t Hq Hu Hq' Hu' Ht IH].
  - done.
  - cbn [app scan_string]. rewrite (proj2 (N.eqb_neq c 34)), (proj2 (N.eqb_neq c 92)), (proj2 (N.ltb_ge c 32)) by lia.
    by rewrite IH.
  - cbn [app scan_string]. change (92 =? 34) with false. change (92 =? 92) with true. cbn iota.
    destruct (N.eqb_spec e 117) as [->|_].
    { exfalso. unfold escapes in He. rewrite !elem_of_cons, elem_of_nil in He. naive_solver. }
    apply escape_iff in He. rewrite He. by rewrite IH.
  - destruct (hexquad_length _ _ Hq) as (a & b & c & d & ->). cbn [app].
    cbn [scan_string]. change (92 =? 34) with false. change (92 =? 92) with true. change (117 =? 117) with true. cbn iota.
    apply hex4_iff in Hq as Hq4. rewrite Hq4. destruct (high u) eqn:Hh; [|by rewrite IH].
    assert (push u (scan_string (t ++ 34 :: r)) = Some (u :: v, r)) as Hp by by rewrite IH.
    destruct (t ++ 34 :: r) as [|x [|y [|k1 [|k2 [|k3 [|k4 s4]]]]]] eqn:Et; try exact Hp.
    destruct (N.eqb_spec x 92) as [->|Hx]; [|exact Hp]. destruct (N.eqb_spec y 117) as [->|Hy]; [|exact Hp]. cbn [andb].
    inversion Ht as [E1 E2|c0 v0 t0 G1 G2 G3 G4 E1 E2|e0 c0 v0 t0 G1 G2 E1 E2|q0 u0 v0 t0 G1 G2 G3 E1 E2|q0 u0 q0' u0' v0 t0 G1 G2 G3 G4 G5 E1 E2]; subst.
    + done.
    + injection Et as -> _. done.
    + injection Et as -> _. exfalso. unfold escapes in G1. rewrite !elem_of_cons, elem_of_nil in G1. naive_solver.
    + destruct (hexquad_length _ _ G1) as (a0 & b0 & c0 & d0 & ->). cbn [app] in Et. injection Et as -> -> -> -> _.
      apply hex4_iff in G1 as G1'. rewrite G1'. destruct (low u0) eqn:Hl; [|exact Hp].
      exfalso. apply Hn. split; [by apply high_iff|]. exists [k1; k2; k3; k4], u0, t0. split; [done|]. split; [done|by apply low_iff].
    + destruct (hexquad_length _ _ G1) as (a0 & b0 & c0 & d0 & ->). cbn [app] in Et. injection Et as -> -> -> -> _.
      apply hex4_iff in G1 as G1'. rewrite G1'. destruct (low u0) eqn:Hl; [|exact Hp].
      exfalso. apply low_iff in Hl. unfold high_surrogate, low_surrogate in *. lia.
  - destruct (hexquad_length _ _ Hq) as (a & b & c & d & ->). destruct (hexquad_length _ _ Hq') as (a' & b' & c' & d' & ->). cbn [app].
    cbn [scan_string]. change (92 =? 34) with false. change (92 =? 92) with true. change (117 =? 117) with true. cbn [andb]. cbn iota.
    apply hex4_iff in Hq, Hq'. rewrite Hq, Hq'. apply high_iff in Hu. apply low_iff in Hu'. rewrite Hu, Hu'. by rewrite IH.
Qed.

Lemma push_Some c x v r : push c x = Some (v, r) -> exists v', x = Some (v', r) /\ v = c :: v'.
Proof. destruct x as [[v' r']|]; [|done]. intros [= <- <-]. eauto. Qed.

Lemma scan_string_sound s v r : scan_string s = Some (v, r) -> exists t, s = t ++ 34 :: r /\ stext v t.
Proof.
  remember (List.length s) as k eqn:Hk. revert s v r Hk. induction (lt_wf k) as [k _ IH]. intros s v r ->.
  assert (forall s', (List.length s' < List.length s)%nat -> forall c v, push c (scan_string s') = Some (v, r) ->
    exists v' t, v = c :: v' /\ s' = t ++ 34 :: r /\ stext v' t) as P.
  { intros s' Hs' c v0 H. apply push_Some in H as (v' & H & ->). apply (IH _ Hs' _ _ _ eq_refl) in H as (t & -> & Ht). eauto. }
  destruct s as [|c s1]; [done|]. cbn [scan_string].
  destruct (N.eqb_spec c 34) as [->|N34]. { intros [= <- <-]. exists []. split; [done|constructor]. }
  destruct (N.eqb_spec c 92) as [->|N92].
  2: { destruct (N.ltb_spec c 32); [done|]. intros H'. apply P in H' as (v' & t & -> & -> & Ht); [|cbn; lia].
       exists (c :: t). split; [done|]. by constructor. }
  destruct s1 as [|e s2]; [done|]. destruct (N.eqb_spec e 117) as [->|N117].
  2: { destruct (escape e) as [c|] eqn:He; [|done]. intros H'. apply P in H' as (v' & t & -> & -> & Ht); [|cbn; lia].
       exists (92 :: e :: t). split; [done|]. constructor; [by apply escape_iff|done]. }
  destruct s2 as [|h1 [|h2 [|h3 [|h4 s3]]]]; try done.
  destruct (hex4 h1 h2 h3 h4) as [u|] eqn:Hq; [|done]. apply hex4_iff in Hq.
  assert (push u (scan_string s3) = Some (v, r) ->
          ~ (high_surrogate u /\ exists q' u' t', s3 = 92 :: 117 :: q' ++ t' /\ hexquad q' u' /\ low_surrogate u') ->
          exists t, 92 :: 117 :: h1 :: h2 :: h3 :: h4 :: s3 = t ++ 34 :: r /\ stext v t) as One.
  { intros H' Hn. apply P in H' as (v' & t & -> & -> & Ht); [|cbn; lia].
    exists (92 :: 117 :: [h1; h2; h3; h4] ++ t). split; [done|]. apply stext_unicode; [done| |done].
    intros [Hh (q' & u' & t' & -> & Hq' & Hl)]. apply Hn. split; [done|]. exists q', u', (t' ++ 34 :: r). split; [|done].
    cbn. by rewrite <- app_assoc. }
  destruct (high u) eqn:Hh.
  2: { intros H'. apply One; [done|]. intros [Hh' _]. apply high_iff in Hh'. congruence. }
  assert (forall q' u' t', s3 = 92 :: 117 :: q' ++ t' -> hexquad q' u' -> exists k1 k2 k3 k4, q' = [k1; k2; k3; k4] /\ s3 = 92 :: 117 :: k1 :: k2 :: k3 :: k4 :: t') as Q.
  { intros q' u' t' -> Hq'. destruct (hexquad_length _ _ Hq') as (k1 & k2 & k3 & k4 & ->). eauto 10. }
  destruct s3 as [|x [|y [|k1 [|k2 [|k3 [|k4 s4]]]]]];
    try (intros H'; apply One; [done|]; intros [_ (q' & u' & t' & E & Hq' & _)]; destruct (Q _ _ _ E Hq') as (? & ? & ? & ? & ? & ?); discriminate).
  destruct (N.eqb_spec x 92) as [->|Nx].
  2: { cbn [andb]. intros H'. apply One; [done|]. intros [_ (q' & u' & t' & E & Hq' & _)]. injection E as -> _. done. }
  destruct (N.eqb_spec y 117) as [->|Ny]; cbn [andb].
  2: { intros H'. apply One; [done|]. intros [_ (q' & u' & t' & E & Hq' & _)]. injection E as -> _. done. }
  destruct (hex4 k1 k2 k3 k4) as [u'|] eqn:Hq'; [|done]. apply hex4_iff in Hq'. destruct (low u') eqn:Hl.
  - intros H'. apply P in H' as (v' & t & -> & -> & Ht); [|cbn; lia].
    exists (92 :: 117 :: [h1; h2; h3; h4] ++ 92 :: 117 :: [k1; k2; k3; k4] ++ t). split; [done|].
    apply stext_pair; [done|by apply high_iff|done|by apply low_iff|done].
  - intros H'. apply One; [done|]. intros [_ (q' & u2 & t' & E & Hq2 & Hl2)].
    destruct (Q _ _ _ E Hq2) as (j1 & j2 & j3 & j4 & -> & E'). injection E' as -> -> -> -> ->.
    apply hex4_iff in Hq', Hq2. rewrite Hq' in Hq2. injection Hq2 as ->. apply low_iff in Hl2. congruence.
Qed.
