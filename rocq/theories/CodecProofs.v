From Coq Require Import String Ascii Lia.
From stdpp Require Import base countable list numbers strings.
From Verif Require Import Res Codec.
Local Open Scope N_scope.

Lemma hex_value_digit d : d < 16 -> hex_value (hex_digit d) = Some d.
Proof.
  intros H.
  assert (d = 0 \/ d = 1 \/ d = 2 \/ d = 3 \/ d = 4 \/ d = 5 \/ d = 6 \/ d = 7 \/ d = 8 \/ d = 9
          \/ d = 10 \/ d = 11 \/ d = 12 \/ d = 13 \/ d = 14 \/ d = 15) as C by lia.
  repeat destruct C as [-> | C]; try reflexivity. subst; reflexivity.
Qed.

Lemma hex_value_Some c d : hex_value c = Some d -> d < 16 /\ c = hex_digit d.
Proof.
  destruct c as [[] [] [] [] [] [] [] []]; intros H; vm_compute in H; try discriminate H;
    injection H as <-; (split; [vm_compute; reflexivity|vm_compute; reflexivity]).
Qed.

Lemma hex_string_length k n : String.length (hex_string k n) = k.
Proof. induction k; cbn; congruence. Qed.

Lemma hex_parse_string k : forall n acc, n < 16 ^ N.of_nat k ->
  hex_parse (hex_string k n) acc = Some (acc * 16 ^ N.of_nat k + n).
Proof.
  induction k as [|k IH]; intros n acc Hn.
  - cbn in *. f_equal. lia.
  - cbn [hex_string hex_parse]. rewrite hex_value_digit by (apply N.mod_lt; lia).
    replace (hex_string k n) with (hex_string k (n mod 16 ^ N.of_nat k)).
    + rewrite IH by (apply N.mod_lt; apply N.pow_nonzero; lia).
      rewrite Nat2N.inj_succ, N.pow_succ_r' in *.
      assert (n / 16 ^ N.of_nat k < 16) by (apply N.div_lt_upper_bound; [apply N.pow_nonzero; lia|lia]).
      rewrite (N.mod_small (n / _) 16) by done.
      pose proof (N.div_mod n (16 ^ N.of_nat k) ltac:(apply N.pow_nonzero; lia)).
      f_equal. nia.
    + clear. assert (forall j m, (j <= k)%nat -> hex_string j (m mod 16 ^ N.of_nat k) = hex_string j m) as A; [|by apply A].
      induction j as [|j IH]; intros m Hj; [done|]. cbn [hex_string]. rewrite IH by lia. f_equal. f_equal.
      replace (N.of_nat k) with (N.of_nat j + 1 + N.of_nat (k - S j)) by lia.
      set (r := N.of_nat (k - S j)). rewrite !N.pow_add_r, N.pow_1_r.
      set (p := 16 ^ N.of_nat j). assert (p <> 0) by (apply N.pow_nonzero; lia).
      assert (16 ^ r <> 0) by (apply N.pow_nonzero; lia).
      rewrite <- N.mul_assoc, N.mod_mul_r by lia.
      rewrite (N.mul_comm p), N.div_add by done.
      rewrite (N.div_small (m mod p)) by (apply N.mod_lt; done). rewrite N.add_0_l.
      rewrite N.mod_mul_r by lia. rewrite (N.mul_comm 16), N.mod_add by lia.
      apply N.mod_mod; lia.
Qed.

Lemma hex_parse_inv s : forall acc n, hex_parse s acc = Some n ->
  exists m, m < 16 ^ N.of_nat (String.length s) /\ n = acc * 16 ^ N.of_nat (String.length s) + m
            /\ s = hex_string (String.length s) m.
Proof.
  induction s as [|c s IH]; intros acc n; cbn [hex_parse String.length].
  - intros [= <-]. exists 0. cbn. repeat split; lia.
  - destruct (hex_value c) as [d|] eqn:Hc; [|done]. intros H.
    apply IH in H as (m & Hm & -> & Hs). apply hex_value_Some in Hc as [Hd ->].
    set (k := String.length s) in *.
    assert (16 ^ N.of_nat k <> 0) by (apply N.pow_nonzero; lia).
    exists (d * 16 ^ N.of_nat k + m). rewrite Nat2N.inj_succ, N.pow_succ_r'.
    split; [nia|]. split; [lia|]. cbn [hex_string]. f_equal.
    + f_equal. rewrite N.div_add_l by done. rewrite (N.div_small m) by done.
      rewrite N.add_0_r, N.mod_small by done. done.
    + rewrite Hs. clear - Hm.
      assert (forall j, (j <= k)%nat -> hex_string j m = hex_string j (d * 16 ^ N.of_nat k + m)) as A; [|by apply A].
      induction j as [|j IH]; intros Hj; [done|]. cbn [hex_string]. rewrite IH by lia. f_equal. f_equal.
      replace (N.of_nat k) with (N.of_nat (k - S j) + 1 + N.of_nat j) by lia.
      rewrite !N.pow_add_r, N.pow_1_r, !N.mul_assoc.
      assert (16 ^ N.of_nat j <> 0) by (apply N.pow_nonzero; lia).
      rewrite N.div_add_l by done. rewrite N.add_comm, N.mod_add by lia. done.
Qed.

(* the text of an address determines it, and only such texts are accepted *)
Lemma addr_from_string_iff s a : addr_from_string s = Some a <-> s = addr_to_string a /\ addr_ok a.
Proof.
  split.
  - destruct s as [|p [|x b]]; try done. cbn -[hex_parse String.length].
    destruct (bool_decide (x = "x"%char)) eqn:Hx; [|done]. apply bool_decide_eq_true in Hx as ->.
    destruct (bool_decide (String.length b = 40%nat)) eqn:Hl; [|done]. apply bool_decide_eq_true in Hl.
    cbn -[hex_parse String.length].
    destruct (hex_parse b 0) as [n|] eqn:Hn; [|done].
    apply hex_parse_inv in Hn as (m & Hm & Hn & Hb). rewrite Hl in *. rewrite N.mul_0_l, N.add_0_l in Hn. subst m.
    assert (n < 2 ^ 160) by (change (2 ^ 160) with (16 ^ N.of_nat 40); done).
    case_bool_decide as Hp; [intros [= <-]; subst p; split; [by rewrite Hb|done]|].
    case_bool_decide as Hp2; [intros [= <-]; subst p; split; [by rewrite Hb|done]|done].
  - intros [-> Ha].
    assert (hex_parse (hex_string 40 (body a)) 0 = Some (body a)) as Hp.
    { rewrite hex_parse_string; [f_equal; lia|]. change (16 ^ N.of_nat 40) with (2 ^ 160). done. }
    destruct a as [n|n]; cbn [addr_to_string addr_from_string body] in *;
      rewrite hex_string_length, Hp; reflexivity.
Qed.

Lemma addr_text_roundtrip a : addr_ok a -> addr_from_string (addr_to_string a) = Some a.
Proof. intros. by apply addr_from_string_iff. Qed.

(* a byte that neither is white space nor starts a white space character *)
Definition plain (c : ascii) : bool :=
  negb (space1 c) && negb (bool_decide (c = "194"%char)) && negb (bool_decide (c = "225"%char))
  && negb (bool_decide (c = "226"%char)) && negb (bool_decide (c = "227"%char)).
Lemma hex_digit_nospace d : d < 16 -> plain (hex_digit d) = true /\ hex_digit d <> ","%char.
Proof.
  intros H.
  assert (d = 0 \/ d = 1 \/ d = 2 \/ d = 3 \/ d = 4 \/ d = 5 \/ d = 6 \/ d = 7 \/ d = 8 \/ d = 9
          \/ d = 10 \/ d = 11 \/ d = 12 \/ d = 13 \/ d = 14 \/ d = 15) as C by lia.
  repeat destruct C as [-> | C]; try (split; [reflexivity|discriminate]). subst; split; [reflexivity|discriminate].
Qed.

Fixpoint no_space (s : string) : Prop :=
  match s with EmptyString => True | String c s' => plain c = true /\ no_space s' end.

Lemma no_space_hex k n : no_space (hex_string k n).
Proof. induction k; cbn; [done|]. split; [|done]. apply hex_digit_nospace, N.mod_lt; lia. Qed.
Lemma no_comma_hex k n : no_comma (hex_string k n).
Proof. induction k; cbn; [done|]. split; [|done]. apply hex_digit_nospace, N.mod_lt; lia. Qed.
Lemma no_space_addr a : no_space (addr_to_string a).
Proof. destruct a; cbn -[hex_string]; (split; [done|]; split; [done|]; apply no_space_hex). Qed.
Lemma no_comma_addr a : no_comma (addr_to_string a).
Proof. destruct a; cbn -[hex_string]; (split; [done|]; split; [done|]; apply no_comma_hex). Qed.

Lemma app_cons c (s t : string) : (String c s ++ t)%string = String c (s ++ t).
Proof. done. Qed.
Lemma app_nil_l' (t : string) : (EmptyString ++ t)%string = t.
Proof. done. Qed.
Lemma app_assoc' (r s t : string) : ((r ++ s) ++ t = r ++ (s ++ t))%string.
Proof. induction r as [|c r IH]; [done|]. by rewrite !app_cons, IH. Qed.
Lemma app_nil_r' (s : string) : (s ++ EmptyString)%string = s.
Proof. induction s as [|c s IH]; [done|]. by rewrite app_cons, IH. Qed.

Lemma lstrip_white n s : n ∈ white -> lstrip (utf8_bmp n ++ s)%string = lstrip s.
Proof.
  unfold white. rewrite !elem_of_cons, elem_of_nil. intros H.
  repeat (destruct H as [-> | H]; [reflexivity|]). done.
Qed.
Lemma lstrip_pre p s : all_space p -> lstrip (p ++ s)%string = lstrip s.
Proof. induction 1 as [|n p Hn Hp IH]; [done|]. by rewrite app_assoc', lstrip_white, IH. Qed.
Lemma lstrip_plain c s : plain c = true -> lstrip (String c s) = String c s.
Proof.
  unfold plain. rewrite !andb_true_iff, !negb_true_iff, !bool_decide_eq_false. intros ((((H1 & H2) & H3) & H4) & H5).
  cbn [lstrip]. rewrite H1. destruct s as [|b s]; [done|].
  unfold space2, space3. rewrite !(bool_decide_eq_false_2 (c = _)) by done. cbn. by destruct s.
Qed.
Lemma rstrip_all p : all_space p -> rstrip p = EmptyString.
Proof.
  intros H. destruct p as [|c p]; [done|]. cbn [rstrip]. unfold blank.
  rewrite bool_decide_eq_true_2; [done|]. rewrite <- (app_nil_r' (String c p)). by rewrite lstrip_pre.
Qed.
Lemma rstrip_post s p : no_space s -> all_space p -> rstrip (s ++ p)%string = s.
Proof.
  induction s as [|c s IH]; [by intros; apply rstrip_all|]. intros [Hc Hs] Hp.
  rewrite app_cons. cbn [rstrip]. unfold blank. rewrite lstrip_plain by done. cbn. by rewrite IH.
Qed.
Lemma strip_entry e : entry_ok e -> strip (entry_text e) = addr_to_string (e_addr e).
Proof.
  intros (H1 & H2 & H3). unfold strip, entry_text. rewrite lstrip_pre by done.
  assert (lstrip (addr_to_string (e_addr e) ++ e_post e)%string = (addr_to_string (e_addr e) ++ e_post e)%string) as ->.
  { by destruct (e_addr e). }
  apply rstrip_post; [apply no_space_addr|done].
Qed.

Lemma no_comma_app s t : no_comma s -> no_comma t -> no_comma (s ++ t)%string.
Proof. induction s as [|c s IH]; [done|]. intros [] ?. change (String c s ++ t)%string with (String c (s ++ t)). split; [done|auto]. Qed.
Lemma no_comma_space s : all_space s -> no_comma s.
Proof.
  induction 1 as [|n s Hn Hs IH]; [done|]. apply no_comma_app; [|done].
  unfold white in Hn. rewrite !elem_of_cons, elem_of_nil in Hn.
  repeat (destruct Hn as [-> | Hn]; [by vm_compute; repeat split|]). done.
Qed.
Lemma no_comma_entry e : entry_ok e -> no_comma (entry_text e).
Proof.
  intros (? & ? & ?). apply no_comma_app; [by apply no_comma_space|].
  apply no_comma_app; [apply no_comma_addr|by apply no_comma_space].
Qed.
Lemma split_no_comma s : no_comma s -> split_comma s = [s].
Proof. induction s as [|c s IH]; cbn; [done|]. intros [Hc Hs]. rewrite bool_decide_eq_false_2 by done. by rewrite IH. Qed.
Lemma split_app s t : no_comma s -> split_comma (s ++ String "," t)%string = s :: split_comma t.
Proof.
  induction s as [|c s IH]; [done|]. intros [Hc Hs].
  change (String c s ++ String "," t)%string with (String c (s ++ String "," t)). cbn [split_comma].
  rewrite bool_decide_eq_false_2 by done. by rewrite IH.
Qed.
Lemma split_join l : l <> [] -> Forall no_comma l -> split_comma (join_comma l) = l.
Proof.
  induction l as [|s [|t l] IH]; [done| |].
  - intros _ H. inversion H; subst. by apply split_no_comma.
  - intros _ H. inversion H as [|? ? Hs Hl]; subst.
    change (join_comma (s :: t :: l)) with (s ++ String "," (join_comma (t :: l)))%string.
    rewrite split_app by done. by rewrite IH.
Qed.
Lemma join_split s : join_comma (split_comma s) = s.
Proof.
  induction s as [|c s IH]; [done|]. cbn. case_bool_decide as H.
  - subst. destruct (split_comma s) as [|x l] eqn:E; [by destruct s; cbn in E; repeat case_match|].
    cbn in *. by rewrite IH.
  - destruct (split_comma s) as [|x l]; [by cbn in *; subst s|]. cbn in *. destruct l; by rewrite <- IH.
Qed.
Lemma split_nonempty s : split_comma s <> [].
Proof. destruct s; cbn; [done|]. repeat case_match; done. Qed.
Lemma split_Forall_no_comma s : Forall no_comma (split_comma s).
Proof.
  induction s as [|c s IH]; [by repeat constructor|]. cbn. case_bool_decide; [by constructor|].
  destruct (split_comma s); [by repeat constructor|]. inversion IH; subst. by repeat constructor.
Qed.

(* C44: parsing the documented text gives the addresses back *)
Lemma convert_path_join (l : list entry) :
  l <> [] -> Forall entry_ok l ->
  convert_path (join_comma (map entry_text l)) = Some (map e_addr l).
Proof.
  intros Hne Hl. unfold convert_path. rewrite split_join.
  - clear Hne. induction Hl as [|e l He Hl IH]; [done|]. cbn. rewrite strip_entry by done.
    destruct He as (? & ? & ?). rewrite addr_text_roundtrip by done. cbn. by rewrite IH.
  - by destruct l.
  - clear Hne. induction Hl; cbn; constructor; [by apply no_comma_entry|done].
Qed.

(* lstrip/rstrip only remove white space *)
Lemma white_in n : bool_decide (n ∈ white) = true -> n ∈ white.
Proof. apply bool_decide_eq_true. Qed.
Lemma space1_white a : space1 a = true -> exists n, n ∈ white /\ String a EmptyString = utf8_bmp n.
Proof.
  intros H. exists (N_of_ascii a). revert H.
  destruct a as [[] [] [] [] [] [] [] []]; intros H; try (vm_compute in H; discriminate H);
    (split; [apply white_in; vm_compute; reflexivity|vm_compute; reflexivity]).
Qed.
Lemma space2_white a b : space2 a b = true -> exists n, n ∈ white /\ String a (String b EmptyString) = utf8_bmp n.
Proof.
  unfold space2. rewrite andb_true_iff, orb_true_iff, !bool_decide_eq_true. intros [-> [-> | ->]].
  - exists 0x85. split; [apply white_in; vm_compute; reflexivity|reflexivity].
  - exists 0xA0. split; [apply white_in; vm_compute; reflexivity|reflexivity].
Qed.
Lemma space3_white a b c : space3 a b c = true ->
  exists n, n ∈ white /\ String a (String b (String c EmptyString)) = utf8_bmp n.
Proof.
  unfold space3. rewrite !orb_true_iff, !andb_true_iff, !orb_true_iff, !andb_true_iff, !bool_decide_eq_true, !N.leb_le.
  intros [[[[[-> ->] ->] | [[-> ->] H]] | [[-> ->] ->]] | [[-> ->] ->]].
  - exists 0x1680. split; [apply white_in; vm_compute; reflexivity|reflexivity].
  - exists (0x2000 + (N_of_ascii c - 128)).
    destruct H as [[[H | ->] | ->] | ->];
      [|split; [apply white_in; vm_compute; reflexivity|reflexivity]..].
    assert (((128 <=? N_of_ascii c) && (N_of_ascii c <=? 138)) = true) as Hc by (rewrite andb_true_iff, !N.leb_le; exact H).
    clear H. destruct c as [[] [] [] [] [] [] [] []]; try (vm_compute in Hc; discriminate Hc);
      (split; [apply white_in; vm_compute; reflexivity|vm_compute; reflexivity]).
  - exists 0x205F. split; [apply white_in; vm_compute; reflexivity|reflexivity].
  - exists 0x3000. split; [apply white_in; vm_compute; reflexivity|reflexivity].
Qed.
Lemma lstrip_spec s : exists p, all_space p /\ s = (p ++ lstrip s)%string.
Proof.
  remember (String.length s) as k eqn:Hk. revert s Hk. induction (lt_wf k) as [k _ IH]. intros s ->.
  destruct s as [|a s]; [exists EmptyString; split; [constructor|done]|].
  cbn [lstrip]. destruct (space1 a) eqn:Ha.
  { destruct (IH (String.length s) ltac:(cbn; lia) s eq_refl) as (p & Hp & E).
    destruct (space1_white _ Ha) as (n & Hn & En). exists (utf8_bmp n ++ p)%string. split; [by constructor|].
    by rewrite <- En, app_assoc', <- E. }
  destruct s as [|b s]; [exists EmptyString; split; [constructor|done]|].
  destruct (space2 a b) eqn:Hb.
  { destruct (IH (String.length s) ltac:(cbn; lia) s eq_refl) as (p & Hp & E).
    destruct (space2_white _ _ Hb) as (n & Hn & En). exists (utf8_bmp n ++ p)%string. split; [by constructor|].
    by rewrite <- En, app_assoc', <- E. }
  destruct s as [|c s]; [exists EmptyString; split; [constructor|done]|].
  destruct (space3 a b c) eqn:Hc.
  { destruct (IH (String.length s) ltac:(cbn; lia) s eq_refl) as (p & Hp & E).
    destruct (space3_white _ _ _ Hc) as (n & Hn & En). exists (utf8_bmp n ++ p)%string. split; [by constructor|].
    by rewrite <- En, app_assoc', <- E. }
  exists EmptyString; split; [constructor|done].
Qed.
Lemma rstrip_spec s : exists p, all_space p /\ s = (rstrip s ++ p)%string.
Proof.
  induction s as [|c s (p & Hp & Hs)]; [exists EmptyString; split; [constructor|done]|]. cbn [rstrip].
  destruct (blank (String c s)) eqn:Hb.
  - unfold blank in Hb. apply bool_decide_eq_true in Hb. destruct (lstrip_spec (String c s)) as (q & Hq & E).
    rewrite Hb, app_nil_r' in E. subst q. by exists (String c s).
  - exists p. split; [done|]. by rewrite app_cons, <- Hs.
Qed.
Lemma strip_spec s : exists p q, all_space p /\ all_space q /\ s = (p ++ strip s ++ q)%string.
Proof.
  destruct (lstrip_spec s) as (p & Hp & E1). destruct (rstrip_spec (lstrip s)) as (q & Hq & E2).
  exists p, q. split; [done|]. split; [done|]. unfold strip. by rewrite <- E2.
Qed.

(* C44: and nothing else is accepted *)
Lemma convert_path_inv s path : convert_path s = Some path ->
  exists l, l <> [] /\ Forall entry_ok l /\ s = join_comma (map entry_text l) /\ path = map e_addr l.
Proof.
  unfold convert_path. intros H.
  cut (exists l, Forall entry_ok l /\ split_comma s = map entry_text l /\ path = map e_addr l).
  { intros (l & Hl & Hs & ->). exists l. split.
    - intros ->. by apply (split_nonempty s).
    - split; [done|]. split; [|done]. by rewrite <- Hs, join_split. }
  revert path H. generalize (split_comma s). clear s.
  induction l as [|x l IH]; intros path H.
  - cbn in H. inversion H; subst. by exists [].
  - cbn in H. destruct (addr_from_string (strip x)) as [a|] eqn:Ha; [|done]. cbn in H.
    destruct (mapM _ l) as [p|] eqn:Hp; [|done]. cbn in H. inversion H; subst path.
    destruct (IH _ eq_refl) as (es & Hes & -> & ->).
    apply addr_from_string_iff in Ha as [Ha Hok].
    destruct (strip_spec x) as (pre & post & Hpre & Hpost & Hx).
    exists (Entry pre a post :: es). split; [by repeat constructor|]. split; [|done].
    cbn. f_equal. unfold entry_text; cbn. by rewrite <- Ha.
Qed.

Lemma convert_path_ok s path : convert_path s = Some path -> Forall addr_ok path.
Proof.
  intros H. apply convert_path_inv in H as (l & _ & Hl & _ & ->).
  induction Hl as [|e l (? & ? & ?)]; by constructor.
Qed.
