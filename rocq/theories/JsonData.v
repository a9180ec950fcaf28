(* json.dumps, and what the contracts read from the bytes of a payload. *)
From Coq Require Import String Ascii Lia.
From stdpp Require Import base countable list numbers strings gmap.
From Verif Require Import Res Codec CodecProofs World WorldSpec JsonModel JsonSpec JsonProofs JsonScan.
Local Open Scope N_scope.
Local Open Scope list_scope.

(* ---------- decimal numbers ---------- *)
Lemma decimal_snoc t c : decimal (t ++ [c]) = decimal t * 10 + (c - 48).
Proof.
  induction t as [|x t IH]; cbn [app decimal List.length]; [change (N.of_nat 0) with 0; rewrite N.pow_0_r; lia|].
  rewrite IH, app_length. cbn [List.length]. rewrite Nat.add_1_r, Nat2N.inj_succ, N.pow_succ_r'. lia.
Qed.
Lemma dec_loop_spec f : forall n, n < 10 * 2 ^ N.of_nat f ->
  digits (dec_loop f n) /\ decimal (dec_loop f n) = n /\ (0 < n -> head (dec_loop f n) <> Some 48) /\ (n = 0 -> dec_loop f n = [48]).
Proof.
  assert (forall c, c < 10 -> digits [48 + c] /\ decimal [48 + c] = c /\ (0 < c -> head [48 + c] <> Some 48) /\ (c = 0 -> [48 + c] = [48])) as One.
  { intros c Hc. split; [split; [done|]; repeat constructor; lia|]. split; [cbn [decimal List.length]; change (N.of_nat 0) with 0; rewrite N.pow_0_r; lia|].
    split; [intros H [= E]; lia|by intros ->]. }
  induction f as [|f IH]; intros n Hn.
  - cbn [dec_loop]. change (N.of_nat 0) with 0 in Hn. rewrite N.pow_0_r in Hn. rewrite N.mod_small by lia. apply One. lia.
  - cbn [dec_loop]. destruct (N.ltb_spec n 10) as [H|H]; [by apply One|].
    rewrite Nat2N.inj_succ, N.pow_succ_r' in Hn.
    assert (n / 10 < 10 * 2 ^ N.of_nat f) as Hq by (apply N.div_lt_upper_bound; lia).
    destruct (IH _ Hq) as ([Hd0 Hd] & Hv & Hh & _).
    assert (n mod 10 < 10) by (apply N.mod_lt; lia).
    split; [split; [by intros [_ ?]%app_nil|]|].
    { apply Forall_app. split; [done|]. constructor; [ndiv|constructor]. }
    split; [rewrite decimal_snoc, Hv; ndiv|].
    split; [|lia]. intros _. assert (0 < n / 10) as Hp by (apply N.div_str_pos; lia). specialize (Hh Hp).
    destruct (dec_loop f (n / 10)); [done|]. cbn. exact Hh.
Qed.
Lemma dec_spec n : natural (dec n) /\ decimal (dec n) = n.
Proof.
  unfold dec. destruct (dec_loop_spec (N.to_nat (N.size n)) n) as (H1 & H2 & H3 & H4).
  { rewrite N2Nat.id. pose proof (N.size_gt n). lia. }
  split; [|done]. split; [done|]. destruct (N.eq_dec n 0) as [->|Hn]; [right; by apply H4|left; apply H3; lia].
Qed.
Lemma dump_int_renders z : renders (VInt z) (dump_int z).
Proof.
  unfold dump_int. destruct (dec_spec (Z.abs_N z)) as [H1 H2]. destruct (z <? 0)%Z eqn:E.
  - apply Z.ltb_lt in E. replace z with (- Z.of_N (decimal (dec (Z.abs_N z))))%Z at 1 by (rewrite H2; lia). by constructor.
  - apply Z.ltb_ge in E. replace z with (Z.of_N (decimal (dec (Z.abs_N z)))) at 1 by (rewrite H2; lia). by constructor.
Qed.

(* ---------- strings ---------- *)
Lemma hexc_digit d : d < 16 -> hexdigit (hexc d) d.
Proof. intros H. unfold hexc, hexdigit. destruct (N.ltb_spec d 10); lia. Qed.
Lemma u_escape_quad n : n < 0x10000 -> exists q, u_escape n = 92 :: 117 :: q /\ hexquad q n.
Proof.
  intros H. unfold u_escape. eexists. split; [reflexivity|].
  replace n with (n / 4096 mod 16 * 4096 + n / 256 mod 16 * 256 + n / 16 mod 16 * 16 + n mod 16) at 5 by ndiv.
  constructor; apply hexc_digit, N.mod_lt; lia.
Qed.
Lemma dump_chars_text s : Forall scalar s -> stext s (dump_chars s).
Proof.
  induction 1 as [|n s Hn Hs IH]; [constructor|]. cbn [dump_chars]. unfold dump_char.
  assert (forall e c, (e, c) ∈ escapes -> stext (c :: s) ([92; e] ++ dump_chars s)) as Esc by (intros; by constructor).
  destruct (N.eqb_spec n 34) as [->|?]; [apply Esc; unfold escapes; set_solver|].
  destruct (N.eqb_spec n 92) as [->|?]; [apply Esc; unfold escapes; set_solver|].
  destruct (N.eqb_spec n 10) as [->|?]; [apply Esc; unfold escapes; set_solver|].
  destruct (N.eqb_spec n 13) as [->|?]; [apply Esc; unfold escapes; set_solver|].
  destruct (N.eqb_spec n 9) as [->|?]; [apply Esc; unfold escapes; set_solver|].
  destruct (N.eqb_spec n 12) as [->|?]; [apply Esc; unfold escapes; set_solver|].
  destruct (N.eqb_spec n 8) as [->|?]; [apply Esc; unfold escapes; set_solver|].
  destruct ((32 <=? n) && (n <=? 126)) eqn:E.
  { apply andb_true_iff in E as [E1 E2]. apply N.leb_le in E1, E2. by constructor. }
  unfold scalar in Hn. destruct (N.ltb_spec n 0x10000) as [H|H].
  - destruct (u_escape_quad n H) as (q & -> & Hq). change ((92 :: 117 :: q) ++ dump_chars s) with (92 :: 117 :: q ++ dump_chars s).
    constructor; [done| |done]. intros [[Hh1 Hh2] _]. lia.
  - set (m := n - 0x10000). assert (m < 1048576) by (unfold m; lia).
    destruct (u_escape_quad (0xD800 + m / 1024)) as (q & -> & Hq); [ndiv|].
    destruct (u_escape_quad (0xDC00 + m mod 1024)) as (q' & -> & Hq'); [ndiv|].
    replace n with (0x10000 + (0xD800 + m / 1024 - 0xD800) * 1024 + (0xDC00 + m mod 1024 - 0xDC00)) by (unfold m; ndiv).
    rewrite <- app_assoc. cbn [app]. constructor; [done| |done| |done].
    + unfold high_surrogate. ndiv.
    + unfold low_surrogate. ndiv.
Qed.

(* ---------- json.dumps is read back by json.loads ---------- *)
(* no floats; strings of scalar values *)
Inductive dumpable : jv -> Prop :=
| d_null : dumpable VNull
| d_bool b : dumpable (VBool b)
| d_int z : dumpable (VInt z)
| d_str s : Forall scalar s -> dumpable (VStr s)
| d_arr l : dumpables l -> dumpable (VArr l)
| d_obj l : dumpable_members l -> dumpable (VObj l)
with dumpables : list jv -> Prop :=
| ds_nil : dumpables []
| ds_cons v l : dumpable v -> dumpables l -> dumpables (v :: l)
with dumpable_members : list (text * jv) -> Prop :=
| dm_nil : dumpable_members []
| dm_cons k v l : Forall scalar k -> dumpable v -> dumpable_members l -> dumpable_members ((k, v) :: l).
Scheme dumpable_mind := Minimality for dumpable Sort Prop
with dumpables_mind := Minimality for dumpables Sort Prop
with dumpable_members_mind := Minimality for dumpable_members Sort Prop.
Combined Scheme dumpable_mutind from dumpable_mind, dumpables_mind, dumpable_members_mind.
Definition go_arr := fix go (l : list jv) : text :=
  match l with [] => [] | [v] => dumps v | v :: l' => dumps v ++ 44 :: 32 :: go l' end.
Definition go_obj := fix go (l : list (text * jv)) : text :=
  match l with
  | [] => []
  | [(k, v)] => 34 :: dump_chars k ++ [34; 58; 32] ++ dumps v
  | (k, v) :: l' => 34 :: dump_chars k ++ [34; 58; 32] ++ dumps v ++ 44 :: 32 :: go l'
  end.
Lemma ws_nil : ws []. Proof. constructor. Qed.
Lemma ws_space : ws [32]. Proof. repeat constructor. Qed.
Lemma dumps_renders_all :
  (forall v, dumpable v -> renders v (dumps v)) /\
  (forall l, dumpables l -> l <> [] -> relements l (go_arr l)) /\
  (forall l, dumpable_members l -> l <> [] -> rmembers l (go_obj l)).
Proof.
  apply dumpable_mutind.
  - apply r_null.
  - intros []; [apply r_true|apply r_false].
  - apply dump_int_renders.
  - intros s Hs. cbn [dumps]. constructor. by apply dump_chars_text.
  - intros l Hl IH. change (dumps (VArr l)) with (91 :: go_arr l ++ [93]). destruct l as [|v l].
    + apply (r_array0 []), ws_nil.
    + apply (r_array []); [apply ws_nil|by apply IH].
  - intros l Hl IH. change (dumps (VObj l)) with (123 :: go_obj l ++ [125]). destruct l as [|v l].
    + apply (r_object0 []), ws_nil.
    + apply (r_object []); [apply ws_nil|by apply IH].
  - done.
  - intros v l Hv IHv Hl IHl _. destruct l as [|v' l].
    + cbn [go_arr]. rewrite <- (app_nil_r (dumps v)). apply r_element; [done|apply ws_nil].
    + change (go_arr (v :: v' :: l)) with (dumps v ++ [] ++ 44 :: [32] ++ go_arr (v' :: l)).
      apply r_elements; [done|apply ws_nil|apply ws_space|by apply IHl].
  - done.
  - intros k v l Hk Hv IHv Hl IHl _. destruct l as [|kv l].
    + change (go_obj [(k, v)]) with (34 :: dump_chars k ++ 34 :: [] ++ 58 :: [32] ++ dumps v).
      rewrite <- (app_nil_r (dumps v)). apply r_member; [by apply dump_chars_text|apply ws_nil|apply ws_space|done|apply ws_nil].
    + change (go_obj ((k, v) :: kv :: l)) with (34 :: dump_chars k ++ 34 :: [] ++ 58 :: [32] ++ dumps v ++ [] ++ 44 :: [32] ++ go_obj (kv :: l)).
      apply r_members; [by apply dump_chars_text|apply ws_nil|apply ws_space|done|apply ws_nil|apply ws_space|by apply IHl].
Qed.
Lemma loads_dumps v : dumpable v -> loads (dumps v) = Some v.
Proof.
  intros H. apply loads_iff. exists [], (dumps v), []. split; [apply ws_nil|]. split; [by apply dumps_renders_all|].
  split; [apply ws_nil|]. by rewrite app_nil_r.
Qed.

(* the text written is ASCII *)
Lemma ascii_points s : ascii_only s -> points (codes s) /\ Forall scalar (codes s).
Proof.
  induction s as [|a s IH]; [split; constructor|]. intros [Ha Hs]. destruct (IH Hs).
  split; cbn [codes]; constructor; try done; [lia|left; lia].
Qed.
Definition plain_text (t : text) : Prop := Forall (fun c => c < 128) t.
Lemma plain_scalar t : plain_text t -> Forall scalar t.
Proof. intros H. eapply Forall_impl; [exact H|]. intros c Hc. left. cbn in Hc. lia. Qed.
Lemma dec_loop_plain f n : plain_text (dec_loop f n).
Proof.
  revert n. induction f as [|f IH]; intros n; cbn [dec_loop].
  - constructor; [ndiv|constructor].
  - destruct (N.ltb_spec n 10); [repeat constructor; lia|]. apply Forall_app. split; [apply IH|]. constructor; [ndiv|constructor].
Qed.
Lemma u_escape_plain n : plain_text (u_escape n).
Proof.
  unfold u_escape. assert (forall d, d < 16 -> hexc d < 128) as H by (intros d Hd; unfold hexc; destruct (d <? 10); lia).
  repeat constructor; apply H, N.mod_lt; lia.
Qed.
Lemma dump_char_plain n : plain_text (dump_char n).
Proof.
  unfold dump_char. repeat case_match; try (repeat constructor; lia); try apply u_escape_plain.
  - repeat constructor. apply andb_true_iff in H6 as [_ E]. apply N.leb_le in E. lia.
  - apply Forall_app. split; apply u_escape_plain.
Qed.
Lemma dump_chars_plain s : plain_text (dump_chars s).
Proof. induction s as [|c s IH]; [constructor|]. cbn. apply Forall_app. split; [apply dump_char_plain|done]. Qed.
Lemma plain_cons c t : c < 128 -> plain_text t -> plain_text (c :: t).
Proof. by constructor. Qed.
Lemma dumps_plain_all :
  (forall v, dumpable v -> plain_text (dumps v)) /\
  (forall l, dumpables l -> plain_text (go_arr l)) /\
  (forall l, dumpable_members l -> plain_text (go_obj l)).
Proof.
  apply dumpable_mutind.
  - repeat constructor.
  - intros []; repeat constructor.
  - intros z. cbn [dumps]. unfold dump_int. apply Forall_app. split; [destruct (z <? 0)%Z; repeat constructor|apply dec_loop_plain].
  - intros s _. cbn [dumps]. apply plain_cons; [lia|]. apply Forall_app. split; [apply dump_chars_plain|repeat constructor].
  - intros l _ IH. change (dumps (VArr l)) with (91 :: go_arr l ++ [93]). apply plain_cons; [lia|]. apply Forall_app. split; [done|repeat constructor].
  - intros l _ IH. change (dumps (VObj l)) with (123 :: go_obj l ++ [125]). apply plain_cons; [lia|]. apply Forall_app. split; [done|repeat constructor].
  - constructor.
  - intros v l _ IHv _ IHl. destruct l as [|v' l]; [done|].
    change (go_arr (v :: v' :: l)) with (dumps v ++ 44 :: 32 :: go_arr (v' :: l)). apply Forall_app. split; [done|].
    do 2 (apply plain_cons; [lia|]). done.
  - constructor.
  - intros k v l _ _ IHv _ IHl. destruct l as [|kv l].
    + change (go_obj [(k, v)]) with (34 :: dump_chars k ++ [34; 58; 32] ++ dumps v).
      apply plain_cons; [lia|]. apply Forall_app. split; [apply dump_chars_plain|]. apply Forall_app. split; [repeat constructor|done].
    + change (go_obj ((k, v) :: kv :: l)) with (34 :: dump_chars k ++ [34; 58; 32] ++ dumps v ++ 44 :: 32 :: go_obj (kv :: l)).
      apply plain_cons; [lia|]. apply Forall_app. split; [apply dump_chars_plain|]. apply Forall_app. split; [repeat constructor|].
      apply Forall_app. split; [done|]. do 2 (apply plain_cons; [lia|]). done.
Qed.

(* ---------- what the contracts read ---------- *)
Lemma scalar_point n : scalar n -> n < 0x110000.
Proof. unfold scalar. lia. Qed.
Lemma stext_points v t : stext v t -> Forall scalar t -> points v.
Proof.
  induction 1 as [|c v t H1 H2 H3 Ht IH|e c v t He Ht IH|q u v t Hq Hn Ht IH|q u q' u' v t Hq Hu Hq' Hu' Ht IH]; intros Hs.
  - constructor.
  - inversion Hs; subst. constructor; [by apply scalar_point|by apply IH].
  - inversion Hs as [|? ? _ Hs']; subst. inversion Hs'; subst. constructor; [|by apply IH].
    unfold escapes in He. rewrite !elem_of_cons, elem_of_nil in He. naive_solver lia.
  - inversion Hs as [|? ? _ Hs']; subst. inversion Hs' as [|? ? _ Hs2]; subst. apply Forall_app in Hs2 as [_ Hs2].
    constructor; [apply hexquad_bound in Hq; lia|by apply IH].
  - inversion Hs as [|? ? _ Hs']; subst. inversion Hs' as [|? ? _ Hs2]; subst. apply Forall_app in Hs2 as [_ Hs2].
    inversion Hs2 as [|? ? _ Hs3]; subst. inversion Hs3 as [|? ? _ Hs4]; subst. apply Forall_app in Hs4 as [_ Hs4].
    constructor; [unfold high_surrogate, low_surrogate in *; lia|by apply IH].
Qed.
Definition sane (kv : text * jv) : Prop := points (fst kv) /\ forall s, snd kv = VStr s -> points s.
Lemma renders_str_points s t : renders (VStr s) t -> Forall scalar t -> points s.
Proof.
  inversion 1; subst. intros Hs. inversion Hs as [|? ? _ Hs']; subst. apply Forall_app in Hs' as [Hs' _]. by eapply stext_points.
Qed.
Lemma rmembers_sane l t : rmembers l t -> Forall scalar t -> Forall sane l.
Proof.
  induction 1 as [k kt w1 w2 v t w Hk _ _ Hv _|k kt w1 w2 v t w w' l t' Hk _ _ Hv _ _ Hl IH]; intros Hs.
  - inversion Hs as [|? ? _ Hs']; subst. apply Forall_app in Hs' as [Hkt Hs2]. inversion Hs2 as [|? ? _ Hs3]; subst.
    apply Forall_app in Hs3 as [_ Hs3]. inversion Hs3 as [|? ? _ Hs4]; subst. apply Forall_app in Hs4 as [_ Hs4]. apply Forall_app in Hs4 as [Ht _].
    repeat constructor; cbn; [by eapply stext_points|]. intros s ->. by eapply renders_str_points.
  - inversion Hs as [|? ? _ Hs']; subst. apply Forall_app in Hs' as [Hkt Hs2]. inversion Hs2 as [|? ? _ Hs3]; subst.
    apply Forall_app in Hs3 as [_ Hs3]. inversion Hs3 as [|? ? _ Hs4]; subst. apply Forall_app in Hs4 as [_ Hs4]. apply Forall_app in Hs4 as [Ht Hs5].
    apply Forall_app in Hs5 as [_ Hs5]. inversion Hs5 as [|? ? _ Hs6]; subst. apply Forall_app in Hs6 as [_ Hs6].
    constructor; [|by apply IH]. split; cbn; [by eapply stext_points|]. intros s ->. by eapply renders_str_points.
Qed.
Lemma json_bytes_sane l b : json_bytes (VObj l) b -> Forall sane l.
Proof.
  intros (t & Ht & _ & w1 & t' & w2 & _ & Hr & _ & ->). apply Forall_app in Ht as [_ Ht]. apply Forall_app in Ht as [Ht _].
  inversion Hr; subst; [constructor|]. inversion Ht as [|? ? _ Hs]; subst. apply Forall_app in Hs as [_ Hs]. apply Forall_app in Hs as [Hs _].
  by eapply rmembers_sane.
Qed.
Lemma decode_data_json b l : json_bytes (VObj l) b -> decode_data b = DJson (obj_map l).
Proof.
  intros (t & Ht & -> & Hj). unfold decode_data. rewrite (proj2 (utf8_decode_iff _ t)) by done.
  by rewrite (proj2 (loads_iff _ _) Hj).
Qed.
Lemma decode_data_inv b m : decode_data b = DJson m -> exists l, json_bytes (VObj l) b /\ m = obj_map l.
Proof.
  unfold decode_data. destruct (utf8_decode b) as [t|] eqn:E; [|done]. apply utf8_decode_iff in E as [Ht ->].
  destruct (loads t) as [[| | | | | |l]|] eqn:El; try done. intros [= <-]. apply loads_iff in El. exists l. split; [|done].
  by exists t.
Qed.
Lemma decode_data_raw b s : decode_data b = DRaw s -> s = b.
Proof. unfold decode_data. repeat case_match; congruence. Qed.

Lemma obj_map_snoc l k v : obj_map (l ++ [(k, v)]) = <[utf8_encode k := to_json v]> (obj_map l).
Proof. unfold obj_map. by rewrite fold_left_app. Qed.
Lemma obj_map_has l key v : Forall sane l -> ascii_only key -> has l key v -> obj_map l !! key = Some (to_json v).
Proof.
  intros Hl Hk (l1 & l2 & -> & Hn). revert Hl Hn. induction l2 as [|[k' v'] l2 IH] using rev_ind; intros Hl Hn.
  - rewrite obj_map_snoc. rewrite utf8_codes by done. by rewrite lookup_insert.
  - rewrite map_app in Hn. rewrite app_comm_cons, app_assoc, obj_map_snoc.
    rewrite app_comm_cons, app_assoc in Hl. apply Forall_app in Hl as [Hl Hl']. inversion Hl' as [|? ? [Hp _] _]; subst.
    rewrite lookup_insert_ne; [apply IH; [done|]|].
    + intros H. apply Hn, elem_of_app. by left.
    + intros E. apply Hn, elem_of_app. right. apply elem_of_list_singleton. symmetry. by apply utf8_ascii_inv.
Qed.
Lemma obj_map_lacks l key : Forall sane l -> ascii_only key -> lacks l key -> obj_map l !! key = None.
Proof.
  unfold lacks. intros Hl Hk Hn. revert Hl Hn. induction l as [|[k' v'] l IH] using rev_ind; intros Hl Hn; [done|].
  rewrite map_app in Hn. rewrite obj_map_snoc. apply Forall_app in Hl as [Hl Hl']. inversion Hl' as [|? ? [Hp _] _]; subst.
  rewrite lookup_insert_ne; [apply IH; [done|]|].
  - intros H. apply Hn, elem_of_app. by left.
  - intros E. apply Hn, elem_of_app. right. apply elem_of_list_singleton. symmetry. by apply utf8_ascii_inv.
Qed.
Lemma has_or_lacks l key : lacks l key \/ exists v, has l key v.
Proof.
  unfold lacks. induction l as [|[k v] l IH]; [left; apply not_elem_of_nil|].
  destruct IH as [IH|(v' & l1 & l2 & -> & Hn)].
  - destruct (decide (codes key = k)) as [<-|Hk].
    + right. by exists v, [], l.
    + left. cbn. by apply not_elem_of_cons.
  - right. by exists v', ((k, v) :: l1), l2.
Qed.
Lemma has_sane l key s : Forall sane l -> has l key (VStr s) -> points s.
Proof. intros Hl (l1 & l2 & -> & _). apply Forall_app in Hl as [_ Hl]. inversion Hl as [|? ? [_ H] _]; subst. by apply H. Qed.
Lemma obj_map_inv l key j : Forall sane l -> ascii_only key -> obj_map l !! key = Some j -> exists v, has l key v /\ j = to_json v.
Proof.
  intros Hl Hk H. destruct (has_or_lacks l key) as [Hn|(v & Hv)].
  - by rewrite obj_map_lacks in H.
  - rewrite (obj_map_has l key v) in H by done. exists v. split; [done|congruence].
Qed.
Lemma obj_map_none l key : Forall sane l -> ascii_only key -> obj_map l !! key = None -> lacks l key.
Proof.
  intros Hl Hk H. destruct (has_or_lacks l key) as [Hn|(v & Hv)]; [done|]. by rewrite (obj_map_has l key v) in H.
Qed.
Lemma whole_iff v z : json_int (to_json v) = Some z <-> whole v z.
Proof.
  unfold whole. destruct v as [|b|z'| |s|l|l]; cbn; try (split; [done|naive_solver]).
  - destruct b; (split; [intros [= <-]; auto|intros [?|[[[=] ->]|[[=] ->]]]; done]).
  - split; [intros [= ->]; auto|intros [[= ->]|[[[=] _]|[[=] _]]]; done].
Qed.
Lemma ascii_key : ascii_only "path" /\ ascii_only "minReturn" /\ ascii_only "for" /\ ascii_only "toToken".
Proof. vm_compute. repeat split. Qed.

(* the network reads a request from bytes exactly if they are a request *)
Lemma asks_bytes b from p z for_ : asks (decode_data b) from p z for_ <-> request_bytes b from p z for_.
Proof.
  destruct ascii_key as (K1 & K2 & K3 & K4). split.
  - intros (m & text & j & Hd & Hpath & Hp & Hmin & Hj & Hfor). apply decode_data_inv in Hd as (l & Hb & ->).
    pose proof (json_bytes_sane _ _ Hb) as Hs.
    apply obj_map_inv in Hpath as (v1 & Hv1 & E1); [|done..]. apply obj_map_inv in Hmin as (v2 & Hv2 & E2); [|done..].
    destruct v1 as [| | | |path| |]; try discriminate E1. injection E1 as ->.
    apply convert_path_inv in Hp as (es & He & Hes & Hpt & ->). subst j. apply whole_iff in Hj.
    exists l, path, v2, es. do 8 (split; [done|]). destruct Hfor as [[[H|H] ->]|(s & H & Ha)].
    + left. split; [|done]. left. by apply obj_map_none.
    + left. split; [|done]. right. apply obj_map_inv in H as (v3 & Hv3 & E3); [|done..]. by destruct v3.
    + right. apply obj_map_inv in H as (v3 & Hv3 & E3); [|done..]. destruct v3 as [| | | |fs| |]; try discriminate E3. injection E3 as ->.
      apply addr_from_string_iff in Ha as [Ha Hok]. split; [|done].
      assert (fs = codes (addr_to_string for_)) as <-; [|done].
      apply utf8_ascii_inv; [by eapply has_sane|apply ascii_only_addr|done].
  - intros (l & path & v & es & Hb & Hpath & Hes & He & Hpt & -> & Hmin & Hw & Hfor). pose proof (json_bytes_sane _ _ Hb) as Hs.
    exists (obj_map l), (utf8_encode path), (to_json v). split; [by apply decode_data_json|].
    split; [by apply (obj_map_has l "path" (VStr path))|]. split; [rewrite Hpt; by apply convert_path_join|].
    split; [by apply obj_map_has|]. split; [by apply whole_iff|]. destruct Hfor as [[[H|H] ->]|[H Hok]].
    + left. split; [|done]. left. by apply obj_map_lacks.
    + left. split; [|done]. right. by apply (obj_map_has l "for" VNull).
    + right. exists (addr_to_string for_). split.
      * rewrite (obj_map_has l "for" _ Hs K3 H). cbn [to_json]. by rewrite utf8_codes by apply ascii_only_addr.
      * by apply addr_text_roundtrip.
Qed.
(* ... and a converter *)
Lemma wants_bytes b to z : wants (decode_data b) to z <-> hop_request_bytes b to z.
Proof.
  destruct ascii_key as (K1 & K2 & K3 & K4). split.
  - intros (m & text & j & Hd & Hto & Ha & Hmin & Hj). apply decode_data_inv in Hd as (l & Hb & ->).
    pose proof (json_bytes_sane _ _ Hb) as Hs.
    apply obj_map_inv in Hto as (v1 & Hv1 & E1); [|done..]. apply obj_map_inv in Hmin as (v2 & Hv2 & E2); [|done..].
    destruct v1 as [| | | |fs| |]; try discriminate E1. injection E1 as ->. subst j. apply whole_iff in Hj.
    apply addr_from_string_iff in Ha as [Ha Hok]. exists l, v2. split; [done|]. split; [|done].
    assert (fs = codes (addr_to_string to)) as <-; [|done].
    apply utf8_ascii_inv; [by eapply has_sane|apply ascii_only_addr|done].
  - intros (l & v & Hb & Hto & Hok & Hmin & Hw). pose proof (json_bytes_sane _ _ Hb) as Hs.
    exists (obj_map l), (addr_to_string to), (to_json v). split; [by apply decode_data_json|]. split.
    + rewrite (obj_map_has l "toToken" _ Hs K4 Hto). cbn [to_json]. by rewrite utf8_codes by apply ascii_only_addr.
    + split; [by apply addr_text_roundtrip|]. split; [by apply obj_map_has|by apply whole_iff].
Qed.

(* the bytes the network sends to a converter are read as the payload of the contract model *)
Lemma hop_bytes_data to v : (exists z, whole v z) -> decode_data (hop_bytes to v) = hop_data to (to_json v).
Proof.
  intros (z & Hz). destruct ascii_key as (_ & K2 & _ & K4).
  set (o := VObj [(codes "toToken", VStr (codes (addr_to_string to))); (codes "minReturn", v)]).
  assert (dumpable o) as Ho.
  { constructor. constructor; [by apply ascii_points|constructor; apply ascii_points, ascii_only_addr|].
    constructor; [by apply ascii_points| |constructor]. destruct Hz as [->|[[-> _]|[-> _]]]; constructor. }
  unfold decode_data, hop_bytes. fold o. rewrite (proj2 (utf8_decode_iff _ (dumps o))).
  2: { split; [|done]. apply plain_scalar. by apply dumps_plain_all. }
  rewrite loads_dumps by done. cbn iota. unfold o, hop_data, obj_map. cbn [fold_left fst snd to_json].
  rewrite !utf8_codes by (done || apply ascii_only_addr). f_equal. apply insert_commute. done.
Qed.
