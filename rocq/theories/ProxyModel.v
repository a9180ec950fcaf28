(* contracts/utility/proxy_score.py: class ProxyScore with its two caches.
   Python's class objects are numbers.  Of a class only its name and the resolved attributes (dir + getattr, i.e. with
   inherited ones, the most derived definition winning) matter. *)
From Coq Require Import String Ascii ZArith.
From stdpp Require Import base list strings gmap.
From Verif Require Import Res.

(* an attribute of an abstract class: the object (by identity), its __name__, what callable() says, its
   __isabstractmethod__ (None: no such attribute), and whether iconservice's interface decorator accepts it (functions only) *)
Record attr := Attr { a_obj : nat; a_name : string; a_callable : bool; a_abstract : option bool; a_function : bool }.
Record pyclass := Class { c_name : string; c_attrs : list (string * attr) (* dir order: names sorted, each once *) }.
(* a class made by type(name, (InterfaceScore, abc_class), functions) *)
Record proxy := Proxy { p_id : nat; p_name : string; p_abc : nat; p_functions : gmap string nat }.
(* interface functions are numbers too; each remembers the function it was made from *)
Record caches := Caches {
  k_functions : gmap nat nat;   (* _interface_function_cache: function -> interface function *)
  k_classes : gmap nat proxy;   (* _proxy_class_cache: abstract class -> proxy class *)
  k_made : gmap nat nat;        (* interface function -> function it was made from by interface(func) *)
  k_next : nat }.               (* the next object identity *)
Definition no_caches : caches := Caches ∅ ∅ ∅ 0.

Section proxy.
Variable classes : nat -> pyclass.

(* proxy_score.py:44-46: the condition *)
Definition is_abstract_method (a : attr) : bool :=
  a_callable a && match a_abstract a with Some b => b | None => false end.
(* proxy_score.py:53-63 _get_interface_function *)
Definition get_interface_function (a : attr) (k : caches) : res (nat * caches) :=
  match k_functions k !! a_obj a with
  | Some f => Ok (f, k)
  | None =>
      if a_function a
      then let f := k_next k in
           Ok (f, Caches (<[a_obj a := f]> (k_functions k)) (k_classes k) (<[f := a_obj a]> (k_made k)) (S f))
      else Err "interface: not a function"
  end.
(* proxy_score.py:41-47: the loop; interface_functions is keyed by __name__ *)
Fixpoint interface_functions (l : list (string * attr)) (acc : gmap string nat) (k : caches) : res (gmap string nat) * caches :=
  match l with
  | [] => (Ok acc, k)
  | (_, a) :: l' =>
      if is_abstract_method a
      then match get_interface_function a k with
           | Ok (f, k') => interface_functions l' (<[a_name a := f]> acc) k'
           | Err e => (Err e, k)
           end
      else interface_functions l' acc k
  end.
(* proxy_score.py:30-50 _create_proxy_class *)
Definition create_proxy_class (abc : nat) (k : caches) : res proxy * caches :=
  match interface_functions (c_attrs (classes abc)) ∅ k with
  | (Ok fs, k') =>
      let id := k_next k' in
      (Ok (Proxy id ("ProxyScore(" ++ c_name (classes abc) ++ ")")%string abc fs), Caches (k_functions k') (k_classes k') (k_made k') (S id))
  | (Err e, k') => (Err e, k')
  end.
(* proxy_score.py:65-80 __new__; a failed creation leaves the class cache as it was *)
Definition proxy_score (abc : nat) (k : caches) : res proxy * caches :=
  match k_classes k !! abc with
  | Some p => (Ok p, k)
  | None =>
      match create_proxy_class abc k with
      | (Ok p, k') => (Ok p, Caches (k_functions k') (<[abc := p]> (k_classes k')) (k_made k') (k_next k'))
      | (Err e, k') => (Err e, k')
      end
  end.
(* any sequence of requests *)
Fixpoint requests (l : list nat) (k : caches) : list (res proxy) * caches :=
  match l with
  | [] => ([], k)
  | abc :: l' => let (r, k1) := proxy_score abc k in let (rs, k2) := requests l' k1 in (r :: rs, k2)
  end.

(* ------------------------------------------------------------- specification ---- *)
(* what Python's abc module calls an abstract method: a callable with a true __isabstractmethod__ *)
Definition abstract_method (a : attr) : Prop := a_callable a = true /\ a_abstract a = Some true.
(* classes whose abstract methods are functions, found under their own name, as methods defined with def are *)
Definition ordinary (abc : nat) : Prop :=
  NoDup (map fst (c_attrs (classes abc))) /\
  forall n a, (n, a) ∈ c_attrs (classes abc) -> abstract_method a -> a_name a = n /\ a_function a = true.

(* ------------------------------------------------------------------- proofs ---- *)
Lemma is_abstract_iff a : is_abstract_method a = true <-> abstract_method a.
Proof.
  unfold is_abstract_method, abstract_method. destruct (a_callable a), (a_abstract a) as [[]|]; cbn; split; intros H; try done; by destruct H.
Qed.
Record kok (k : caches) : Prop := {
  ok_made : forall f o, k_functions k !! o = Some f -> k_made k !! f = Some o;
  ok_next_f : forall f o, k_made k !! f = Some o -> f < k_next k;
  ok_next_p : forall c p, k_classes k !! c = Some p -> p_id p < k_next k /\ p_abc p = c;
  ok_distinct : forall c c' p p', k_classes k !! c = Some p -> k_classes k !! c' = Some p' -> p_id p = p_id p' -> c = c';
  ok_funs : forall c p, k_classes k !! c = Some p -> ordinary c ->
      forall n f, p_functions p !! n = Some f <-> exists a, (n, a) ∈ c_attrs (classes c) /\ is_abstract_method a = true /\ k_functions k !! a_obj a = Some f;
  ok_total : forall c p, k_classes k !! c = Some p -> ordinary c ->
      forall n a, (n, a) ∈ c_attrs (classes c) -> is_abstract_method a = true -> k_functions k !! a_obj a <> None }.
Lemma kok_empty : kok no_caches.
Proof. by split; intros. Qed.
(* later states of the caches *)
Definition grows (k k' : caches) : Prop :=
  k_next k <= k_next k' /\ (forall o f, k_functions k !! o = Some f -> k_functions k' !! o = Some f) /\
  (forall c p, k_classes k !! c = Some p -> k_classes k' !! c = Some p).
Lemma grows_refl k : grows k k.
Proof. by split. Qed.
Lemma grows_trans k1 k2 k3 : grows k1 k2 -> grows k2 k3 -> grows k1 k3.
Proof. intros (A1 & A2 & A3) (B1 & B2 & B3). split; [lia|]. split; auto. Qed.
Lemma get_function_ok a k f k' : kok k -> get_interface_function a k = Ok (f, k') ->
  kok k' /\ grows k k' /\ k_classes k' = k_classes k /\ k_functions k' !! a_obj a = Some f.
Proof.
  intros HK. unfold get_interface_function. destruct (k_functions k !! a_obj a) as [g|] eqn:E.
  - intros [= <- <-]. split; [done|]. split; [apply grows_refl|done].
  - destruct (a_function a); [|done]. intros [= <- <-]. cbn. split; [|split; [split; [cbn; lia|split; [|done]]|]].
    + split; cbn.
      * intros f o. destruct (decide (o = a_obj a)) as [->|Hne].
        -- rewrite lookup_insert. intros [= <-]. by rewrite lookup_insert.
        -- rewrite lookup_insert_ne by done. intros Ho. apply HK in Ho as Hm. rewrite lookup_insert_ne; [done|].
           apply HK in Hm. lia.
      * intros f o. destruct (decide (f = k_next k)) as [->|Hne]; [lia|]. rewrite lookup_insert_ne by done. intros Hm. apply HK in Hm. lia.
      * intros c p Hc. apply HK in Hc. lia.
      * intros c c' p p'. apply HK.
      * intros c p Hc Ho n f. rewrite (ok_funs _ HK c p Hc Ho). split; intros (a' & H1 & H2 & H3); exists a'; (split; [done|]); (split; [done|]).
        -- rewrite lookup_insert_ne; [done|]. congruence.
        -- destruct (decide (a_obj a = a_obj a')) as [Ea|Hne]; [|by rewrite lookup_insert_ne in H3].
           exfalso. apply (ok_total _ HK c p Hc Ho n a' H1 H2). by rewrite <- Ea.
      * intros c p Hc Ho n a' H1 H2. destruct (decide (a_obj a = a_obj a')) as [Ea|Hne]; [by rewrite Ea, lookup_insert|].
        rewrite lookup_insert_ne by done. by eapply ok_total.
    + intros o f Ho. cbn. rewrite lookup_insert_ne; [done|]. congruence.
    + by rewrite lookup_insert.
Qed.
Lemma functions_ok l : forall acc k r k', kok k -> interface_functions l acc k = (r, k') ->
  kok k' /\ grows k k' /\ k_classes k' = k_classes k /\
  match r with
  | Ok fs => (forall a, a ∈ map snd l -> is_abstract_method a = true -> k_functions k' !! a_obj a <> None) /\
     (NoDup (map fst l) -> (forall n a, (n, a) ∈ l -> is_abstract_method a = true -> a_name a = n) -> (forall n, n ∈ map fst l -> acc !! n = None) ->
      forall n f, fs !! n = Some f <-> acc !! n = Some f \/ exists a, (n, a) ∈ l /\ is_abstract_method a = true /\ k_functions k' !! a_obj a = Some f)
  | Err _ => exists a, a ∈ map snd l /\ is_abstract_method a = true /\ a_function a = false
  end.
Proof.
  induction l as [|[n a] l IH]; intros acc k r k' HK H; cbn [interface_functions] in H.
  - injection H as <- <-. split; [done|]. split; [apply grows_refl|]. split; [done|]. split.
    + intros a Ha. by apply elem_of_nil in Ha.
    + intros _ _ _ n f. split; [by left|]. intros [?|(a & Ha & _)]; [done|by apply elem_of_nil in Ha].
  - destruct (is_abstract_method a) eqn:Ea.
    + destruct (get_interface_function a k) as [[f0 k1]|e] eqn:E.
      * apply get_function_ok in E as (HK1 & G1 & C1 & F1); [|done]. destruct (IH _ _ _ _ HK1 H) as (HK' & G' & C' & H').
        split; [done|]. split; [by eapply grows_trans|]. split; [congruence|]. assert (k_functions k' !! a_obj a = Some f0) as F' by (by apply G').
        destruct r as [fs|e].
        -- destruct H' as [T' H']. split.
           { intros b Hb Hb'. cbn in Hb. apply elem_of_cons in Hb as [->|Hb]; [by rewrite F'|by apply T']. }
           intros HN Hname Hacc. cbn in HN. apply NoDup_cons in HN as [Hn HN].
           assert (a_name a = n) as En by (apply (Hname n a); [by constructor|done]). intros n' f. rewrite H'; [|done|..].
           ++ rewrite En. split.
              ** intros [H0|(b & Hb & Hb' & Hb'')].
                 --- destruct (decide (n = n')) as [<-|Hne].
                     +++ rewrite lookup_insert in H0. injection H0 as <-. right. exists a. split; [by constructor|done].
                     +++ rewrite lookup_insert_ne in H0 by done. by left.
                 --- right. exists b. split; [by constructor|done].
              ** intros [H0|(b & Hb & Hb' & Hb'')].
                 --- left. rewrite lookup_insert_ne; [done|]. intros <-. assert (acc !! n = None) by (apply Hacc; by constructor). congruence.
                 --- apply elem_of_cons in Hb as [[= -> ->]|Hb].
                     +++ left. rewrite lookup_insert. congruence.
                     +++ right. by exists b.
           ++ intros n0 b Hb. apply Hname. by constructor.
           ++ intros n0 Hn0. rewrite lookup_insert_ne; [apply Hacc; by constructor|]. congruence.
        -- destruct H' as (b & Hb & ?). exists b. split; [by constructor|done].
      * injection H as <- <-. split; [done|]. split; [apply grows_refl|]. split; [done|]. exists a. split; [by constructor|]. split; [done|].
        unfold get_interface_function in E. destruct (k_functions k !! a_obj a); [done|]. by destruct (a_function a).
    + destruct (IH _ _ _ _ HK H) as (HK' & G' & C' & H'). split; [done|]. split; [done|]. split; [done|]. destruct r as [fs|e].
      * destruct H' as [T' H']. split.
        { intros b Hb Hb'. cbn in Hb. apply elem_of_cons in Hb as [->|Hb]; [congruence|by apply T']. }
        intros HN Hname Hacc n' f. cbn in HN. apply NoDup_cons in HN as [Hn HN]. rewrite H'; [|done|..].
        -- split; (intros [?|(b & Hb & Hb' & Hb'')]; [by left|right]).
           ++ exists b. split; [by constructor|done].
           ++ apply elem_of_cons in Hb as [[= -> ->]|Hb]; [congruence|]. by exists b.
        -- intros n0 b Hb. apply Hname. by constructor.
        -- intros n0 Hn0. apply Hacc. by constructor.
      * destruct H' as (b & Hb & ?). exists b. split; [by constructor|done].
Qed.
Lemma proxy_ok abc k r k' : kok k -> proxy_score abc k = (r, k') ->
  kok k' /\ grows k k' /\
  match r with
  | Ok p => k_classes k' !! abc = Some p /\ (k_classes k !! abc = None -> p_name p = ("ProxyScore(" ++ c_name (classes abc) ++ ")")%string)
  | Err _ => exists n a, (n, a) ∈ c_attrs (classes abc) /\ is_abstract_method a = true /\ a_function a = false
  end.
Proof.
  intros HK H. unfold proxy_score in H. destruct (k_classes k !! abc) as [p|] eqn:E.
  { injection H as <- <-. split; [done|]. split; [apply grows_refl|]. by rewrite E. }
  unfold create_proxy_class in H. destruct (interface_functions _ _ _) as [[fs|e] k1] eqn:EF.
  - apply functions_ok in EF as (HK1 & G1 & C1 & T1 & F1); [|done]. injection H as <- <-. cbn. split; [|split; [|by rewrite lookup_insert]].
    + split; cbn.
      * apply HK1.
      * intros f o Hm. apply HK1 in Hm. lia.
      * intros c p. destruct (decide (c = abc)) as [->|Hne].
        -- rewrite lookup_insert. intros [= <-]. cbn. split; [lia|done].
        -- rewrite lookup_insert_ne by done. intros Hc. apply HK1 in Hc. split; [lia|apply Hc].
      * intros c c' p p'. destruct (decide (c = abc)) as [->|Hne], (decide (c' = abc)) as [->|Hne']; rewrite ?lookup_insert; rewrite ?lookup_insert_ne by done.
        -- done.
        -- intros [= <-] Hc'. apply HK1 in Hc' as [? _]. cbn. lia.
        -- intros Hc [= <-]. apply HK1 in Hc as [? _]. cbn. lia.
        -- apply HK1.
      * intros c p. destruct (decide (c = abc)) as [->|Hne]; rewrite ?lookup_insert; rewrite ?lookup_insert_ne by done; [|apply HK1].
        intros [= <-] [HN Ho] n f. cbn. rewrite F1; [|done|by intros ? ? ? ?%is_abstract_iff; apply Ho|done]. rewrite lookup_empty. split; [by intros [?|?]|by right].
      * intros c p. destruct (decide (c = abc)) as [->|Hne]; rewrite ?lookup_insert; rewrite ?lookup_insert_ne by done; [|apply HK1].
        intros [= <-] Ho n a Ha Ha'. apply T1; [|done]. apply elem_of_list_fmap. by exists (n, a).
    + destruct G1 as (A & B & D). split; [cbn; lia|]. split; [done|]. intros c p Hc. cbn. rewrite lookup_insert_ne by congruence. by apply D.
  - apply functions_ok in EF as (HK1 & G1 & C1 & (a & Ha & H1 & H2)); [|done]. injection H as <- <-. split; [done|]. split; [done|].
    apply elem_of_list_fmap in Ha as ([n a'] & -> & Ha). by exists n, a'.
Qed.
Lemma requests_ok l : forall k rs k', kok k -> requests l k = (rs, k') ->
  kok k' /\ grows k k' /\ length rs = length l /\
  (forall i c, l !! i = Some c -> ordinary c -> exists p, rs !! i = Some (Ok p)) /\
  (forall i c p, l !! i = Some c -> rs !! i = Some (Ok p) -> k_classes k' !! c = Some p).
Proof.
  induction l as [|abc l IH]; intros k rs k' HK H; cbn in H.
  - injection H as <- <-. split; [done|]. split; [apply grows_refl|]. done.
  - destruct (proxy_score abc k) as [r k1] eqn:E. destruct (requests l k1) as [rs' k2] eqn:E2. injection H as <- <-.
    apply proxy_ok in E as (HK1 & G1 & H1); [|done]. destruct (IH _ _ _ HK1 E2) as (HK2 & G2 & Hlen & Ht & Hc).
    split; [done|]. split; [by eapply grows_trans|]. split; [cbn; by rewrite Hlen|]. split.
    + intros [|i] c Hi Ho; [|by eapply Ht]. cbn in Hi. injection Hi as ->. destruct r as [p|e]; [by exists p|].
      destruct H1 as (n & a & Ha & H2 & H3). apply Ho in Ha as [_ Ha]; [|by apply is_abstract_iff]. congruence.
    + intros [|i] c p Hi Hp; [|by eapply Hc]. cbn in Hi, Hp. injection Hi as ->. injection Hp as ->. apply G2. by apply H1.
Qed.
End proxy.
