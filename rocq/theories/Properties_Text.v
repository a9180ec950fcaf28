(* C65: the text of requests. *)
From Coq Require Import String Ascii ZArith.
From stdpp Require Import base countable list numbers strings gmap.
From Verif Require Import Res Codec CodecProofs World WorldSpec Scenario JsonModel JsonSpec JsonProofs JsonScan JsonData Properties_Network.
Local Open Scope string_scope.
Local Open Scope N_scope.
Local Open Scope list_scope.

(* bytes are decoded exactly if they are the UTF-8 form of a text; the text is unique *)
Theorem C65_utf8 : forall bytes t, utf8_decode bytes = Some t <-> Forall scalar t /\ bytes = utf8_encode t.
Proof. exact utf8_decode_iff. Qed.
Print Assumptions C65_utf8.

(* a value is read exactly from its JSON texts, whatever the white space, the order and the escapes; nothing else is read *)
Theorem C65_json : forall t v, loads t = Some v <-> json_text v t.
Proof. intros t v. apply loads_iff. Qed.
Print Assumptions C65_json.

(* what json.dumps writes is ASCII and is read back unchanged *)
Theorem C65_json_round_trip : forall v, dumpable v -> loads (dumps v) = Some v /\ Forall (fun c => c < 128) (dumps v).
Proof. intros v H. split; [by apply loads_dumps|by apply dumps_plain_all]. Qed.
Print Assumptions C65_json_round_trip.

(* the network reads a request from the bytes of a transfer exactly if they are a documented request *)
Theorem C65_network_reads : forall bytes sender p z for_,
  asks (decode_data bytes) sender p z for_ <-> request_bytes bytes sender p z for_.
Proof. intros. apply asks_bytes. Qed.
Print Assumptions C65_network_reads.

(* tokens sent to the network with any bytes: they are refused unless the bytes say conversionResult or are a request for a
   path that starts with the token sent *)
Theorem C65_only_requests : forall adv fuel ro s T x bytes N w, token_at w T -> is_contract N = true -> kind_at w N = Some KNet ->
  succeeds (exec adv fuel ro s T 0 (MTransfer N x (Some (decode_data bytes)))) w ->
  bytes = "conversionResult" \/
  exists p z for_, request_bytes bytes s p z for_ /\ head p = Some T /\ path_shape p /\ (0 < z)%Z /\ for_ <> zero_score.
Proof.
  intros adv fuel ro s T x b N w H1 H2 H3 H. destruct (C45_requests _ _ _ _ _ _ _ _ _ H1 H2 H3 H) as [E|(p & z & a & Ha & Hr)].
  - left. cbn in E. symmetry. by apply (decode_data_raw b).
  - right. exists p, z, a. split; [by apply asks_bytes|done].
Qed.
Print Assumptions C65_only_requests.

(* a converter reads a request exactly if the bytes are one *)
Theorem C65_converter_reads : forall bytes to z, wants (decode_data bytes) to z <-> hop_request_bytes bytes to z.
Proof. intros. apply wants_bytes. Qed.
Print Assumptions C65_converter_reads.

(* the bytes the network sends to a converter ask for the token and the minimum return it means *)
Theorem C65_network_writes : forall to v z, addr_ok to -> whole v z ->
  hop_request_bytes (hop_bytes to v) to z /\ decode_data (hop_bytes to v) = hop_data to (to_json v).
Proof.
  intros to v z Hto Hz. assert (decode_data (hop_bytes to v) = hop_data to (to_json v)) as E by (apply hop_bytes_data; by exists z).
  split; [|done]. apply wants_bytes. rewrite E. eexists _, (addr_to_string to), (to_json v). split; [reflexivity|].
  split; [by rewrite lookup_insert|]. split; [by apply addr_text_roundtrip|].
  split; [rewrite lookup_insert_ne by done; by rewrite lookup_insert|by apply whole_iff].
Qed.
Print Assumptions C65_network_writes.

(* a request as a client would write it, one with other white space, order and escapes, texts that are refused *)
Definition q : string := String "034" EmptyString.
Definition quoted (s : string) : string := (q ++ s ++ q)%string.
Definition request1 : string := ("{" ++ quoted "path" ++ ": " ++ quoted (path_text [irct; flexA; icxt]) ++ ", " ++ quoted "minReturn" ++ ": 12}")%string.
Definition request2 : string :=
  (" { " ++ quoted "minReturn" ++ ":true," ++ quoted "x" ++ ":[1.5e3, null, {}]," ++ quoted "for" ++ ":" ++ quoted (addr_to_string (EOA 7))
   ++ "," ++ quoted "minReturn" ++ " : 12 ," ++ quoted "p\u0061th" ++ ":" ++ quoted (path_text [irct; flexA; icxt]) ++ "}")%string.
Example C65_example :
  request_bytes request1 (EOA 2) [irct; flexA; icxt] 12 (EOA 2) /\ decode_data request1 = pay_path [irct; flexA; icxt] 12 /\
  request_bytes request2 (EOA 2) [irct; flexA; icxt] 12 (EOA 7) /\
  hop_bytes irct (VInt 12) = ("{" ++ quoted "toToken" ++ ": " ++ quoted (addr_to_string irct) ++ ", " ++ quoted "minReturn" ++ ": 12}")%string /\
  utf8_decode (String "255" EmptyString) = None /\ loads (codes "{}x") = None /\ loads (codes "01") = None /\ loads (codes "[1,]") = None /\
  loads (codes ("[" ++ quoted "\ud83d\ude00" ++ ", -12, 1.]")) = None /\
  loads (codes ("[" ++ quoted "\ud83d\ude00" ++ ", -12, 1.0]")) = Some (VArr [VStr [0x1F600]; VInt (-12); VFloat]).
Proof.
  assert (decode_data request1 = pay_path [irct; flexA; icxt] 12) as E1.
  { apply (bool_decide_eq_true (decode_data request1 = pay_path [irct; flexA; icxt] 12)). vm_compute. reflexivity. }
  assert (Forall addr_ok [irct; flexA; icxt]) as Hok by (repeat constructor; vm_compute; reflexivity).
  split; [apply asks_bytes; rewrite E1; by apply asks_pay|]. split; [exact E1|]. split.
  - apply asks_bytes. assert (exists m, decode_data request2 = DJson m /\ m !! "path" = Some (JStr (path_text [irct; flexA; icxt]))
      /\ m !! "minReturn" = Some (JInt 12) /\ m !! "for" = Some (JStr (addr_to_string (EOA 7)))) as (m & -> & Hm1 & Hm2 & Hm3).
    { destruct (decode_data request2) as [r|m] eqn:E.
      - assert (match decode_data request2 with DRaw _ => false | DJson _ => true end = true) as H by (vm_compute; reflexivity). by rewrite E in H.
      - exists m. split; [done|].
        assert (match decode_data request2 with DRaw _ => None | DJson m => Some (m !! "path", m !! "minReturn", m !! "for") end
                = Some (Some (JStr (path_text [irct; flexA; icxt])), Some (JInt 12), Some (JStr (addr_to_string (EOA 7))))) as H by (vm_compute; reflexivity).
        rewrite E in H. injection H as H1 H2 H3. exact (conj H1 (conj H2 H3)). }
    exists m, (path_text [irct; flexA; icxt]), (JInt 12). split; [done|]. split; [done|]. split; [vm_compute; reflexivity|].
    split; [done|]. split; [done|]. right. eexists. split; [exact Hm3|]. vm_compute. reflexivity.
  - repeat split; vm_compute; reflexivity.
Qed.
