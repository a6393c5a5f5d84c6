(** Exact conditions for more properties that hold in part only: C31, C56, C63, C73. *)
From Coq Require Import Ascii String NArith ZArith Lia Bool List ZifyBool ZifyNat ZifyN.
From Verif Require Import Base S_Utf8 P_Base M_Std M_Helper M_Header M_Url M_Http1 S_Http1Api S_Map S_Url P_Map P_UrlForm M_Build M_Hpack S_Hpack S_HpackApi P_HpackTable P_HpackSync S_Near P_Near S_Near S_WriteAll P_WriteAll S_RfcFrames P_RfcFrames S_Http1 T_Url S_Exactly P_Exactly.
Import ListNotations.
Local Open Scope N_scope.

(** ** C31: all beginnings of a history arrive exactly if every field is near when it is sent. *)
Theorem C31_exact : forall m evs, Forall sendable (concat (S_HpackApi.sent evs)) ->
  (forall f g, In f (concat (S_HpackApi.sent evs)) -> In g (concat (S_HpackApi.sent evs)) -> clash_free (fst f) (fst g)) ->
  (all_near m evs <-> forall a, beginning a evs -> arrives m a).
Proof. intros m evs S C. exact (near_prefixes m evs (conj S C)). Qed.
Print Assumptions C31_exact.
Example C31_exact_nonvacuous : beginning [EvMax 50; EvBlock [(str "a", str "1")]] ([EvMax 50] ++ EvBlock ([(str "a", str "1")] ++ [(str "b", [])]) :: []) /\
  arrives 4096 [EvMax 50; EvBlock [(str "a", str "1")]; EvBlock [(str "A", str "1")]].
Proof. split; [exact (bg_inside [EvMax 50] [(str "a", str "1")] [(str "b", [])] [])|]. do 2 eexists. vm_compute. reflexivity. Qed.

(** ** C56: a request with an origin-form target and a Host field has the URL http://host:port/path exactly if every field whose name is
    "Z" followed by "scheme" has the value http or one of more than 64 octets. *)
Theorem C56_exact : forall q m t v hs hn hv d n u body,
  In m known_methods -> m <> MConnect -> In v known_versions -> word t -> hd_error t = Some 47 -> url_form t u ->
  Forall (fun nv => name_ok (fst nv) /\ value_ok (snd nv)) hs -> distinct_names hs ->
  In (hn, hv) hs -> fold_name hn = str "host" -> is_utf8 hv -> host_parts hv d n ->
  (req_parse q (request_text (method_str m) t (version_str v) hs ++ body) =
     (mkReq m v (mkUrl ScHttp (u_path u) None None (Some d) (Some n) (u_query u)) hs false,
      Ok (blen (request_text (method_str m) t (version_str v) hs))) <->
   forall k w, In (k, w) hs -> names_scheme k -> scheme_kept w).
Proof. exact host_scheme_exact. Qed.
Print Assumptions C56_exact.
Example C56_exact_nonvacuous : names_scheme (str "ZscHeme") /\ ~ names_scheme (str "zscheme") /\ scheme_kept (str "http") /\ ~ scheme_kept (str "HTTP").
Proof.
  split; [exists (str "scHeme"); split; reflexivity|]. split; [intros (t & E & _); discriminate E|]. split; [left; vm_compute; reflexivity|].
  intros [K|K]; vm_compute in K; discriminate K.
Qed.

(** ** C63: what is encoded for fields is a block of RFC 7541 that means them exactly if no field has the misspelt name of entry 15 and what
    the table search finds for each of them has its name; and the table of the reader is then that of the encoder. *)
Theorem C63_exact : forall max dyn fs t b peer', table_typed max dyn -> Forall sendable fs -> encode_headers (table_of max dyn) fs = Ok (t, b) ->
  (rfc_block max (map lower_field dyn) b (map lower_field fs) peer' <-> fields_sent_fine max dyn fs /\ peer' = map lower_field (hi_to_vec t)).
Proof. exact encode_rfc_exact. Qed.
Print Assumptions C63_exact.
(** With "a^" in the table the name "a~" is sent as that one. *)
Example C63_exact_nonvacuous : exists t b, encode_headers (table_of 4096 [(str "a^", str "v")]) [(str "a~", str "v")] = Ok (t, b) /\
  table_typed 4096 [(str "a^", str "v")] /\ Forall sendable [(str "a~", str "v")] /\ ~ field_fine [(str "a^", str "v")] (str "a~", str "v") /\
  field_fine [] (str "a~", str "v").
Proof.
  do 2 eexists. split; [vm_compute; reflexivity|]. split; [split; [vm_compute; discriminate|repeat constructor; cbn; lia]|].
  split; [apply sendableb_ok; vm_compute; reflexivity|]. split.
  - intros [_ K]. specialize (K 0%nat (str "a^", str "v")). cbn [nth_error firstn] in K.
    assert (E : lower_name (str "a^") = lower_name (str "a~")); [|discriminate E]. apply K.
    + intros i w [_ H]. apply nth_error_In in H. assert (X : existsb (fun e => beq (fst e) (str "a~")) code_static = false) by (vm_compute; reflexivity).
      assert (Y : existsb (fun e => beq (fst e) (str "a~")) code_static = true) by (apply existsb_exists; eexists; split; [exact H|apply beq_eq; reflexivity]). congruence.
    + reflexivity.
    + split; [|reflexivity]. constructor; [left; reflexivity|]. constructor; [right; left; reflexivity|constructor].
    + intros e' [].
  - split; [discriminate|]. intros j e _ H. destruct j; discriminate H.
Qed.

(** ** C73: the two storages read a text as the same isize, or neither reads it, exactly if it is no numeral below 2^63 after a plus sign, not the
    smallest isize, and, if only zeros and minus signs stand before other digits, a numeral with at most one sign in front. *)
Theorem C73_isize_exact : forall v, (forall z, value_isize_stand v = Ok z <-> value_isize v = Ok z) <->
  (forall z, lax_signed v z -> (- 2 ^ 63 < z < 2 ^ 63)%Z -> std_signed v z) /\
  (forall w n, v = 43 :: w -> decimal w n -> 2 ^ 63 <= n) /\ (forall w, v = 45 :: w -> ~ decimal w (2 ^ 63)).
Proof. exact isize_storage. Qed.
Print Assumptions C73_isize_exact.
Example C73_isize_exact_nonvacuous :
  (value_isize_stand (str "-42") = Ok (-42)%Z /\ value_isize (str "-42") = Ok (-42)%Z) /\
  (value_isize_stand (str "-9223372036854775808") = Ok (- 2 ^ 63)%Z /\ value_isize (str "-9223372036854775808") = Panic) /\
  (value_isize_stand (str "0-1") = Err (EExtension "parse int error") /\ value_isize (str "0-1") = Ok (-1)%Z).
Proof. repeat split; vm_compute; reflexivity. Qed.
