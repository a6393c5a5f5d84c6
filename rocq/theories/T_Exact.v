(** Exact conditions: when a URL, an HTTP/1 request and an HTTP/1 response come back unchanged (C03, C09, C22),
    and an HTTP/2 request (C55); the language of the HPACK decoder (C62). *)
From Coq Require Import Ascii String NArith ZArith Lia Bool List.
From Verif Require Import Base S_Utf8 P_Base M_Header M_Frame M_Ext M_Build M_Url M_Http1 S_Http1 S_Http1Api S_Url P_Std P_Helper P_Http1 P_Msg P_Url S_Exact P_UrlExact P_HttpExact
  M_Std M_Huffman M_Hpack S_Hpack S_HpackApi S_Frame P_Frame P_H2 P_H2Msg M_H2 S_H2Api S_H2Msg P_H2Req P_H2Exact P_UrlForm P_UrlAll T_H2
  S_Huffman S_HpackAll P_Huffman P_Lossy P_HpackTable P_HpackSync P_HpackExact.
Import ListNotations.
Local Open Scope N_scope.

(** C22. The URLs that Display and parse bring back are the legal ones and the origin-form ones, and no others. *)
Theorem C22_exact : forall u, utf8_url u -> (url_parse (url_print u) = Ok u <-> legal_url u \/ legal_origin u).
Proof. exact print_parse_iff. Qed.
Print Assumptions C22_exact.
Definition exact_url (p : bytes) (q : option bytes) : url := mkUrl ScHttps p (Some (str "me")) (Some (str "p w")) (Some (str "h")) (Some 8443) q.
Example C22_exact_nonvacuous :
  utf8_url (exact_url (str "/a b") (Some (str "x=/?"))) /\
  url_parse (url_print (exact_url (str "/a b") (Some (str "x=/?")))) = Ok (exact_url (str "/a b") (Some (str "x=/?"))) /\
  utf8_url (exact_url (str "/a?b") None) /\ url_parse (url_print (exact_url (str "/a?b") None)) <> Ok (exact_url (str "/a?b") None).
Proof.
  split; [|split; [|split]].
  - repeat split; cbn; try (apply utf8_valid_iff; reflexivity).
  - vm_compute. reflexivity.
  - repeat split; cbn; try (apply utf8_valid_iff; reflexivity).
  - vm_compute. discriminate.
Qed.

(** C03. A request written with http1_data is read back with the same method, version, path, query and headers exactly when
    its method and version are known ones, its headers can be written one per line and do not repeat a name, its path has
    no '%' and no delimiter, it has no query, and the Host is usable (or, for CONNECT, the path is "/"). *)
Theorem C03_exact : forall q0 q body, request_bytes q -> bytes_ok body ->
  (request_delivered q0 q body <->
   In (q_method q) known_methods /\ In (q_version q) known_versions /\ fields_ok (q_header q) /\ distinct_names (q_header q) /\
   plain_path (u_path (q_url q)) /\ u_query (q_url q) = None /\
   (q_method q = MConnect -> u_path (q_url q) = str "/") /\ (q_method q <> MConnect -> host_usable (q_header q))).
Proof.
  intros q0 q body Q B. rewrite (request_delivered_iff q0 q body Q B).
  assert (E : (if method_eqb (q_method q) MConnect then u_path (q_url q) = str "/" else host_usable (q_header q)) <->
    (q_method q = MConnect -> u_path (q_url q) = str "/") /\ (q_method q <> MConnect -> host_usable (q_header q))).
  { destruct (q_method q); cbn [method_eqb]; split; try (intros K; split; [try discriminate; intros _; exact K|congruence || (intros _; exact K)]);
      try (intros [K1 K2]; try (apply K2; discriminate); apply K1; reflexivity). }
  rewrite E. tauto.
Qed.
Print Assumptions C03_exact.
Definition exact_request (m : method) (p : bytes) (q : option bytes) (h : headers) : request :=
  mkReq m V11 (mkUrl ScHttp p None None (Some (str "h")) (Some 80) q) h false.
Example C03_exact_nonvacuous :
  request_bytes (exact_request MPost (str "/a/b") None [(str "Host", str "h:80"); (str "x", str "1")]) /\
  request_delivered req_default (exact_request MPost (str "/a/b") None [(str "Host", str "h:80"); (str "x", str "1")]) (str "body") /\
  ~ request_delivered req_default (exact_request MPost (str "/a/b") (Some (str "c")) [(str "Host", str "h:80")]) [] /\
  ~ request_delivered req_default (exact_request MPost (str "/a%20b") None [(str "Host", str "h:80")]) [] /\
  ~ request_delivered req_default (exact_request MPost (str "/") None [(str "Host", str "h:80:80")]) [] /\
  ~ request_delivered req_default (exact_request MGet (str "/") None [(str "x", str "1"); (str "X", str "2")]) [].
Proof.
  split; [|split; [|repeat split]].
  - split; [|split]; [apply bytes_okb_ok; reflexivity..|]. repeat constructor; cbn; apply bytes_okb_ok; reflexivity.
  - do 3 eexists. split; [vm_compute; reflexivity|]. split; [vm_compute; reflexivity|]. repeat split; reflexivity.
  - intros (w & q' & n & W & P & _ & _ & _ & _ & Q). vm_compute in W. injection W as <-. vm_compute in P. injection P as <- _. discriminate Q.
  - intros (w & q' & n & W & P & _ & _ & _ & Q & _). vm_compute in W. injection W as <-. vm_compute in P. injection P as <- _. discriminate Q.
  - intros (w & q' & n & W & P & _). vm_compute in W. injection W as <-. vm_compute in P. discriminate P.
  - intros (w & q' & n & W & P & _ & _ & Q & _). vm_compute in W. injection W as <-. vm_compute in P. injection P as <- _. discriminate Q.
Qed.

(** C09. A response written with httpdata is read back with the same status, version and headers exactly when its version is a
    known one, its status has a canonical reason, and its headers can be written one per line and do not repeat a name. *)
Theorem C09_exact : forall p0 p body, response_bytes p -> bytes_ok body ->
  (response_delivered p0 p body <->
   In (p_version p) known_versions /\ (exists rs, canonical_reason (p_status p) = Some rs) /\ fields_ok (p_header p) /\ distinct_names (p_header p)).
Proof. exact response_delivered_iff. Qed.
Print Assumptions C09_exact.
Example C09_exact_nonvacuous :
  response_bytes (mkResp 404 V10 [(str "server", str "me")] false) /\
  response_delivered resp_default (mkResp 404 V10 [(str "server", str "me")] false) (str "body") /\
  ~ response_delivered resp_default (mkResp 299 V10 [] false) [] /\
  ~ response_delivered resp_default (mkResp 200 V11 [(str "a b", str "1")] false) [].
Proof.
  split; [|split; [|split]].
  - repeat constructor; cbn; apply bytes_okb_ok; reflexivity.
  - do 3 eexists. split; [vm_compute; reflexivity|]. split; [vm_compute; reflexivity|]. repeat split; reflexivity.
  - intros (w & q' & n & W & _). vm_compute in W. discriminate W.
  - intros (w & q' & n & W & P & _). vm_compute in W. injection W as <-. vm_compute in P. discriminate P.
Qed.

(** C55. The pseudo fields of a request give its URL back exactly when it has a scheme, a host, the default port and a path
    without escapes, and no user, password or query. *)
Theorem C55_exact : forall m u, utf8_url u -> (parts_build_url (parts_request m u None) = Ok u <-> plain_url u).
Proof. exact pseudo_exact. Qed.
Print Assumptions C55_exact.
(** The same from one end of a connection to the other, for every URL with a scheme, a host and a path. *)
Theorem C55_exact_end_to_end : forall te td m u d fs id es eh max L rest F,
  In m known_methods -> utf8_url u -> legal_scheme (u_scheme u) -> u_domain u = Some d -> u_path u <> [] ->
  regular fs -> F = hm_insert_all (parts_encode_header (parts_request m u None) []) fs ->
  connection te td F -> id < 2147483648 -> total_size F <= L -> 5 * total_size F <= max -> max < 16777216 ->
  exists te' td' out hf, headers_encode max te (mkHeaders id None F parts_default (flags_of es eh false false)) = Ok (te', out) /\
    recv td L (out ++ rest) = (td', Ok (FHeaders hf, rest)) /\
    ((exists q, headers_into_request hf req_default = Ok q /\ q_url q = u) <-> plain_url u).
Proof.
  intros te td m u d fs id es eh max L rest F M U LS D NE R EF C I T X Y.
  assert (NS : u_scheme u <> ScNone) by (intros K; rewrite K in LS; inversion LS).
  rewrite (parts_fields m u (u_scheme u) d (u_path u) eq_refl D eq_refl NS NE) in EF. rewrite insert_request in EF by exact R. subst F.
  pose proof U as (_ & UP & _ & _ & UD & _). rewrite D in UD. cbn [opt_utf8] in UD.
  destruct (C64_request te td m d (u_scheme u) (u_path u) fs id es eh max L parts_default rest) as (te' & td' & out & _ & E & K); try assumption.
  exists te', td', out. eexists. split; [exact E|]. split; [exact K|]. rewrite <- (pseudo_exact m u U).
  unfold headers_into_request, parts_build_url, parts_request. cbn [hf_parts pt_authority pt_scheme pt_path pt_method hf_fields]. rewrite D.
  rewrite (legal_not_none _ LS). destruct (u_path u) as [|b p] eqn:Ep; [congruence|].
  destruct (url_parse _) as [u'|e| |]; cbn [bind]; split; try discriminate; try (intros (q & Q & _); discriminate Q).
  - intros (q & Q & <-). injection Q as <-. destruct (url_connect u'); reflexivity.
  - intros E'. injection E' as ->. eexists. split; [reflexivity|]. destruct (url_connect u); reflexivity.
Qed.
Print Assumptions C55_exact_end_to_end.
Example C55_exact_nonvacuous : exists u v, url_parse (str "wss://h/a/b") = Ok u /\ utf8_url u /\ parts_build_url (parts_request MGet u None) = Ok u /\
  url_parse (str "wss://h/a/b?c") = Ok v /\ utf8_url v /\ parts_build_url (parts_request MGet v None) <> Ok v /\
  connection hi_new hi_new (hm_insert_all (parts_encode_header (parts_request MGet v None) []) sample_fields).
Proof.
  do 2 eexists. split; [vm_compute; reflexivity|].
  split; [repeat split; cbn; try (apply utf8_valid_iff; reflexivity)|]. split; [vm_compute; reflexivity|]. split; [vm_compute; reflexivity|].
  split; [repeat split; cbn; try (apply utf8_valid_iff; reflexivity)|]. split; [vm_compute; discriminate|]. apply fresh_connection; [vm_compute; reflexivity..|vm_compute; lia].
Qed.

(** C62. For every decoder that has read any blocks and every octets: they decode to fields exactly when they are a sequence of
    field representations in the sense of S_HpackAll.v, which differs from RFC 7541 in entry 15, in whole-field indices of more than
    one octet, in the EOS symbol and in names that are not UTF-8, and knows no size updates. *)
Theorem C62_exact : forall t buf t' fs, decoder_reach t -> bytes_ok buf ->
  (decode_headers t buf = (t', Ok fs) <->
   exists dyn', block_read (hi_max t) (hi_table t) buf fs dyn' /\ t' = mkIdx dyn' (total_size dyn') (hi_max t)).
Proof. intros t buf t' fs H B. apply decode_iff; [apply reach_inv, H|exact B]. Qed.
Print Assumptions C62_exact.
(** The conversion of names is the substitution of maximal subparts. *)
Theorem C62_lossy : forall l s, name_from_bytes l = s <-> lossy l s.
Proof. intros l s. rewrite lossy_iff. unfold name_from_bytes. split; congruence. Qed.
Print Assumptions C62_lossy.
Example C62_exact_nonvacuous : decoder_reach hi_new /\
  block_read 4096 [] [130; 64; 2; 195; 40; 132; 255; 255; 255; 255] [(str ":method", str "GET"); ([239; 191; 189; 40], [0])] [([239; 191; 189; 40], [0])] /\
  decode_headers hi_new [130; 64; 2; 195; 40; 132; 255; 255; 255; 255] =
    (mkIdx [([239; 191; 189; 40], [0])] 37 4096, Ok [(str ":method", str "GET"); ([239; 191; 189; 40], [0])]) /\
  lossy [240; 159; 146; 65; 237; 160; 128] (utf8_enc 0xFFFD ++ [65] ++ utf8_enc 0xFFFD ++ utf8_enc 0xFFFD ++ utf8_enc 0xFFFD).
Proof.
  assert (E : decode_headers hi_new [130; 64; 2; 195; 40; 132; 255; 255; 255; 255] =
    (mkIdx [([239; 191; 189; 40], [0])] 37 4096, Ok [(str ":method", str "GET"); ([239; 191; 189; 40], [0])])) by (vm_compute; reflexivity).
  split; [constructor|]. split; [|split; [exact E|]].
  - apply C62_exact in E as (dyn' & H & K); [|constructor|apply bytes_okb_ok; reflexivity]. injection K as <- _. exact H.
  - apply lossy_iff. vm_compute. reflexivity.
Qed.
