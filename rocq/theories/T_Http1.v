(** Properties C01-C11 and C59, C60: HTTP/1 message heads. *)
From Coq Require Import Ascii String NArith ZArith Bool List.
From Verif Require Import Base M_Std M_Helper M_Header M_Url M_Http1 S_Http1 S_Http1Api S_Reason P_Base P_Helper P_Header P_Http1 P_Msg.
Import ListNotations.
Local Open Scope N_scope.

(** ** C01: header blocks.
    Names are RFC 7230 tokens, values have no CR and no leading space, and no
    two names are equal for HeaderName's comparison: what is written is read
    back, in order, and the bytes after the blank line are left alone. *)
Theorem C01_header_roundtrip : forall h rest,
  Forall (fun nv => name_ok (fst nv) /\ value_ok (snd nv)) h -> distinct_names h ->
  hm_encode h = fields_text h /\ parse_header (hm_encode h ++ rest) = (h, Ok rest).
Proof. intros h rest H D. split; [reflexivity|]. exact (header_roundtrip h rest H D). Qed.
Print Assumptions C01_header_roundtrip.

(** A map built by any history of HeaderMap calls never has two equal names, so
    every reachable map with legal names and values round-trips. *)
Theorem C01_built_maps_roundtrip : forall ops h rest,
  hops_run ops = Ok h -> Forall (fun nv => name_ok (fst nv) /\ value_ok (snd nv)) h ->
  parse_header (hm_encode h ++ rest) = (h, Ok rest).
Proof. intros ops h rest H F. exact (header_roundtrip h rest F (distinct_hops ops h H)). Qed.
Print Assumptions C01_built_maps_roundtrip.

(** What was parsed once is written and parsed again unchanged. *)
Theorem C01_parsed_maps_roundtrip : forall l h r r',
  bytes_ok l -> parse_header l = (h, Ok r) -> parse_header (hm_encode h ++ r') = (h, Ok r').
Proof. exact header_reencode. Qed.
Print Assumptions C01_parsed_maps_roundtrip.

(** The accepted header blocks, exactly. *)
Theorem C01_header_block_exact : forall l h r, bytes_ok l ->
  (parse_header l = (h, Ok r) <-> exists fs hs, fields fs hs /\ l = fs ++ r /\ h = add_fields [] hs).
Proof. exact header_exact. Qed.
Print Assumptions C01_header_block_exact.

(** The hypotheses are needed: two different legal names that the crate's
    comparison identifies are merged, and a leading space is lost. *)
Theorem C01_confused_names_refuted : exists h, Forall (fun nv => name_ok (fst nv) /\ value_ok (snd nv)) h /\
  NoDup (map (fun nv => map (fun b => if (65 <=? b) && (b <=? 90) then b + 32 else b) (fst nv)) h) /\
  parse_header (hm_encode h) <> (h, Ok []).
Proof.
  exists [(str "x-1", str "a"); (str "x-Q", str "b")]. split; [|split].
  - apply fields_okb_ok. reflexivity.
  - repeat constructor; cbn; intuition discriminate.
  - vm_compute. discriminate.
Qed.
Print Assumptions C01_confused_names_refuted.
Theorem C01_leading_space_refuted : exists n v, name_ok n /\ bytes_ok v /\ ~ In CR v /\
  parse_header (hm_encode [(n, v)]) <> ([(n, v)], Ok []).
Proof.
  exists (str "a"), (str " b"). split; [|split; [|split]].
  - apply name_okb_ok. reflexivity.
  - apply bytes_okb_ok. reflexivity.
  - cbn. unfold CR. intuition discriminate.
  - vm_compute. discriminate.
Qed.
Print Assumptions C01_leading_space_refuted.

Definition sample_headers : headers :=
  [(str "Host", str "example.com:8080"); (str "X-Empty", []); (str "Accept", str "*/*; q=0.8 : x")].
Example sample_headers_ok : fields_ok sample_headers /\ distinct_names sample_headers.
Proof. split; [apply fields_okb_ok; reflexivity|cbn; repeat split; repeat constructor]. Qed.
Example C01_nonvacuous :
  parse_header (hm_encode sample_headers ++ str "BODY") = (sample_headers, Ok (str "BODY")).
Proof. vm_compute. reflexivity. Qed.

(** ** C02: request heads. *)
Theorem C02_request_head : forall q m t v hs u body,
  In m known_methods -> In v known_versions -> word t ->
  Forall (fun nv => name_ok (fst nv) /\ value_ok (snd nv)) hs -> distinct_names hs ->
  wire_url m t hs u ->
  req_parse q (request_text (method_str m) t (version_str v) hs ++ body) =
    (mkReq m v u hs false, Ok (blen (request_text (method_str m) t (version_str v) hs))).
Proof. exact request_accept. Qed.
Print Assumptions C02_request_head.

(** The accepted request heads, exactly, with the request each one denotes. *)
Theorem C02_request_exact : forall q l q' n, bytes_ok l ->
  (req_parse q l = (q', Ok n) <->
   exists wire rest m t v hs u, l = wire ++ rest /\ n = blen wire /\
     In m known_methods /\ In v known_versions /\
     request_head wire (method_str m) t (version_str v) hs /\
     wire_url m t (add_fields [] hs) u /\
     q' = mkReq m v u (add_fields [] hs) false).
Proof. exact request_exact. Qed.
Print Assumptions C02_request_exact.

(** The accepted response heads, exactly. *)
Theorem C02_response_exact : forall p l p' n, bytes_ok l ->
  (resp_parse p l = (p', Ok n) <->
   exists wire rest v c hs, l = wire ++ rest /\ n = blen wire /\
     In v known_versions /\ 100 <= c <= 999 /\
     response_head wire (version_str v) (status_str c) hs /\
     p' = mkResp c v (add_fields [] hs) false).
Proof. exact response_exact. Qed.
Print Assumptions C02_response_exact.

Definition sample_url : url := mkUrl ScHttp (str "/a") None None (Some (str "example.com")) (Some 8080) None.
Example C02_nonvacuous :
  wire_url MGet (str "/a") sample_headers sample_url /\
  req_parse req_default (request_text (str "GET") (str "/a") (str "HTTP/1.1") sample_headers ++ str "BODY")
  = (mkReq MGet V11 sample_url sample_headers false, Ok 78).
Proof.
  split; [|vm_compute; reflexivity]. apply wire_url_spec. vm_compute. reflexivity.
Qed.
(** The grammar is laxer than the RFC: a single space after the version is taken
    for the end of the line. *)
Example C02_space_ends_line : exists q, req_parse req_default (str "GET / HTTP/1.1 Host: a" ++ CRLF ++ CRLF) = (q, Ok 26)
  /\ q_header q = [(str "Host", str "a")].
Proof. eexists. split; [vm_compute; reflexivity|reflexivity]. Qed.

(** ** C03: serialise and parse a request head.
    Missing for the full statement: the query is not written at all, a path
    with '%' is written unescaped and decoded again, and CONNECT writes the path
    (see the refuted theorems). *)
Theorem C03_request_roundtrip_partial : forall q q0 body,
  In (q_method q) known_methods -> q_method q <> MConnect -> In (q_version q) known_versions ->
  plain_path (u_path (q_url q)) -> u_query (q_url q) = None ->
  Forall (fun nv => name_ok (fst nv) /\ value_ok (snd nv)) (q_header q) -> distinct_names (q_header q) ->
  (hm_get_host (q_header q) = None \/ exists h d n, hm_get_host (q_header q) = Some h /\ host_parts h d n) ->
  exists w u, req_http1_data q body = Ok (w ++ body) /\
    req_parse q0 (w ++ body) = (mkReq (q_method q) (q_version q) u (q_header q) false, Ok (blen w)) /\
    u_path u = u_path (q_url q) /\ u_query u = u_query (q_url q) /\
    wire_url (q_method q) (u_path (q_url q)) (q_header q) u.
Proof. exact request_roundtrip. Qed.
Print Assumptions C03_request_roundtrip_partial.

(** A parsed request with a Host header and a plain target is written and parsed
    again to the very same request. *)
Theorem C03_request_reparse_partial : forall q0 q1 l q n w body,
  bytes_ok l -> req_parse q0 l = (q, Ok n) ->
  q_method q <> MConnect -> plain_path (u_path (q_url q)) ->
  (exists h d pt, hm_get_host (q_header q) = Some h /\ host_parts h d pt /\
                  u_domain (q_url q) = Some d /\ u_port (q_url q) = Some pt) ->
  u_user (q_url q) = None -> u_pass (q_url q) = None -> u_query (q_url q) = None ->
  scheme_hint (q_header q) (u_scheme (q_url q)) ->
  req_http1_data q body = Ok w -> req_parse q1 w = (q, Ok (blen w - blen body)).
Proof. exact request_reparse. Qed.
Print Assumptions C03_request_reparse_partial.

Theorem C03_query_refuted : exists q n q' w n',
  req_parse req_default (str "GET /a?b=1 HTTP/1.1" ++ CRLF ++ CRLF) = (q, Ok n) /\
  req_http1_data q [] = Ok w /\ req_parse req_default w = (q', Ok n') /\
  u_query (q_url q) = Some (str "b=1") /\ u_query (q_url q') = None.
Proof. do 5 eexists. repeat split; (vm_compute; reflexivity). Qed.
Print Assumptions C03_query_refuted.
Theorem C03_path_refuted : exists q n q' w n',
  req_parse req_default (str "GET /%2541 HTTP/1.1" ++ CRLF ++ CRLF) = (q, Ok n) /\
  req_http1_data q [] = Ok w /\ req_parse req_default w = (q', Ok n') /\
  u_path (q_url q) = str "/%41" /\ u_path (q_url q') = str "/A".
Proof. do 5 eexists. repeat split; (vm_compute; reflexivity). Qed.
Print Assumptions C03_path_refuted.
Theorem C03_connect_refuted : exists q n q' w n',
  req_parse req_default (str "CONNECT host:443 HTTP/1.1" ++ CRLF ++ CRLF) = (q, Ok n) /\
  req_http1_data q [] = Ok w /\ req_parse req_default w = (q', Ok n') /\
  u_domain (q_url q) = Some (str "host") /\ u_domain (q_url q') = Some (str "/").
Proof. do 5 eexists. repeat split; (vm_compute; reflexivity). Qed.
Print Assumptions C03_connect_refuted.

Definition sample_request : request := mkReq MPut V10 sample_url sample_headers false.
Example C03_nonvacuous :
  plain_path (u_path (q_url sample_request)) /\
  host_parts (str "example.com:8080") (str "example.com") 8080 /\
  hm_get_host (q_header sample_request) = Some (str "example.com:8080") /\
  scheme_hint (q_header sample_request) (u_scheme (q_url sample_request)) /\
  exists w, req_http1_data sample_request (str "xyz") = Ok w /\ req_parse req_default w = (sample_request, Ok 78).
Proof.
  split; [|split; [|split; [|split]]].
  - split; [reflexivity|]. repeat apply Forall_cons; try apply Forall_nil; vm_compute; repeat split; discriminate.
  - change (str "example.com:8080") with (str "example.com" ++ COLON :: str "8080").
    apply hp_port; [cbn; unfold COLON; intuition discriminate..|]. apply parse_uint_spec. reflexivity.
  - vm_compute. reflexivity.
  - apply hint_of_spec. reflexivity.
  - eexists. split. { vm_compute. reflexivity. } vm_compute. reflexivity.
Qed.

(** ** C04: more bytes never change a finished verdict (nor the object left
    behind). [partial] is the crate's Partial error. *)
Theorem C04_request_stable : forall q l x,
  snd (req_parse q l) <> partial -> req_parse q (l ++ x) = req_parse q l.
Proof. exact request_stable. Qed.
Print Assumptions C04_request_stable.
Theorem C04_response_stable : forall p l x,
  snd (resp_parse p l) <> partial -> resp_parse p (l ++ x) = resp_parse p l.
Proof. exact response_stable. Qed.
Print Assumptions C04_response_stable.
Theorem C04_header_stable : forall l x h r, parse_header l = (h, r) -> r <> partial ->
  parse_header (l ++ x) = (h, match r with Ok rest => Ok (rest ++ x) | _ => r end).
Proof. exact header_stable. Qed.
Print Assumptions C04_header_stable.
Example C04_nonvacuous :
  snd (req_parse req_default (str "GET /a HTTP/9")) = partial /\
  snd (req_parse req_default (str "GET /a HTTP/9 ")) = Err (EHttp VersionErr) /\
  snd (resp_parse resp_default (str "HTTP/1.1 99 ")) = Err (EHttp InvalidStatusCode) /\
  snd (parse_header (str "a b: c")) = Err (EHttp HeaderNameErr).
Proof. repeat split; vm_compute; reflexivity. Qed.

(** ** C05: strict prefixes are Partial. *)
Theorem C05_request_prefix : forall q l q' n p s,
  req_parse q l = (q', Ok n) -> l = p ++ s -> blen p < n -> snd (req_parse q p) = partial.
Proof. exact req_prefix. Qed.
Print Assumptions C05_request_prefix.
Theorem C05_response_prefix : forall q l q' n p s, bytes_ok l ->
  resp_parse q l = (q', Ok n) -> l = p ++ s -> blen p < n -> snd (resp_parse q p) = partial.
Proof. exact resp_prefix. Qed.
Print Assumptions C05_response_prefix.
Example C05_nonvacuous : exists q, req_parse req_default (str "GET / HTTP/1.1" ++ CRLF ++ CRLF) = (q, Ok 18) /\
  snd (req_parse req_default (str "GET / HTTP/1.1" ++ CRLF ++ [CR])) = partial.
Proof. eexists. split. { vm_compute. reflexivity. } vm_compute. reflexivity. Qed.

(** ** C06: the consumed count is exact. *)
Theorem C06_request_consumed : forall q l q' n tail, bytes_ok l ->
  req_parse q l = (q', Ok n) ->
  n <= blen l /\ req_parse q (firstn (N.to_nat n) l ++ tail) = (q', Ok n).
Proof. exact req_tail. Qed.
Print Assumptions C06_request_consumed.
Theorem C06_response_consumed : forall p l p' n tail, bytes_ok l ->
  resp_parse p l = (p', Ok n) ->
  n <= blen l /\ resp_parse p (firstn (N.to_nat n) l ++ tail) = (p', Ok n).
Proof. exact resp_tail. Qed.
Print Assumptions C06_response_consumed.
Example C06_nonvacuous : exists p,
  resp_parse resp_default (str "HTTP/1.1 404 Not Found" ++ CRLF ++ str "a: b" ++ CRLF ++ CRLF ++ str "HTTP") = (p, Ok 32).
Proof. eexists. vm_compute. reflexivity. Qed.

(** ** C07: totality. *)
Theorem C07_request_total : forall q l, snd (req_parse q l) <> Panic /\ snd (req_parse q l) <> Diverge.
Proof. exact req_total. Qed.
Print Assumptions C07_request_total.
Theorem C07_response_total : forall p l, snd (resp_parse p l) <> Panic /\ snd (resp_parse p l) <> Diverge.
Proof. exact resp_total. Qed.
Print Assumptions C07_response_total.
Theorem C07_header_total : forall l, snd (parse_header l) <> Panic /\ snd (parse_header l) <> Diverge.
Proof. exact parse_header_total. Qed.
Print Assumptions C07_header_total.
Example C07_nonvacuous :
  snd (req_parse req_default [255; 0; 13]) = Err (EHttp Token) /\
  snd (req_parse req_default (str "GET /%zz HTTP/1.1" ++ CRLF ++ CRLF)) = Err (EUrl UrlInvalid).
Proof. split; vm_compute; reflexivity. Qed.

(** ** C08 is false: some inputs are reported Partial whatever follows. *)
Theorem C08_tab_refuted : exists l, bytes_ok l /\ forall x, snd (req_parse req_default (l ++ x)) = partial.
Proof.
  exists (str "GET / HTTP/1.1" ++ [9]). split.
  - apply bytes_okb_ok. reflexivity.
  - intros x. reflexivity.
Qed.
Print Assumptions C08_tab_refuted.
Theorem C08_escape_refuted : exists l, bytes_ok l /\ forall x, snd (req_parse req_default (l ++ x)) = partial.
Proof.
  exists (str "GET /%4 HTTP/1.1" ++ CRLF ++ CRLF). split.
  - apply bytes_okb_ok. reflexivity.
  - intros x. rewrite req_parse_eq. cbn [snd].
    rewrite (req_parse_head req_default (str "GET /%4 HTTP/1.1" ++ CRLF ++ CRLF) MGet (str "/%4") V11 [] x).
    + reflexivity.
    + apply (request_text_head MGet (str "/%4") V11 []); try (cbn; tauto); [|constructor].
      split; [discriminate|]. repeat constructor; vm_compute; discriminate.
    + cbn; tauto.
    + cbn; tauto.
Qed.
Print Assumptions C08_escape_refuted.

(** ** C09: responses.
    Partial: the 60 codes with a canonical reason; the others cannot be written. *)
Theorem C09_response_roundtrip_partial : forall p p0 rs body,
  In (p_version p) known_versions -> canonical_reason (p_status p) = Some rs ->
  Forall (fun nv => name_ok (fst nv) /\ value_ok (snd nv)) (p_header p) -> distinct_names (p_header p) ->
  exists w, resp_httpdata p body = Ok (w ++ body) /\
    w = response_text (version_str (p_version p)) (status_str (p_status p)) rs (p_header p) /\
    resp_parse p0 (w ++ body) = (mkResp (p_status p) (p_version p) (p_header p) false, Ok (blen w)).
Proof. exact response_roundtrip. Qed.
Print Assumptions C09_response_roundtrip_partial.
(** Reading has no such restriction: any code and any non-empty reason phrase. *)
Theorem C09_response_head : forall p v c rs hs body,
  In v known_versions -> 100 <= c <= 999 -> reason_ok rs ->
  Forall (fun nv => name_ok (fst nv) /\ value_ok (snd nv)) hs -> distinct_names hs ->
  resp_parse p (response_text (version_str v) (status_str c) rs hs ++ body) =
    (mkResp c v hs false, Ok (blen (response_text (version_str v) (status_str c) rs hs))).
Proof. exact response_accept. Qed.
Print Assumptions C09_response_head.
(** Without a canonical reason nothing is written, for every such code. *)
Theorem C09_unwritable : forall p body,
  In (p_version p) known_versions -> canonical_reason (p_status p) = None ->
  resp_httpdata p body = Err (EHttp InvalidStatusCode).
Proof. exact response_no_reason. Qed.
Print Assumptions C09_unwritable.
Theorem C09_refuted : exists p, 100 <= p_status p <= 999 /\ p_version p = V11 /\ p_header p = [] /\
  resp_httpdata p [] = Err (EHttp InvalidStatusCode).
Proof. exists (mkResp 299 V11 [] false). repeat split; vm_compute; try discriminate. Qed.
Print Assumptions C09_refuted.
(** A response with an empty reason phrase, which RFC 7230 allows, is refused. *)
Theorem C09_empty_reason_refuted : exists e, e <> EHttp Partial /\
  snd (resp_parse resp_default (str "HTTP/1.1 200 " ++ CRLF ++ CRLF)) = Err e.
Proof. exists (EHttp Token). split; [discriminate|vm_compute; reflexivity]. Qed.
Print Assumptions C09_empty_reason_refuted.
Example C09_nonvacuous :
  canonical_reason 404 = Some (str "Not Found") /\
  exists w, resp_httpdata (mkResp 404 V11 sample_headers false) (str "xyz") = Ok w /\
    resp_parse resp_default w = (mkResp 404 V11 sample_headers false, Ok 85).
Proof. split; [reflexivity|]. eexists. split. { vm_compute. reflexivity. } vm_compute. reflexivity. Qed.

(** ** C10: status codes. *)
Theorem C10_from_u16 : forall n c, status_from_u16 n = Ok c <-> c = n /\ 100 <= n <= 999.
Proof. exact from_u16_spec. Qed.
Print Assumptions C10_from_u16.
Theorem C10_from_bytes : forall l c, bytes_ok l ->
  (status_from_bytes l = Ok c <-> 100 <= c <= 999 /\ l = three_digits c).
Proof. exact from_bytes_spec. Qed.
Print Assumptions C10_from_bytes.
Theorem C10_from_bytes_error : forall l,
  (exists c, status_from_bytes l = Ok c) \/ status_from_bytes l = Err (EHttp InvalidStatusCode).
Proof. exact from_bytes_err. Qed.
Print Assumptions C10_from_bytes_error.
Theorem C10_as_str : forall c, 100 <= c <= 999 ->
  status_str c = three_digits c /\ status_from_bytes (status_str c) = Ok c.
Proof. intros c H. exact (conj (status_str_three c H) (status_str_from c H)). Qed.
Print Assumptions C10_as_str.
Definition classes (c : N) : list bool :=
  [is_informational c; is_success c; is_redirection c; is_client_error c; is_server_error c].
Theorem C10_classes : forall c, 100 <= c <= 999 ->
  length (filter id (classes c)) = (if (c <? 600)%N then 1 else 0)%nat /\
  forall k, (k < 5)%nat -> (nth k (classes c) false = true <-> c / 100 = N.of_nat k + 1).
Proof.
  intros c H. split.
  - apply Nat.eqb_eq. revert c H.
    apply (code_sweep (fun c => Nat.eqb (length (filter id (classes c))) (if (c <? 600)%N then 1 else 0)%nat)).
    vm_compute. reflexivity.
  - intros k Hk.
    assert (E : forallb (fun k => eqb (nth k (classes c) false) (c / 100 =? N.of_nat k + 1)) (seq 0 5) = true).
    { revert c H. apply code_sweep. vm_compute. reflexivity. }
    rewrite forallb_forall in E. specialize (E k). rewrite in_seq in E.
    apply eqb_prop in E; [|split; [apply Nat.le_0_l|exact Hk]]. rewrite E. apply N.eqb_eq.
Qed.
Print Assumptions C10_classes.
(** The canonical phrase is the registered one. The exceptions: 103 and 425 have
    none, and 203 lost its hyphen. *)
Theorem C61_reason_phrases_partial : forall c t, 100 <= c <= 999 -> ~ In c [103; 203; 425] ->
  (canonical_reason c = Some t <-> registered c t).
Proof. exact reason_registered. Qed.
Print Assumptions C61_reason_phrases_partial.
Theorem C61_reason_phrases_refuted :
  canonical_reason 103 = None /\ canonical_reason 425 = None /\
  canonical_reason 203 = Some (str "Non Authoritative Information") /\ registered 203 (str "Non-Authoritative Information").
Proof. repeat split. eexists. split; [|reflexivity]. cbn. auto 10. Qed.
Print Assumptions C61_reason_phrases_refuted.
Example C61_nonvacuous : ~ In 404 [103; 203; 425] /\ canonical_reason 404 = Some (str "Not Found") /\ canonical_reason 299 = None.
Proof. split; [cbn; intuition discriminate|split; vm_compute; reflexivity]. Qed.
Example C10_nonvacuous : status_from_bytes (str "404") = Ok 404 /\ status_from_bytes (str "0404") = Err (EHttp InvalidStatusCode)
  /\ status_from_bytes (str "099") = Err (EHttp InvalidStatusCode) /\ three_digits 507 = str "507".
Proof. repeat split. Qed.

(** ** C11: methods and versions. *)
Theorem C11_method_try_from : forall t m,
  method_of_str t = Ok m <-> exists s, In (m, s) method_names /\ t = str s.
Proof. exact method_try_from. Qed.
Print Assumptions C11_method_try_from.
Theorem C11_method_rejects : forall t,
  (forall m s, In (m, s) method_names -> t <> str s) -> method_of_str t = Err (EHttp MethodErr).
Proof. exact method_try_from_err. Qed.
Print Assumptions C11_method_rejects.
Theorem C11_method_as_str : forall m s, In (m, s) method_names ->
  method_str m = str s /\ method_encode m = Ok (str s).
Proof.
  intros m s H. apply method_names_spec in H as [H <-]. split; [reflexivity|apply method_str_encode, H].
Qed.
Print Assumptions C11_method_as_str.
(** The other methods: one that was never set has a text of its own that is not read back and is not written as a word of
    a request line; an extension is its text. *)
Theorem C11_method_others : method_str MNone = str "None" /\ method_of_str (str "None") = Err (EHttp MethodErr) /\
  method_encode MNone = Err (ESerialize "method") /\ forall s, method_str (MExt s) = s /\ method_encode (MExt s) = Ok s.
Proof. repeat split. Qed.
Print Assumptions C11_method_others.
Theorem C11_version_parse : forall t b r v r', word t -> ~ vchar b ->
  (parse_version (t ++ b :: r) = Ok (v, r') <-> r' = b :: r /\ exists s, In (v, s) version_names /\ t = str s).
Proof. exact version_parse_spec. Qed.
Print Assumptions C11_version_parse.
Theorem C11_version_rejects : forall t b r, word t -> ~ vchar b ->
  (forall v s, In (v, s) version_names -> t <> str s) -> parse_version (t ++ b :: r) = Err (EHttp VersionErr).
Proof. exact version_parse_err. Qed.
Print Assumptions C11_version_rejects.
Theorem C11_version_as_str : forall v s, In (v, s) version_names ->
  version_str v = str s /\ version_encode v = Ok (str s) /\ version_of_str (str s) = v.
Proof.
  intros v s H. split; [apply version_names_spec, H|]. split.
  - apply version_names_spec in H as [H <-]. apply version_str_encode, H.
  - apply version_from_str_spec; [|eauto]. intros ->. cbn in H. intuition discriminate.
Qed.
Print Assumptions C11_version_as_str.
Theorem C11_version_from_str : forall t v, v <> VNone ->
  (version_of_str t = v <-> exists s, In (v, s) version_names /\ t = str s).
Proof. exact version_from_str_spec. Qed.
Print Assumptions C11_version_from_str.
Example C11_nonvacuous : method_of_str (str "get") = Err (EHttp MethodErr) /\
  method_of_str (str "TRACE") = Ok MTrace /\
  parse_version (str "HTTP/2 x") = Ok (V2, str " x") /\ parse_version (str "HTTP/2.0 x") = Err (EHttp VersionErr).
Proof. repeat split. Qed.

(** ** C59: parsing into a used object is parsing into a fresh one. *)
Theorem C59_request_reuse : forall q q' l,
  snd (req_parse q l) = snd (req_parse q' l) /\
  (forall n, snd (req_parse q l) = Ok n -> fst (req_parse q l) = fst (req_parse q' l)).
Proof. exact req_fresh. Qed.
Print Assumptions C59_request_reuse.
Theorem C59_response_reuse : forall p p' l,
  snd (resp_parse p l) = snd (resp_parse p' l) /\
  (forall n, snd (resp_parse p l) = Ok n -> fst (resp_parse p l) = fst (resp_parse p' l)).
Proof. exact resp_fresh. Qed.
Print Assumptions C59_response_reuse.
Example C59_nonvacuous : exists q n, req_parse sample_request (str "GET / HTTP/1.1" ++ CRLF ++ CRLF) = (q, Ok n) /\
  q_header q = [] /\ q_url q = mkUrl ScHttp (str "/") None None None (Some 0) None.
Proof. eexists _, _. split; [vm_compute; reflexivity|]. split; reflexivity. Qed.

(** ** C60: the is_partial flag tells whether a complete head has been seen. *)
Theorem C60_request_flag : forall q l, bytes_ok l ->
  (q_partial (fst (req_parse q l)) = false <->
   exists wire rest m t v hs, l = wire ++ rest /\ In m known_methods /\ In v known_versions /\
     request_head wire (method_str m) t (version_str v) hs).
Proof. exact req_flag. Qed.
Print Assumptions C60_request_flag.
Theorem C60_response_flag : forall p l,
  (p_partial (fst (resp_parse p l)) = false <-> exists n, snd (resp_parse p l) = Ok n).
Proof. exact resp_flag. Qed.
Print Assumptions C60_response_flag.
(** It does not agree with the Partial verdict. *)
Theorem C60_flag_verdict_refuted : exists l, bytes_ok l /\
  snd (req_parse req_default l) = partial /\ q_partial (fst (req_parse req_default l)) = false.
Proof.
  exists (str "GET /%4 HTTP/1.1" ++ CRLF ++ CRLF). split; [apply bytes_okb_ok; reflexivity|].
  split; vm_compute; reflexivity.
Qed.
Print Assumptions C60_flag_verdict_refuted.
Example C60_nonvacuous : q_partial (fst (req_parse req_default (str "GET / HT"))) = true /\
  q_partial (fst (req_parse req_default (str "GET / HTTP/1.1" ++ CRLF ++ CRLF))) = false.
Proof. split; vm_compute; reflexivity. Qed.
