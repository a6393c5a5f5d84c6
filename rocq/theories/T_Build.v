(** C68-C80: URL merging, the builders, header predicates, text forms, copies, and what a receiver sees. *)
From Coq Require Import Ascii String NArith ZArith Lia Bool List.
From Verif Require Import Base P_Base S_Utf8 M_Std M_Helper M_Header M_Url M_Http1 M_Hpack M_Frame M_H2 M_Ext M_Build S_Http1 S_Http1Api S_Hex S_Map S_Url
  S_Hpack S_HpackApi S_Frame S_H2Api S_Ext S_Build P_Http1 P_Msg P_Map P_Url P_UrlForm P_HpackSync P_Settings P_Build P_Build2 P_Build3 P_Build4.
Import ListNotations.
Local Open Scope N_scope.

(** ** C68: Url::merge.
    Component by component: what the other URL sets wins, the rest is kept. *)
Theorem C68_merge : forall a b,
  overrides (sets_scheme b) (u_scheme a) (u_scheme b) (u_scheme (url_merge a b)) /\
  overrides (sets (u_user b)) (u_user a) (u_user b) (u_user (url_merge a b)) /\
  overrides (sets (u_pass b)) (u_pass a) (u_pass b) (u_pass (url_merge a b)) /\
  overrides (sets (u_domain b)) (u_domain a) (u_domain b) (u_domain (url_merge a b)) /\
  overrides (sets_port b) (u_port a) (u_port b) (u_port (url_merge a b)) /\
  overrides (sets_path b) (u_path a) (u_path b) (u_path (url_merge a b)) /\
  overrides (sets (u_query b)) (u_query a) (u_query b) (u_query (url_merge a b)).
Proof. exact merge_parts. Qed.
Print Assumptions C68_merge.
(** Histories of merges: the empty URL is neutral, merging twice is merging once, grouping does not matter. *)
Theorem C68_laws : forall a b c,
  url_merge a url_new = a /\ (u_port b <> Some 0 -> url_merge url_new b = b) /\ url_merge a a = a /\
  url_merge (url_merge a b) c = url_merge a (url_merge b c).
Proof. intros a b c. split; [apply merge_right_new|]. split; [apply merge_left_new|]. split; [apply merge_idem|apply merge_assoc]. Qed.
Print Assumptions C68_laws.
(** A reference "/path?query" replaces the path (unless it is "/") and the query (if it has one) only. *)
Theorem C68_reference : forall a l b, bytes_ok l -> hd_error l = Some 47 -> url_parse l = Ok b ->
  url_merge a b = mkUrl (u_scheme a) (if beq (u_path b) (str "/") then u_path a else u_path b) (u_user a) (u_pass a)
                        (u_domain a) (u_port a) (match u_query b with Some q => Some q | None => u_query a end).
Proof. exact merge_reference. Qed.
Print Assumptions C68_reference.
(** It is not the reference resolution of RFC 3986: merging an absolute URL of another host keeps the user name,
    the password, the path and the query of the first one, and no reference leads back to "/". *)
Theorem C68_absolute_refuted : exists a b u, url_parse (str "http://user:pw@a.example/x?q=1") = Ok a /\
  url_parse (str "http://b.example/") = Ok b /\ url_merge a b = u /\ u_domain u = Some (str "b.example") /\
  u_user u = Some (str "user") /\ u_pass u = Some (str "pw") /\ u_path u = str "/x" /\ u_query u = Some (str "q=1").
Proof. do 3 eexists. split; [vm_compute; reflexivity|]. split; [vm_compute; reflexivity|]. split; [reflexivity|]. vm_compute. repeat split. Qed.
Print Assumptions C68_absolute_refuted.
Theorem C68_root_refuted : exists b, url_parse (str "/") = Ok b /\ forall a, url_merge a b = a.
Proof. eexists. split; [vm_compute; reflexivity|]. intros a. apply url_ext; reflexivity. Qed.
Print Assumptions C68_root_refuted.
Example C68_nonvacuous : exists a b u, url_parse (str "https://h:8443/a?x") = Ok a /\ url_parse (str "/b/c?y") = Ok b /\
  u = url_merge a b /\ url_print u = str "https://h:8443/b/c?y".
Proof. do 3 eexists. split; [vm_compute; reflexivity|]. split; [vm_compute; reflexivity|]. split; [reflexivity|]. vm_compute. reflexivity. Qed.

(** ** C69: the URL builder.
    It fails exactly when a scheme name is longer than 64 bytes, with that call's error; otherwise the URL has, in
    every component, what the last call for it gave. *)
Theorem C69_fails : forall ops e, url_builder ops = Err e <-> first_failure url_op_fails ops e.
Proof. exact url_builder_fails. Qed.
Print Assumptions C69_fails.
Theorem C69_ok : forall ops, (exists u, url_builder ops = Ok u) <-> no_failure url_op_fails ops.
Proof. exact url_builder_ok. Qed.
Print Assumptions C69_ok.
Theorem C69_parts : forall ops u, url_builder ops = Ok u ->
  last_set given_scheme ops ScNone (u_scheme u) /\ last_set given_user ops None (u_user u) /\
  last_set given_pass ops None (u_pass u) /\ last_set given_domain ops None (u_domain u) /\
  last_set given_port ops None (u_port u) /\ last_set given_path ops (str "/") (u_path u) /\
  last_set given_query ops None (u_query u).
Proof. exact url_builder_parts. Qed.
Print Assumptions C69_parts.
(** [last_set] determines the value. *)
Theorem C69_last_unique : forall (O A : Type) (f : O -> option A) ops d a a', last_set f ops d a -> last_set f ops d a' -> a = a'.
Proof. exact @last_set_fun. Qed.
Print Assumptions C69_last_unique.
(** What was built from legal components is printed and parsed back, with the scheme's port where none was set. *)
Theorem C69_display_parse : forall ops u n, url_builder ops = Ok u -> port_of u n -> legal_url (with_port u n) ->
  url_parse (url_print u) = Ok (with_port u n).
Proof. intros ops u n _ P L. exact (url_print_parse_port u n L P). Qed.
Print Assumptions C69_display_parse.
(** So a built URL without a port differs from its parsed text. *)
Theorem C69_equal_refuted : exists ops u u', url_builder ops = Ok u /\ url_parse (url_print u) = Ok u' /\ u <> u'.
Proof.
  exists [OpScheme (str "http"); OpDomain (str "h")]. do 2 eexists. split; [vm_compute; reflexivity|]. split; [vm_compute; reflexivity|]. discriminate.
Qed.
Print Assumptions C69_equal_refuted.
Definition sample_url_ops : list url_op :=
  [OpScheme (str "ws"); OpDomain (str "x"); OpScheme (str "https"); OpPath (str "/a b"); OpDomain (str "example.com"); OpQuery (str "k=v")].
Example C69_nonvacuous : exists u, url_builder sample_url_ops = Ok u /\ no_failure url_op_fails sample_url_ops /\ port_of u 443 /\
  legal_url (with_port u 443) /\ url_print u = str "https://example.com/a%20b?k=v".
Proof.
  eexists. split; [vm_compute; reflexivity|]. split; [apply url_builder_ok; eexists; vm_compute; reflexivity|].
  split; [apply po_default; [reflexivity|cbn; auto]|]. split; [|vm_compute; reflexivity].
  unfold legal_url, with_port. cbn [u_scheme u_domain u_port u_user u_pass u_path u_query]. split; [constructor|].
  split; [eexists; split; [reflexivity|apply host_charb; vm_compute; reflexivity]|]. split; [exists 443; split; reflexivity|].
  split; [left; auto|]. split; [split; [reflexivity|apply free_ofb; vm_compute; reflexivity]|].
  right. eexists. split; [reflexivity|apply free_ofb; vm_compute; reflexivity].
Qed.
Example C69_too_long : url_builder [OpPort 1; OpScheme (repeat 97 65); OpPort 2] = Err (EUrl UrlInvalid) /\
  first_failure url_op_fails [OpPort 1; OpScheme (repeat 97 65); OpPort 2] (EUrl UrlInvalid).
Proof. split; [vm_compute; reflexivity|apply url_builder_fails; vm_compute; reflexivity]. Qed.

(** ** C70: the request builder.
    The first failing call decides the error, whatever follows; without one the request has what the last call for
    each part gave, and the header is the given fields inserted in order, "Host" of every URL with a domain
    included, and "User-Agent: wenmeng" if there is none. *)
Theorem C70_fails : forall ops e, req_build ops = Err e <-> first_failure req_op_fails ops e.
Proof. exact req_build_fails. Qed.
Print Assumptions C70_fails.
Theorem C70_ok : forall ops, (exists q, req_build ops = Ok q) <-> no_failure req_op_fails ops.
Proof. exact req_build_ok. Qed.
Print Assumptions C70_ok.
Theorem C70_parts : forall ops q, req_build ops = Ok q ->
  last_set given_method ops MGet (q_method q) /\ last_set given_version ops V11 (q_version q) /\
  last_set given_url ops url_new (q_url q).
Proof. intros ops q E. apply req_build_parts in E as (A & B & C & _). auto. Qed.
Print Assumptions C70_parts.
(** The header as a map: under any names that the crate compares up to letter case. *)
Theorem C70_header : forall names ops q, clash_free_names names -> In (str "User-Agent") names ->
  Forall (fun nv => In (fst nv) names) (flat_map given_fields ops) -> req_build ops = Ok q ->
  let fs := with_default (str "User-Agent") (str "wenmeng") (flat_map given_fields ops) in
  map (fun nv => (fst nv, Some (snd nv))) (q_header q) = a_items (a_run (inserts fs)) /\
  forall n, In n names -> hm_get (q_header q) n = last_field n fs.
Proof. exact req_build_header. Qed.
Print Assumptions C70_header.
(** The accessors of the builder show nothing exactly when a call has failed. *)
Theorem C70_refs : forall ops,
  (rb_method_ref (req_builder ops) = None <-> exists e, first_failure req_op_fails ops e) /\
  (rb_url_ref (req_builder ops) = None <-> exists e, first_failure req_op_fails ops e) /\
  (rb_version_ref (req_builder ops) = None <-> exists e, first_failure req_op_fails ops e) /\
  (rb_headers_ref (req_builder ops) = None <-> exists e, first_failure req_op_fails ops e).
Proof.
  intros ops. assert (G : forall (B : Type) (f : request -> B), ref (req_builder ops) f = None <-> exists e, first_failure req_op_fails ops e).
  { intros B f. destruct (req_builder_returns ops) as [[q E]|[e E]]; rewrite E; cbn [ref].
    - split; [discriminate|]. intros [e K]. apply req_builder_fails in K. congruence.
    - split; [|reflexivity]. intros _. exists e. apply req_builder_fails, E. }
  repeat split; apply G.
Qed.
Print Assumptions C70_refs.
(** Sent with http1_data and parsed, a built request arrives.  Missing for the full statement: the restrictions of
    C03, and schemes other than http. *)
Theorem C70_sent_partial : forall ops q q0 body pa d p, req_build ops = Ok q ->
  In (q_method q) known_methods -> q_method q <> MConnect -> In (q_version q) known_versions ->
  q_url q = mkUrl ScHttp pa None None (Some d) (Some p) None -> plain_path pa -> Forall host_char d -> p < 65536 ->
  fields_ok (flat_map given_fields ops) ->
  hm_get (q_header q) (str "host") = Some (d ++ COLON :: dec_print p) -> hm_get (q_header q) (str ":scheme") = None ->
  exists w, req_http1_data q body = Ok (w ++ body) /\ req_parse q0 (w ++ body) = (req_set_partial q false, Ok (blen w)).
Proof.
  intros ops q q0 body pa d p E M C V U PP HC P F H S. destruct (req_build_header_ok ops q E F) as [F' D].
  apply (request_sent q q0 body pa d p); assumption.
Qed.
Print Assumptions C70_sent_partial.
(** A built request calls itself partial, unlike a parsed one. *)
Theorem C70_partial_refuted : forall ops q, req_build ops = Ok q -> q_partial q = true.
Proof. intros ops q E. apply req_build_parts in E. tauto. Qed.
Print Assumptions C70_partial_refuted.
(** A URL text given to the builder can put line breaks into the Host field: the receiver sees another field. *)
Theorem C70_injection_refuted : exists q w q' n, req_build [RbUrl (str "http://a%0d%0aX-Evil%3a%201/")] = Ok q /\ req_http1_data q [] = Ok w /\
  req_parse req_default w = (q', Ok n) /\ hm_get (q_header q) (str "X-Evil") = None /\ hm_get (q_header q') (str "X-Evil") <> None.
Proof.
  do 4 eexists. split; [vm_compute; reflexivity|]. split; [vm_compute; reflexivity|]. split; [vm_compute; reflexivity|].
  split; [vm_compute; reflexivity|]. vm_compute. discriminate.
Qed.
Print Assumptions C70_injection_refuted.
(** A later URL without a domain leaves the Host of the earlier one. *)
Theorem C70_stale_host_refuted : exists q, req_build [RbUrl (str "http://a/"); RbUrl (str "/b")] = Ok q /\
  u_domain (q_url q) = None /\ hm_get (q_header q) (str "Host") = Some (str "a:80").
Proof. eexists. split; [vm_compute; reflexivity|]. split; reflexivity. Qed.
Print Assumptions C70_stale_host_refuted.
Definition sample_ops : list req_op :=
  [RbMethod (str "POST"); RbUrl (str "http://h:8080/x"); RbHeader (str "Accept") (str "a"); RbVersion V10;
   RbHeader (str "ACCEPT") (str "b"); RbMethod (str "PUT")].
Definition sample_names : list bytes := map str ["Host"; "host"; "Accept"; "ACCEPT"; "User-Agent"; "accept"; ":scheme"]%string.
Example C70_nonvacuous : exists q, req_build sample_ops = Ok q /\ q_method q = MPut /\ q_version q = V10 /\
  q_header q = [(str "Host", str "h:8080"); (str "Accept", str "b"); (str "User-Agent", str "wenmeng")] /\
  clash_free_names sample_names /\ Forall (fun nv => In (fst nv) sample_names) (flat_map given_fields sample_ops) /\
  plain_path (u_path (q_url q)) /\ fields_ok (flat_map given_fields sample_ops) /\ hm_get (q_header q) (str ":scheme") = None.
Proof.
  eexists. split; [vm_compute; reflexivity|]. split; [reflexivity|]. split; [reflexivity|]. split; [reflexivity|].
  split; [apply clash_freeb_ok; vm_compute; reflexivity|]. split; [apply in_names; vm_compute; reflexivity|].
  split; [apply plain_pathb; vm_compute; reflexivity|]. split; [apply fields_okb_ok; vm_compute; reflexivity|]. vm_compute. reflexivity.
Qed.
Example C70_failing : req_build [RbUrl (str "http://h/"); RbMethod (str "get"); RbUrl (str "x")] = Err (EHttp MethodErr) /\
  first_failure req_op_fails [RbUrl (str "http://h/"); RbMethod (str "get"); RbUrl (str "x")] (EHttp MethodErr).
Proof. split; [vm_compute; reflexivity|apply req_build_fails; vm_compute; reflexivity]. Qed.

(** ** C71: upgrade_http2.
    The receiver of the request, after http1_data and parse, finds the protocol "h2c" and the very settings. *)
Theorem C71_upgrade : forall names ops s q, clash_free_names names -> In (str "User-Agent") names ->
  (forall n, In n ["connection"; "upgrade"; "http2-settings"]%string -> In (str n) names) ->
  Forall (fun nv => In (fst nv) names) (flat_map given_fields (ops ++ [RbUpgrade s])) -> legal_settings s ->
  req_build (ops ++ [RbUpgrade s]) = Ok q ->
  hm_get_upgrade (q_header q) = Some (str "h2c") /\
  hm_get (q_header q) (str "connection") = Some (str "Upgrade, HTTP2-Settings") /\
  exists v, hm_get (q_header q) (str "http2-settings") = Some v /\ parse_http_settings v = Ok s.
Proof.
  intros names ops s q C U I. apply (upgrade_header names); try assumption. intros n H. unfold upgrade_names in H.
  apply in_map_iff in H as (x & <- & H). exact (I x H).
Qed.
Print Assumptions C71_upgrade.
Theorem C71_sent : forall names ops s q q0 body, clash_free_names names -> In (str "User-Agent") names ->
  (forall n, In n ["connection"; "upgrade"; "http2-settings"]%string -> In (str n) names) ->
  Forall (fun nv => In (fst nv) names) (flat_map given_fields (ops ++ [RbUpgrade s])) -> legal_settings s ->
  fields_ok (flat_map given_fields ops) ->
  req_build (ops ++ [RbUpgrade s]) = Ok q -> In (q_method q) known_methods -> In (q_version q) known_versions -> word (u_path (q_url q)) ->
  exists w v, req_http1_data q body = Ok (w ++ body) /\
    let h := q_header (fst (req_parse q0 (w ++ body))) in
    hm_get_upgrade h = Some (str "h2c") /\ hm_get h (str "http2-settings") = Some v /\ parse_http_settings v = Ok s.
Proof.
  intros names ops s q q0 body C U I F L FO E M V W.
  destruct (C71_upgrade names ops s q C U I F L E) as (K1 & _ & v & K2 & K3).
  assert (FA : fields_ok (flat_map given_fields (ops ++ [RbUpgrade s]))).
  { rewrite flat_map_app. apply Forall_app. split; [exact FO|]. cbn [flat_map]. rewrite app_nil_r. apply upgrade_fields_ok, L. }
  destruct (req_build_header_ok _ q E FA) as [F' D].
  destruct (sent_head q q0 body M V W F' D) as (w & E1 & E2). exists w, v. split; [exact E1|].
  destruct (req_parse q0 (w ++ body)) as [q' r]. cbn [fst]. destruct E2 as (_ & _ & H & _). rewrite H. auto.
Qed.
Print Assumptions C71_sent.
Definition sample_settings : settings := with_max_frame_size (with_enable_push settings_default (Some 0)) (Some 65536).
Definition up_names : list bytes := map str ["Host"; "User-Agent"; "Connection"; "connection"; "Upgrade"; "upgrade"; "HTTP2-Settings"; "http2-settings"]%string.
Example C71_nonvacuous : exists q, req_build ([RbUrl (str "http://h/")] ++ [RbUpgrade sample_settings]) = Ok q /\ clash_free_names up_names /\
  Forall (fun nv => In (fst nv) up_names) (flat_map given_fields ([RbUrl (str "http://h/")] ++ [RbUpgrade sample_settings])) /\
  legal_settings sample_settings /\ hm_get (q_header q) (str "http2-settings") = Some (str "AAIAAAAAAAUAAQAA").
Proof.
  eexists. split; [vm_compute; reflexivity|]. split; [apply clash_freeb_ok; vm_compute; reflexivity|].
  split; [apply in_names; vm_compute; reflexivity|]. split; [|vm_compute; reflexivity].
  split; [reflexivity|]. split; repeat constructor; try (vm_compute; intuition discriminate).
Qed.

(** ** C72: header predicates.
    is_keep_alive, is_chunked and get_upgrade_protocol look for a word anywhere in the value. *)
Theorem C72_exact : forall h,
  (hm_is_keep_alive h = true <-> exists v, hm_get h (str "connection") = Some v /\ substring (str "Keep-Alive") v) /\
  (hm_is_chunked h = true <-> exists v, hm_get h (str "transfer-encoding") = Some v /\ substring (str "chunked") v) /\
  (forall p, hm_get_upgrade h = Some p <->
    (exists v, hm_get h (str "connection") = Some v /\ substring (str "Upgrade") v) /\ hm_get h (str "upgrade") = Some p /\ is_utf8 p).
Proof.
  intros h. split; [exact (hm_contains_word h _ _)|]. split; [exact (hm_contains_word h _ _)|]. intros p. apply hm_upgrade_spec.
Qed.
Print Assumptions C72_exact.
(** An element of a comma-separated list that is spelled like the word is recognised.  Missing for the full
    statement: other spellings are not (keep-alive), and words that only contain it are. *)
Theorem C72_elements_partial : forall h v e,
  (hm_get h (str "connection") = Some v -> In e (split_on 44 v) -> strip e = str "Keep-Alive" -> hm_is_keep_alive h = true) /\
  (hm_get h (str "transfer-encoding") = Some v -> In e (split_on 44 v) -> strip e = str "chunked" -> hm_is_chunked h = true).
Proof. intros h v e. split; intros H I E; apply C72_exact; exists v; split; try exact H; eapply element_sub; eassumption. Qed.
Print Assumptions C72_elements_partial.
Theorem C72_case_refuted : exists h, fields_ok h /\ hm_is_keep_alive h = false /\ exists v, hm_get h (str "connection") = Some v /\ list_has v (str "Keep-Alive").
Proof.
  exists [(str "Connection", str "keep-alive")]. split; [apply fields_okb_ok; vm_compute; reflexivity|]. split; [vm_compute; reflexivity|].
  eexists. split; [vm_compute; reflexivity|]. eexists. split; [vm_compute; left; reflexivity|]. vm_compute. reflexivity.
Qed.
Print Assumptions C72_case_refuted.
Theorem C72_not_element_refuted : exists h, fields_ok h /\ hm_is_chunked h = true /\ exists v, hm_get h (str "transfer-encoding") = Some v /\ ~ list_has v (str "chunked").
Proof.
  exists [(str "Transfer-Encoding", str "gzip, not-chunked")]. split; [apply fields_okb_ok; vm_compute; reflexivity|]. split; [vm_compute; reflexivity|].
  eexists. split; [vm_compute; reflexivity|]. intros (e & H & E). vm_compute in H. destruct H as [<-|[<-|[]]]; vm_compute in E; discriminate.
Qed.
Print Assumptions C72_not_element_refuted.
Example C72_nonvacuous : hm_is_keep_alive [(str "connection", str "Upgrade ,	Keep-Alive")] = true /\
  In (str "	Keep-Alive") (split_on 44 (str "Upgrade ,	Keep-Alive")) /\ strip (str "	Keep-Alive") = str "Keep-Alive".
Proof. split; [vm_compute; reflexivity|]. split; [vm_compute; auto|vm_compute; reflexivity]. Qed.

(** ** C73: the same bytes as a value from a string literal and as an owned value.
    When both convert to an integer it is the same one; what the literal gives the owned value gives too unless it
    starts with '+' (or is the smallest isize). *)
Theorem C73_agree : forall v,
  (forall z z', value_isize_stand v = Ok z -> value_isize v = Ok z' -> z = z') /\
  (forall n n', value_usize_stand v = Ok n -> value_usize v = Ok n' -> n = n').
Proof. intros v. split; [exact (isize_agree v)|exact (usize_agree v)]. Qed.
Print Assumptions C73_agree.
Theorem C73_literal_partial : forall v, hd_error v <> Some 43 ->
  (forall z, value_isize_stand v = Ok z -> (- 2 ^ 63 < z)%Z -> value_isize v = Ok z) /\
  (forall n, value_usize_stand v = Ok n -> value_usize v = Ok n).
Proof. intros v H. split; [intros z E; exact (isize_literal v z E H)|intros n E; exact (usize_literal v n E H)]. Qed.
Print Assumptions C73_literal_partial.
Theorem C73_equal_refuted : exists v, value_usize_stand v = Ok 5 /\ value_usize v = Err EInto /\ value_isize_stand v = Ok 5%Z /\ value_isize v = Err EInto.
Proof. exists (str "+5"). repeat split; vm_compute; reflexivity. Qed.
Print Assumptions C73_equal_refuted.
Theorem C73_owned_refuted : exists v w, value_isize v = Ok (-5)%Z /\ value_isize_stand v = Err (EExtension "parse int error") /\
  value_usize w = Ok 0 /\ value_usize_stand w = Err (EExtension "parse int error").
Proof. exists (str "0--5"), []. repeat split; vm_compute; reflexivity. Qed.
Print Assumptions C73_owned_refuted.
Example C73_nonvacuous : value_isize_stand (str "-0042") = Ok (-42)%Z /\ value_isize (str "-0042") = Ok (-42)%Z /\
  value_usize_stand (str "18446744073709551615") = Ok 18446744073709551615 /\ value_usize (str "18446744073709551615") = Ok 18446744073709551615.
Proof. repeat split; vm_compute; reflexivity. Qed.

(** ** C74: HTTP/2 error codes. *)
Theorem C74_registry : map fst error_codes =
  [R_NO_ERROR; R_PROTOCOL_ERROR; R_INTERNAL_ERROR; R_FLOW_CONTROL_ERROR; R_SETTINGS_TIMEOUT; R_STREAM_CLOSED; R_FRAME_SIZE_ERROR;
   R_REFUSED_STREAM; R_CANCEL; R_COMPRESSION_ERROR; R_CONNECT_ERROR; R_ENHANCE_YOUR_CALM; R_INADEQUATE_SECURITY; R_HTTP_1_1_REQUIRED] /\
  (forall c s, In (c, s) error_codes -> reason_debug (reason_from_u32 c) = str s).
Proof. split; [reflexivity|exact reason_known]. Qed.
Print Assumptions C74_registry.
Theorem C74_unknown : forall c, (forall s, ~ In (c, s) error_codes) ->
  (exists ds, reason_debug (reason_from_u32 c) = str "Reason(" ++ ds ++ str ")" /\ ds <> [] /\ hex_num ds c) /\
  reason_description (reason_from_u32 c) = str "unknown reason".
Proof. intros c H. split; [exact (reason_unknown c H)|apply description_unknown, H]. Qed.
Print Assumptions C74_unknown.
(** No code is lost: the number comes back, the Debug text names the code, known codes are described differently. *)
Theorem C74_faithful : forall c c', reason_to_u32 (reason_from_u32 c) = c /\
  (reason_debug (reason_from_u32 c) = reason_debug (reason_from_u32 c') -> c = c') /\
  (forall s s', In (c, s) error_codes -> In (c', s') error_codes -> reason_description c = reason_description c' -> c = c').
Proof. intros c c'. split; [reflexivity|]. split; [exact (reason_debug_inj c c')|exact (description_inj c c')]. Qed.
Print Assumptions C74_faithful.
Example C74_nonvacuous : reason_debug 13 = str "HTTP_1_1_REQUIRED" /\ reason_debug 4294967295 = str "Reason(ffffffff)" /\
  (forall s, ~ In (14, s) error_codes) /\ reason_description 8 = str "stream no longer needed".
Proof. split; [vm_compute; reflexivity|]. split; [vm_compute; reflexivity|]. split; [|vm_compute; reflexivity]. intros s H. vm_compute in H. intuition discriminate. Qed.

(** ** C75: validate_request for pushed requests. *)
Theorem C75_exact : forall q, validate_request q = Ok tt <->
  safe_cacheable (q_method q) /\ exists n, hm_body_len (q_header q) = Ok n /\ n <> 0%Z.
Proof. exact validate_ok. Qed.
Print Assumptions C75_exact.
(** Only safe and cacheable methods pass.  Missing: RFC 7540 section 8.2 forbids a request body; the test is
    the other way round. *)
Theorem C75_safe_partial : forall q, validate_request q = Ok tt -> safe_cacheable (q_method q).
Proof. intros q H. apply validate_ok in H. tauto. Qed.
Print Assumptions C75_safe_partial.
Theorem C75_body_refuted : forall q, validate_request q = Ok tt -> hm_body_len (q_header q) <> Ok 0%Z.
Proof. intros q H K. apply validate_ok in H as (_ & n & H & N). congruence. Qed.
Print Assumptions C75_body_refuted.
Theorem C75_panic_refuted : exists q, fields_ok (q_header q) /\ validate_request q = Panic.
Proof.
  exists (mkReq MGet V2 url_new [(str "content-length", str "9223372036854775808")] false).
  split; [apply fields_okb_ok; vm_compute; reflexivity|vm_compute; reflexivity].
Qed.
Print Assumptions C75_panic_refuted.
Example C75_nonvacuous : validate_request (mkReq MHead V2 url_new [(str "content-length", str "5")] false) = Ok tt /\
  validate_request (mkReq MGet V2 url_new [] false) = Err (EHttp2 PayloadLengthTooShort).
Proof. split; vm_compute; reflexivity. Qed.

(** ** C76: no field can be smuggled into a serialised request.
    Legal names, values without CR and a target without blanks: whoever parses the text sees the method, version
    and fields that were serialised and no others, whether or not the target is a URL. *)
Theorem C76_no_injection : forall q q0 body, In (q_method q) known_methods -> In (q_version q) known_versions ->
  word (u_path (q_url q)) -> fields_ok (q_header q) -> distinct_names (q_header q) ->
  exists w, req_http1_data q body = Ok (w ++ body) /\
    let '(q', r) := req_parse q0 (w ++ body) in
    q_method q' = q_method q /\ q_version q' = q_version q /\ q_header q' = q_header q /\ q_partial q' = false /\
    ((r = Ok (blen w) /\ wire_url (q_method q) (u_path (q_url q)) (q_header q) (q_url q')) \/
     (exists e, r = Err e) /\ forall u, ~ wire_url (q_method q) (u_path (q_url q)) (q_header q) u).
Proof. exact sent_head. Qed.
Print Assumptions C76_no_injection.
(** Everything the parser delivers satisfies the conditions but the one on the path, so a proxy that parses and
    serialises again passes the fields on.  Missing: paths with escaped blanks or line breaks, which are written
    unescaped. *)
Theorem C76_forward_partial : forall q1 q0 l q n body, bytes_ok l -> req_parse q1 l = (q, Ok n) -> word (u_path (q_url q)) ->
  exists w, req_http1_data q body = Ok (w ++ body) /\
    let q' := fst (req_parse q0 (w ++ body)) in
    q_method q' = q_method q /\ q_version q' = q_version q /\ q_header q' = q_header q.
Proof.
  intros q1 q0 l q n body B E W. apply received_fields in E as (M & V & F & D); [|exact B].
  destruct (sent_head q q0 body M V W F D) as (w & E1 & E2). exists w. split; [exact E1|].
  destruct (req_parse q0 (w ++ body)) as [q' r]. cbn [fst]. tauto.
Qed.
Print Assumptions C76_forward_partial.
Theorem C76_forward_refuted : exists q n w q' n',
  req_parse req_default (str "GET /%20HTTP/1.1%0d%0aX-Evil:%201%0d%0aA: HTTP/1.1" ++ CRLF ++ str "Host: h" ++ CRLF ++ CRLF) = (q, Ok n) /\
  hm_get (q_header q) (str "X-Evil") = None /\
  req_http1_data q [] = Ok w /\ req_parse req_default w = (q', Ok n') /\ hm_get (q_header q') (str "X-Evil") = Some (str "1").
Proof.
  do 5 eexists. split; [vm_compute; reflexivity|]. split; [vm_compute; reflexivity|]. split; [vm_compute; reflexivity|].
  split; [vm_compute; reflexivity|]. vm_compute. reflexivity.
Qed.
Print Assumptions C76_forward_refuted.
Definition sample_sent : request := mkReq MPost V11 (mkUrl ScHttp (str "/%zz") None None (Some (str "h")) (Some 80) None)
  [(str "Host", str "h"); (str "X", str "a: b")] false.
Example C76_nonvacuous : word (u_path (q_url sample_sent)) /\ fields_ok (q_header sample_sent) /\ distinct_names (q_header sample_sent) /\
  exists w, req_http1_data sample_sent [] = Ok w /\ snd (req_parse req_default w) = Err (EUrl UrlInvalid).
Proof.
  split; [split; [discriminate|]; repeat constructor; unfold vchar; vm_compute; discriminate|].
  split; [apply fields_okb_ok; vm_compute; reflexivity|]. split; [cbn; repeat split; repeat constructor|].
  eexists. split; [vm_compute; reflexivity|]. vm_compute. reflexivity.
Qed.

(** ** C77: the response builder. *)
Theorem C77_fails : forall ops e, Forall resp_dom ops -> (resp_build ops = Err e <-> first_failure resp_op_fails ops e).
Proof. exact resp_build_fails. Qed.
Print Assumptions C77_fails.
Theorem C77_ok : forall ops, Forall resp_dom ops -> ((exists p, resp_build ops = Ok p) <-> no_failure resp_op_fails ops).
Proof. exact resp_build_ok. Qed.
Print Assumptions C77_ok.
Theorem C77_parts : forall ops p, Forall resp_dom ops -> resp_build ops = Ok p ->
  last_set given_status ops 200 (p_status p) /\ last_set given_resp_version ops V11 (p_version p) /\ p_partial p = false.
Proof. intros ops p D E. apply resp_build_parts in E as (A & B & _ & C); auto. Qed.
Print Assumptions C77_parts.
Theorem C77_header : forall names ops p, Forall resp_dom ops -> clash_free_names names -> In (str "Server") names ->
  Forall (fun nv => In (fst nv) names) (flat_map given_resp_fields ops) -> resp_build ops = Ok p ->
  let fs := with_default (str "Server") (str "wenmeng") (flat_map given_resp_fields ops) in
  map (fun nv => (fst nv, Some (snd nv))) (p_header p) = a_items (a_run (inserts fs)) /\
  forall n, In n names -> hm_get (p_header p) n = last_field n fs.
Proof. exact resp_build_header. Qed.
Print Assumptions C77_header.
(** A built response is serialised and parsed back.  Missing: status codes without a reason phrase. *)
Theorem C77_sent_partial : forall ops p p0 rs body, Forall resp_dom ops -> resp_build ops = Ok p ->
  In (p_version p) known_versions -> canonical_reason (p_status p) = Some rs -> fields_ok (flat_map given_resp_fields ops) ->
  exists w, resp_httpdata p body = Ok (w ++ body) /\ resp_parse p0 (w ++ body) = (p, Ok (blen w)).
Proof. exact resp_build_roundtrip. Qed.
Print Assumptions C77_sent_partial.
(** The ready-made responses. *)
Theorem C77_presets : forall ops code ctype, In (ops, (code, ctype))
    [(resp_text, (200, "text/plain")); (resp_json, (200, "application/json")); (resp_status404, (404, "text/html"));
     (resp_status500, (500, "text/html")); (resp_status502, (502, "text/html")); (resp_status503, (503, "text/html"))]%string ->
  exists p, resp_build ops = Ok p /\ p_status p = code /\
    hm_get (p_header p) (str "Content-Type") = Some (str (ctype ++ "; charset=utf-8")).
Proof.
  intros ops code ctype H. cbn [In] in H. repeat destruct H as [H|H]; try contradiction; injection H as <- <- <-;
    eexists; (split; [vm_compute; reflexivity|]; split; [reflexivity|vm_compute; reflexivity]).
Qed.
Print Assumptions C77_presets.
Definition sample_resp_ops : list resp_op := [PbStatus 404; PbStatusText (str "503"); PbVersion V10; PbHeader (str "server") (str "me"); PbHeader (str "A") (str "1")].
Definition sample_resp_names : list bytes := map str ["server"; "Server"; "A"; "a"]%string.
Example C77_nonvacuous : exists p, resp_build sample_resp_ops = Ok p /\ p_status p = 503 /\ p_header p = [(str "server", str "me"); (str "A", str "1")] /\
  Forall resp_dom sample_resp_ops /\ clash_free_names sample_resp_names /\ fields_ok (flat_map given_resp_fields sample_resp_ops) /\
  Forall (fun nv => In (fst nv) sample_resp_names) (flat_map given_resp_fields sample_resp_ops) /\ canonical_reason 503 <> None.
Proof.
  eexists. split; [vm_compute; reflexivity|]. split; [reflexivity|]. split; [reflexivity|].
  split; [repeat constructor; apply bytes_okb_ok; vm_compute; reflexivity|]. split; [apply clash_freeb_ok; vm_compute; reflexivity|].
  split; [apply fields_okb_ok; vm_compute; reflexivity|]. split; [apply in_names; vm_compute; reflexivity|]. vm_compute. discriminate.
Qed.
Example C77_failing : resp_build [PbStatus 200; PbStatusText (str "099"); PbStatus 1000] = Err (EHttp InvalidStatusCode) /\
  resp_build [PbStatus 999] <> Err (EHttp InvalidStatusCode) /\ resp_build [PbStatus 1000] = Err (EHttp InvalidStatusCode).
Proof. split; [vm_compute; reflexivity|]. split; [vm_compute; discriminate|vm_compute; reflexivity]. Qed.

(** ** C78: Display.
    Where a message can be serialised and its values are UTF-8, the displayed text is the serialised one. *)
Theorem C78_request : forall q body w, Forall (fun nv => is_utf8 (snd nv)) (q_header q) -> req_http1_data q body = Ok w -> req_display q body = w.
Proof. exact req_display_wire. Qed.
Print Assumptions C78_request.
Theorem C78_response : forall p body w, 100 <= p_status p <= 999 -> Forall (fun nv => is_utf8 (snd nv)) (p_header p) ->
  resp_httpdata p body = Ok w -> resp_display p body = w.
Proof. exact resp_display_wire. Qed.
Print Assumptions C78_response.
(** So a displayed request can be parsed. *)
Theorem C78_parse_partial : forall q q0 body, In (q_method q) known_methods -> In (q_version q) known_versions ->
  word (u_path (q_url q)) -> fields_ok (q_header q) -> distinct_names (q_header q) -> Forall (fun nv => is_utf8 (snd nv)) (q_header q) ->
  let q' := fst (req_parse q0 (req_display q body)) in
  q_method q' = q_method q /\ q_version q' = q_version q /\ q_header q' = q_header q.
Proof.
  intros q q0 body M V W F D U. destruct (sent_head q q0 body M V W F D) as (w & E1 & E2). rewrite (req_display_wire q body _ U E1).
  destruct (req_parse q0 (w ++ body)) as [q' r]. cbn [fst]. tauto.
Qed.
Print Assumptions C78_parse_partial.
Theorem C78_lossy_refuted : exists q w, fields_ok (q_header q) /\ req_http1_data q [] = Ok w /\ req_display q [] <> w.
Proof.
  exists (mkReq MGet V11 url_new [(str "a", [255])] false). eexists. split; [apply fields_okb_ok; vm_compute; reflexivity|].
  split; [vm_compute; reflexivity|]. vm_compute. discriminate.
Qed.
Print Assumptions C78_lossy_refuted.
(** A status code without a phrase is displayed though it cannot be serialised, and the text parses. *)
Theorem C78_unknown_code_refuted : exists p p' n, resp_httpdata p [] = Err (EHttp InvalidStatusCode) /\
  resp_parse resp_default (resp_display p []) = (p', Ok n) /\ p_status p' = 299.
Proof. exists (mkResp 299 V11 [] false). do 2 eexists. split; [vm_compute; reflexivity|]. split; [vm_compute; reflexivity|]. reflexivity. Qed.
Print Assumptions C78_unknown_code_refuted.
Example C78_nonvacuous : exists w, resp_httpdata (mkResp 404 V11 [(str "a", [195; 169])] false) (str "x") = Ok w /\
  w = str "HTTP/1.1 404 Not Found" ++ CRLF ++ str "a: " ++ [195; 169] ++ CRLF ++ CRLF ++ str "x" /\ is_utf8 [195; 169].
Proof. eexists. split; [vm_compute; reflexivity|]. split; [vm_compute; reflexivity|]. apply utf8_valid_iff. vm_compute. reflexivity. Qed.

(** ** C79: copies.
    replace_clone leaves the message with the new body and returns its head with the old body; of the extensions
    the copy has the shared compression table only.  into keeps the extensions. *)
Theorem C79_replace_clone : forall (H V B : Type) IX (h : H) (e : extensions V) m (b body : B), built e m ->
  exists e', replace_clone IX (h, e, b) body = ((h, e, body), (h, e', b)) /\ ext_get e' IX = m IX /\ forall k, k <> IX -> ext_get e' k = None.
Proof.
  intros H V B IX h e m b body K. exists (ext_clone IX e). split; [reflexivity|]. split.
  - rewrite (ext_clone_spec IX e m K IX), N.eqb_refl. reflexivity.
  - intros k N. rewrite (ext_clone_spec IX e m K k). destruct (N.eqb_spec k IX); [contradiction|reflexivity].
Qed.
Print Assumptions C79_replace_clone.
Theorem C79_into : forall (H V B C : Type) (h : H) (e : extensions V) (b : B) (body : C), msg_into (h, e, b) body = ((h, e, body), b).
Proof. reflexivity. Qed.
Print Assumptions C79_into.
(** Any other extension is lost by the copy. *)
Theorem C79_extension_refuted : exists (e : extensions N) m, built e m /\ m 5 = Some 7 /\ ext_get (snd (fst (snd (replace_clone 1 (tt, e, tt) tt)))) 5 = None.
Proof.
  exists (fst (ext_insert ext_new 5 7)). eexists. split; [apply bt_insert, bt_new|]. split; [reflexivity|]. vm_compute. reflexivity.
Qed.
Print Assumptions C79_extension_refuted.
Example C79_nonvacuous : exists (e : extensions N) m, built e m /\ m 1 = Some 9 /\ m 5 = Some 7.
Proof. exists (fst (ext_insert (fst (ext_insert ext_new 5 7)) 1 9)). eexists. split; [apply bt_insert, bt_insert, bt_new|]. split; reflexivity. Qed.

(** ** C80: from HTTP/2 to HTTP/1.
    A request received in HEADERS and sent on with http1_data arrives with its method and fields.  Missing: fields
    whose values have CR or a leading space, which HTTP/2 allows the peer to send and into_request does not refuse. *)
Theorem C80_forward_partial : forall h q0 q1 m a s p u d n body,
  hf_parts h = mkParts (Some m) (Some s) (Some a) (Some p) None ->
  url_parse (scheme_str s ++ str "://" ++ a ++ p) = Ok u -> u_domain u = Some d -> u_port u = Some n ->
  regular (hf_fields h) -> ~ In (str "host") (map fst (hf_fields h)) -> fields_ok (hf_fields h) ->
  In m known_methods -> Forall vchar d -> word (u_path u) -> In (q_version q0) known_versions -> q_header q0 = [] ->
  exists q w, headers_into_request h q0 = Ok q /\ req_http1_data q body = Ok (w ++ body) /\
    let q' := fst (req_parse q1 (w ++ body)) in
    q_method q' = m /\ q_version q' = q_version q0 /\ q_header q' = (str "Host", d ++ COLON :: dec_print n) :: hf_fields h.
Proof. exact forwarded. Qed.
Print Assumptions C80_forward_partial.
Definition evil_value : bytes := str "1" ++ CRLF ++ str "x-evil: 1".
Definition evil_block : bytes := [130; 134; 132; 65; 1; 104; 0; 3] ++ str "x-a" ++ [blen evil_value] ++ evil_value.
Theorem C80_injection_refuted : exists t hf q w q' n,
  recv hi_new 16384 (frame_octets 1 5 1 evil_block) = (t, Ok (FHeaders hf, [])) /\ headers_into_request hf req_default = Ok q /\
  hm_get (q_header q) (str "x-evil") = None /\ req_http1_data q [] = Ok w /\
  req_parse req_default w = (q', Ok n) /\ hm_get (q_header q') (str "x-evil") = Some (str "1").
Proof.
  do 6 eexists. split; [vm_compute; reflexivity|]. split; [vm_compute; reflexivity|]. split; [vm_compute; reflexivity|].
  split; [vm_compute; reflexivity|]. split; [vm_compute; reflexivity|]. vm_compute. reflexivity.
Qed.
Print Assumptions C80_injection_refuted.
Definition sample_hf : headersf := mkHeaders 1 None [(str "x-a", str "1"); (str "cookie", str "k=v")]
  (mkParts (Some MGet) (Some ScHttp) (Some (str "h:81")) (Some (str "/p")) None) 5.
Example C80_nonvacuous : regular (hf_fields sample_hf) /\ ~ In (str "host") (map fst (hf_fields sample_hf)) /\ fields_ok (hf_fields sample_hf) /\
  exists u, url_parse (str "http://h:81/p") = Ok u /\ u_domain u = Some (str "h") /\ u_port u = Some 81 /\ word (u_path u).
Proof.
  split; [|split; [vm_compute; intuition discriminate|split; [apply fields_okb_ok; vm_compute; reflexivity|]]].
  - split; [apply h2_charb_ok; vm_compute; reflexivity|]. split; [|repeat constructor; discriminate].
    cbn [map fst hf_fields sample_hf]. repeat constructor; cbn [In]; intros K; repeat destruct K as [K|K]; try discriminate K; exact K.
  - eexists. split; [vm_compute; reflexivity|]. split; [reflexivity|]. split; [reflexivity|]. split; [discriminate|].
    repeat constructor; unfold vchar; vm_compute; discriminate.
Qed.
