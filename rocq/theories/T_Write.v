(** Theorems for C84-C87: counts of written octets, writing twice, small codecs, and the host of a request. *)
From Coq Require Import Ascii String NArith ZArith Lia Bool List.
From Verif Require Import Base P_Base M_Std M_Helper M_Header M_Url M_Http1 M_Hpack M_Frame M_H2 M_Ws M_Write
  S_Http1 S_Http1Api S_Map S_Url S_Write P_Msg P_Map P_Write P_Host.
Import ListNotations.
Local Open Scope N_scope.

(** ** C84: the number that a writing call returns.
    [agrees w r]: the call appends the octets [r] and returns how many they are, or fails as [r] does.
    The functions on the right are those of C01-C83. *)
Theorem C84_http1 :
  (forall q, agrees (req_write q) (req_encode_header q)) /\
  (forall p, agrees (resp_write p) (resp_encode_header p)) /\
  (forall p b, agrees (snd (resp_serialize p b)) (resp_httpdata p (body_bytes b))) /\
  (forall h, wrote (header_write h) (hm_encode h)) /\
  (forall d, wrote (chunk_write d) (encode_chunk_data d)) /\
  (forall m, agrees (method_write m) (method_encode m)) /\
  (forall v, agrees (version_write v) (version_encode v)) /\
  (forall n, agrees (status_write n) (status_encode n)) /\
  (forall s, agrees (scheme_write s) (scheme_serialize s)).
Proof.
  exact (conj req_agrees (conj resp_agrees (conj (fun p b => proj2 (resp_serialize_agrees p b)) (conj header_wrote (conj chunk_wrote
    (conj method_agrees (conj version_agrees (conj status_agrees scheme_agrees)))))))).
Qed.
Print Assumptions C84_http1.
Theorem C84_bodies : forall b, wrote (snd (body_write b)) (body_bytes b).
Proof. intros b. apply body_wrote. Qed.
Print Assumptions C84_bodies.
(** Frames: HEADERS and PUSH_PROMISE with all their continuations, DATA cut into pieces. *)
Theorem C84_frames : forall max t f t' b n,
  frame_write max t f = Ok (t', (b, Ok n)) <-> frame_encode max t f = Ok (t', b) /\ n = blen b.
Proof. exact frame_counts. Qed.
Print Assumptions C84_frames.
(** The WebSocket writer returns 0 whatever it has written. *)
Theorem C84_ws_refuted : forall d key b, write_to d key = Ok b -> ws_write d key = (b, Ok 0).
Proof. exact ws_count. Qed.
Print Assumptions C84_ws_refuted.
Example C84_ws_nonvacuous : exists b, write_to (message_df (msg_text (str "hello"))) None = Ok b /\ blen b = 7 /\
  snd (ws_write (message_df (msg_text (str "hello"))) None) = Ok 0.
Proof. eexists. split; [vm_compute; reflexivity|]. split; reflexivity. Qed.
(** A frame given to the general Serialize interface writes nothing and reports success and the length 0. *)
Theorem C84_serialize_refuted : exists f b, frame_encode 16384 hi_new f = Ok (hi_new, b) /\ blen b = 13 /\
  frame_serialize f = ([], Ok 0) /\ frame_encoded_len f = 0.
Proof. exists (FReset (mkReset 1 8)). eexists. split; [vm_compute; reflexivity|]. repeat split. Qed.
Print Assumptions C84_serialize_refuted.
(** A head that cannot be written leaves its beginning in the caller's buffer: exactly this much. *)
Theorem C84_request_left : forall q w e, req_write q = (w, Err e) ->
  (q_method q = MNone /\ w = [] /\ e = ESerialize "method") \/
  (q_method q <> MNone /\ q_version q = VNone /\ w = method_str (q_method q) ++ 32 :: u_path (q_url q) ++ [32] /\ e = ESerialize "version").
Proof. exact req_left. Qed.
Print Assumptions C84_request_left.
Theorem C84_response_left : forall p w e, resp_write p = (w, Err e) ->
  (p_version p = VNone /\ w = [] /\ e = ESerialize "version") \/
  (p_version p <> VNone /\ canonical_reason (p_status p) = None /\ w = version_str (p_version p) ++ [32] /\ e = EHttp InvalidStatusCode).
Proof. exact resp_left. Qed.
Print Assumptions C84_response_left.
Theorem C84_untouched_refuted : exists p e, resp_write p = (str "HTTP/1.1 ", Err e).
Proof. exists (mkResp 299 V11 [] false). eexists. vm_compute. reflexivity. Qed.
Print Assumptions C84_untouched_refuted.
Example C84_nonvacuous :
  req_write (mkReq MGet V11 url_new [(str "Host", str "a")] true) = (str "GET / HTTP/1.1" ++ CRLF ++ str "Host: a" ++ CRLF ++ CRLF, Ok 27) /\
  frame_write 3 hi_new (FData (mkData 1 [1; 2; 3; 4] END_STREAM)) = Ok (hi_new, ([0; 0; 3; 0; 0; 0; 0; 0; 1; 1; 2; 3; 0; 0; 1; 0; 1; 0; 0; 0; 1; 4], Ok 22)).
Proof. split; vm_compute; reflexivity. Qed.

(** ** C85: writing twice. *)
(** A body of any of the types is the same afterwards and is written as its octets. *)
Theorem C85_bodies : forall b, fst (body_write b) = b /\ fst (snd (body_write b)) = body_bytes b /\ body_bytes (into_binary b) = body_bytes b.
Proof. intros b. destruct (body_wrote b) as [A [B _]]. split; [exact A|]. split; [exact B|]. exact (into_binary_same b). Qed.
Print Assumptions C85_bodies.
(** So a message can be written again, and the type of the body does not matter. *)
Theorem C85_messages : forall q p b c, body_bytes b = body_bytes c ->
  (fst (req_data q b) = b /\ fst (resp_data p b) = b) /\
  (snd (req_data q b) = snd (req_data q c) /\ snd (resp_data p b) = snd (resp_data p c)) /\
  snd (req_data q b) = req_http1_data q (body_bytes b) /\ snd (resp_data p b) = resp_httpdata p (body_bytes b).
Proof. intros q p b c E. rewrite !req_data_octets, !resp_data_octets, E. cbn [fst snd]. auto. Qed.
Print Assumptions C85_messages.
Example C85_nonvacuous : snd (req_data (mkReq MGet V11 url_new [] true) (BBinary (str "xy"))) = Ok (str "GET / HTTP/1.1" ++ CRLF ++ CRLF ++ str "xy") /\
  snd (req_data (mkReq MGet V11 url_new [] true) (BString (str "xy"))) = snd (req_data (mkReq MGet V11 url_new [] true) (BBinary (str "xy"))).
Proof. split; vm_compute; reflexivity. Qed.
(** A DATA frame that fits into one frame can be encoded again.  A larger one has lost what went into the first frames:
    what it still has is the end of the payload. *)
Theorem C85_data : forall max d, 0 < max ->
  exists a, da_data d = a ++ da_data (fst (data_write max d)) /\
  blen (da_data (fst (data_write max d))) <= max /\ (blen (da_data d) <= max -> fst (data_write max d) = d).
Proof. exact data_write_left. Qed.
Print Assumptions C85_data.
Theorem C85_data_refuted : forall max d, 0 < max -> max < blen (da_data d) -> da_data (fst (data_write max d)) <> da_data d.
Proof. exact data_used_up. Qed.
Print Assumptions C85_data_refuted.
Example C85_data_nonvacuous : let d := mkData 1 [1; 2; 3; 4; 5] END_STREAM in
  fst (data_write 2 d) = mkData 1 [5] END_STREAM /\ fst (data_write 8 d) = d.
Proof. vm_compute. auto. Qed.

(** ** C86: window sizes, error codes, frame names and the order of queued frames. *)
Theorem C86_increment : forall v r, v < 2 ^ 32 ->
  increment_parse (fst (increment_serialize v) ++ r) = Ok (v, r) /\ increment_encode v = increment_serialize v.
Proof. exact increment_roundtrip. Qed.
Print Assumptions C86_increment.
(** An error code is read as 0, whatever was written. *)
Theorem C86_error_code_refuted : forall v r, error_code_parse (fst (error_code_serialize v) ++ r) = Ok (0, r).
Proof. exact error_code_lost. Qed.
Print Assumptions C86_error_code_refuted.
(** What is written of it is its four octets, and the count says so. *)
Theorem C86_written : forall v, v < 2 ^ 32 ->
  error_code_serialize v = ([v / 2 ^ 24; v / 2 ^ 16 mod 256; v / 2 ^ 8 mod 256; v mod 256], Ok 4) /\ increment_serialize v = error_code_serialize v.
Proof.
  intros v L. assert (E : be_enc 4 v = [v / 2 ^ 24; v / 2 ^ 16 mod 256; v / 2 ^ 8 mod 256; v mod 256]).
  { cbn [be_enc app]. repeat (apply f_equal2; [lia|]). reflexivity. }
  split; [unfold error_code_serialize, put_as; rewrite E; reflexivity|]. unfold increment_serialize, error_code_serialize, put, put_as. rewrite E. reflexivity.
Qed.
Print Assumptions C86_written.
Theorem C86_names : forall f g, frame_display_name f = frame_display_name g <-> same_type f g /\ on_stream f = on_stream g.
Proof. exact display_name_iff. Qed.
Print Assumptions C86_names.
(** The order is total, antisymmetric and transitive, and agrees with the equality. *)
Theorem C86_order : forall a b c,
  pf_cmp b a = CompOpp (pf_cmp a b) /\
  (pf_cmp a b = Eq <-> pf_eq a b = true) /\
  (pf_cmp a b = Lt -> pf_cmp b c = Lt -> pf_cmp a c = Lt) /\
  (pf_eq a b = true -> pf_cmp a c = pf_cmp b c).
Proof.
  intros a b c. unfold pf_cmp, pf_eq. split; [apply N.compare_antisym|]. split; [rewrite N.compare_eq_iff, N.eqb_eq; reflexivity|].
  split; [rewrite !N.compare_lt_iff; lia|]. intros E. apply N.eqb_eq in E. rewrite E. reflexivity.
Qed.
Print Assumptions C86_order.
(** Equal does not mean the same frame. *)
Theorem C86_equality_refuted : exists a b, pf_eq a b = true /\ ~ same_type (pf_frame a) (pf_frame b).
Proof. exists (mkPF (FReset (mkReset 1 8)) 0), (mkPF (FWindowUpdate (mkWin 3 1)) 0). split; [reflexivity|]. intros []. Qed.
Print Assumptions C86_equality_refuted.
Example C86_nonvacuous : frame_display_name (FReset (mkReset 12 8)) = str "Reset(12)" /\ fst (error_code_serialize 8) = [0; 0; 0; 8] /\
  pf_cmp (mkPF (FReset (mkReset 1 8)) 3) (mkPF (FReset (mkReset 1 8)) 5) = Lt.
Proof. repeat split; vm_compute; reflexivity. Qed.

(** ** C87: the host of a request. *)
(** set_url on a request without a Host field adds one, with the port; on a request with one, or with a URL that has no
    domain or no port, it changes the URL only. *)
Theorem C87_set_url : forall q u,
  (forall d p, hm_get (q_header q) (str "Host") = None -> u_domain u = Some d -> u_port u = Some p ->
    req_update_url q u = mkReq (q_method q) (q_version q) u (q_header q ++ [(str "Host", d ++ COLON :: dec_print p)]) (q_partial q)) /\
  (hm_get (q_header q) (str "Host") <> None \/ u_domain u = None \/ u_port u = None ->
    req_update_url q u = mkReq (q_method q) (q_version q) u (q_header q) (q_partial q)).
Proof. intros q u. split; [exact (set_url_new q u)|exact (set_url_kept q u)]. Qed.
Print Assumptions C87_set_url.
(** What is sent after the first call arrives with this URL. *)
Theorem C87_sent_partial : forall q q0 body pa d p, In (q_method q) known_methods -> q_method q <> MConnect -> In (q_version q) known_versions ->
  plain_path pa -> Forall host_char d -> p < 65536 -> fields_ok (q_header q) -> distinct_names (q_header q) ->
  (forall n v, In (n, v) (q_header q) -> fold_name n <> str "host") -> hm_get (q_header q) (str ":scheme") = None ->
  let q1 := req_update_url q (mkUrl ScHttp pa None None (Some d) (Some p) None) in
  exists w, req_http1_data q1 body = Ok (w ++ body) /\ req_parse q0 (w ++ body) = (req_set_partial q1 false, Ok (blen w)).
Proof. exact set_url_sent. Qed.
Print Assumptions C87_sent_partial.
(** Of several calls the first decides the Host field and the last the URL. *)
Theorem C87_first_and_last : forall us u q d p, hm_get (q_header q) (str "Host") = None -> u_domain u = Some d -> u_port u = Some p ->
  q_header (fold_left req_update_url us (req_update_url q u)) = q_header q ++ [(str "Host", d ++ COLON :: dec_print p)] /\
  q_url (fold_left req_update_url us (req_update_url q u)) = last us u.
Proof. exact set_urls_first. Qed.
Print Assumptions C87_first_and_last.
(** So the receiver of a request with a changed URL takes it to be for another host. *)
Theorem C87_second_url_refuted : exists q u1 u2 w q', req_http1_data (req_update_url (req_update_url q u1) u2) [] = Ok w /\
  req_parse req_default w = (q', Ok (blen w)) /\
  req_get_host (req_update_url (req_update_url q u1) u2) = Some (str "b") /\ req_get_host q' = Some (str "a").
Proof.
  exists (mkReq MGet V11 url_new [] true), (mkUrl ScHttp (str "/") None None (Some (str "a")) (Some 80) None), (mkUrl ScHttp (str "/x") None None (Some (str "b")) (Some 80) None).
  do 2 eexists. split; [vm_compute; reflexivity|]. split; [vm_compute; reflexivity|]. split; vm_compute; reflexivity.
Qed.
Print Assumptions C87_second_url_refuted.
(** get_host: the domain of the URL; without one the Host field, wherever it stands and however its name is written. *)
Theorem C87_get_host : forall q,
  (forall d, u_domain (q_url q) = Some d -> req_get_host q = Some d) /\
  (forall n v, u_domain (q_url q) = None -> fields_ok (q_header q) -> distinct_names (q_header q) ->
     In (n, v) (q_header q) -> fold_name n = str "host" -> req_get_host q = Some (utf8_lossy v)).
Proof.
  intros q. split; [intros d H; unfold req_get_host; rewrite H; reflexivity|]. intros n v U F D I N. unfold req_get_host. rewrite U.
  unfold hm_get_host. rewrite (get_host_field _ n v F D I N). reflexivity.
Qed.
Print Assumptions C87_get_host.
(** With the domain the port is left out, with the Host and ":authority" fields it is part of the answer, although the
    code that handles ":authority" says that only the first part is taken. *)
Theorem C87_authority_port_refuted : exists q, u_domain (q_url q) = None /\ q_header q = [(str ":authority", str "example.com:8080")] /\
  req_get_host q = Some (str "example.com:8080").
Proof. exists (mkReq MGet V2 url_new [(str ":authority", str "example.com:8080")] false). repeat split; vm_compute; reflexivity. Qed.
Print Assumptions C87_authority_port_refuted.
(** An ordinary header field "Zauthority" is taken for ":authority" ('Z' and ':' compare equal): a request without Host
    gets its host from it. *)
Theorem C87_other_field_refuted : exists w q', req_parse req_default w = (q', Ok (blen w)) /\
  q_header q' = [(str "Zauthority", str "evil")] /\ req_get_host q' = Some (str "evil").
Proof.
  exists (str "GET / HTTP/1.1" ++ CRLF ++ str "Zauthority: evil" ++ CRLF ++ CRLF). eexists. split; [vm_compute; reflexivity|]. split; vm_compute; reflexivity.
Qed.
Print Assumptions C87_other_field_refuted.
Example C87_nonvacuous :
  let q := req_update_url (mkReq MGet V11 url_new [(str "Accept", str "x")] true) (mkUrl ScHttp (str "/p") None None (Some (str "a.b")) (Some 8080) None) in
  q_header q = [(str "Accept", str "x"); (str "Host", str "a.b:8080")] /\ req_get_host q = Some (str "a.b") /\
  req_get_host (req_set_url q url_new) = Some (str "a.b:8080").
Proof. repeat split; vm_compute; reflexivity. Qed.
