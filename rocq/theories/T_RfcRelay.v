(** C122: messages that are received and sent on. *)
From Coq Require Import Ascii String NArith ZArith Lia Bool List ZifyBool ZifyNat ZifyN Permutation.
From Verif Require Import Base S_Utf8 P_Base M_Std M_Helper M_Header M_Url M_Http1 S_Map S_Hex S_Http1Api P_Map P_Msg S_Url S_UrlAll S_Build S_Stream S_WriteAll S_Rfc9112 P_Rfc9112 T_Rfc9112
  S_RfcBody P_RfcBody T_RfcBody S_RfcMessage P_RfcMessage T_RfcMessage S_RfcReply P_RfcReply T_RfcReply S_Rfc3986 S_RfcSend P_RfcSend S_RfcShow P_RfcShow M_Hpack S_Hpack M_Frame M_H2
  S_Rfc9113 S_RfcMeans P_RfcMeans S_RfcRelay P_RfcRelay T_Http1 S_Http1.
Import ListNotations.
Local Open Scope N_scope.

(** A conforming request in origin form that the crate reads (C113), written again by http1_data with the content that was read, is a conforming
    request with the same method, version, fields and content and the same path and query, exactly if it has no query, no escape that is needed,
    and is not chunked. *)
Theorem C122_origin : forall m p s rest, bytes_ok (message_text m ++ rest) -> message_ok m -> message_readable m -> rm_target m = p ++ s -> abs_path p -> query_text s ->
  rm_method m <> str "CONNECT" ->
  exists q w, read_message parse_request q_header (message_text m ++ rest) = Ok (q, body_meant (rm_body m), rest) /\ req_http1_data q (body_meant (rm_body m)) = Ok w /\
    (passed (origin_like p s) m w <-> s = [] /\ path_plain p /\ forall c, rm_body m <> BChunked c).
Proof. exact origin_passed. Qed.
Print Assumptions C122_origin.
(** The same for the absolute form of a proxy request: the Host field has to name the host of the target too. *)
Theorem C122_absolute : forall m r rest, bytes_ok (message_text m ++ rest) -> message_ok m -> message_readable m -> rm_target m = uri_text r -> uri_ok r -> ui_user r = [] -> ui_frag r = [] ->
  uri_readable r -> rm_method m <> str "CONNECT" ->
  exists q w, read_message parse_request q_header (message_text m ++ rest) = Ok (q, body_meant (rm_body m), rest) /\ req_http1_data q (body_meant (rm_body m)) = Ok w /\
    (passed (absolute_like (rm_fields m) r) m w <-> ui_query r = [] /\ path_plain (ui_path r) /\ host_agrees (rm_fields m) r /\ forall c, rm_body m <> BChunked c).
Proof. exact absolute_passed. Qed.
Print Assumptions C122_absolute.
(** A response is written again exactly if its code is one of those with a phrase (C61), and is the same if it was not chunked. *)
Theorem C122_response : forall m rest, bytes_ok (reply_text m ++ rest) -> reply_ok m -> follows (rr_body m) rest -> answer_readable m ->
  exists p, read_reply (rr_to m) (reply_text m ++ rest) = Ok (p, reply_meant (rr_body m), rest) /\
    ((exists w, resp_httpdata p (reply_meant (rr_body m)) = Ok w /\ reply_passed m w) <->
     (exists s, phrase (num_of (rr_code m)) s) /\ forall c, rr_body m <> RChunked c).
Proof. exact reply_passed_iff. Qed.
Print Assumptions C122_response.
(** A request of HTTP/2 (C115) with the content [body] is sent as a conforming request of HTTP/1.1 that means it exactly if it has no query, no
    escape that is needed, a host field or a host without escapes, and a content-length if there is content. *)
Theorem C122_http2 : forall L fh r fs body, h2_request_ok r -> h2_request_list r fs -> request_readable L r fs ->
  exists q w, read_request L fh fs = Ok q /\ request_meant r q /\ req_http1_data q body = Ok w /\ (request_said q body w <-> h2_passable r body).
Proof. exact request_passed. Qed.
Print Assumptions C122_http2.
(** A response of HTTP/2, to a request with the method [k], likewise. *)
Theorem C122_http2_response : forall L fh k code hs fs body, Forall h2_field hs -> code < 1000 -> response_list code hs fs -> total_size fs <= L -> 100 <= code -> distinct_names hs ->
  exists p, read_response L fh fs = Ok p /\ p_status p = code /\ p_header p = hs /\
    ((exists w, resp_httpdata p body = Ok w /\ response_said k p body w) <->
     (exists s, phrase code s) /\ (bodiless k code -> body = []) /\ (~ bodiless k code -> forall v, cl_of hs = Some v -> decimal v (blen body))).
Proof. exact response_passed. Qed.
Print Assumptions C122_http2_response.

(** CONNECT is never sent on as what it was. *)
Theorem C122_connect_refuted : forall m h ds rest, bytes_ok (message_text m ++ rest) -> message_ok m -> message_readable m -> rm_target m = h ++ 58 :: ds -> uri_host h -> Forall digit ds ->
  rm_method m = str "CONNECT" ->
  exists q w, read_message parse_request q_header (message_text m ++ rest) = Ok (q, body_meant (rm_body m), rest) /\ req_http1_data q (body_meant (rm_body m)) = Ok w /\
    ~ passed (authority_like h ds) m w.
Proof. exact connect_passed. Qed.
Print Assumptions C122_connect_refuted.

(** What is sent on can be two requests where one was received: ... *)
Definition two_sent (w : bytes) (t : string) : Prop :=
  exists m1 m2, message_ok m1 /\ message_ok m2 /\ w = message_text m1 ++ message_text m2 /\ rm_target m2 = str t.
Definition simple (k t : string) (ls : list line) (x : rfc_body) : rfc_message := mkRfcMessage (str k) (str t) (str "HTTP/1.1") ls x.
Ltac target_list := match goal with |- rfc_target ?m (str ?t) => let p := eval vm_compute in (str t) in
  change (str t) with p; rewrite <- (app_nil_r p); apply (rt_origin m p []); [apply ap_intro; path_list|constructor] end.
Lemma plain_names ls : Forall (fun nv => (forall n, In n [str "transfer-encoding"; str "content-length"] -> clash_freeb (fst nv) n = true)) (map line_field ls) -> unconfused_names (map line_field ls).
Proof. intros F. eapply Forall_impl; [|exact F]. intros nv K. split; apply clash_freeb_ok, K; cbn; auto. Qed.
Lemma simple_ok k t ls : In k ["GET"; "POST"]%string -> rfc_target (str k) (str t) -> Forall line_ok ls -> unconfused_names (map line_field ls) ->
  te_of (map line_field ls) = None -> cl_of (map line_field ls) = None -> message_ok (simple k t ls BNone).
Proof.
  intros K T F U TE CL. split; [|split; [constructor; assumption|exact U]]. split; [|split; [exact T|split; [apply ones_ok|exact F]]].
  destruct K as [<-|[<-|[]]]; apply name_okb_ok; reflexivity.
Qed.
Definition hidden : bytes := str "GET /admin HTTP/1.1" ++ CRLF ++ str "Host: a" ++ CRLF ++ CRLF.
Lemma admin_ok : message_ok (simple "GET" "/admin" [host_line] BNone).
Proof.
  apply simple_ok; [cbn; auto|target_list|apply Forall_cons; [exact host_line_ok|apply Forall_nil]| |reflexivity|reflexivity].
  repeat (apply Forall_cons; [split; apply clash_freeb_ok; vm_compute; reflexivity|]). apply Forall_nil.
Qed.
(** ... a chunked one, whose content looks like the end of a chunked body and another request (the content is sent without the chunks, while
    Transfer-Encoding still says that there are some); ... *)
Definition chunked_in : rfc_message := simple "POST" "/" [host_line; te_line "chunked"] (BChunked (mkChunked [mkChunk (str "25") [] (str "0" ++ CRLF ++ CRLF ++ hidden)] 0 [] [])).
Lemma hex25 : hex_num (str "25") 37.
Proof. change (str "25") with (([] ++ [50]) ++ [53]). change 37 with (16 * (16 * 0 + 2) + 5). repeat (apply hn_snoc; [|left; reflexivity]). constructor. Qed.
Lemma two_lines_ok : Forall line_ok [host_line; te_line "chunked"] /\ unconfused_names (map line_field [host_line; te_line "chunked"]).
Proof.
  split; [apply Forall_cons; [exact host_line_ok|apply Forall_cons; [exact small_line_ok|apply Forall_nil]]|].
  repeat (apply Forall_cons; [split; apply clash_freeb_ok; vm_compute; reflexivity|]). apply Forall_nil.
Qed.
Theorem C122_chunked_refuted : exists m q w, message_ok m /\ message_readable m /\
  read_message parse_request q_header (message_text m) = Ok (q, body_meant (rm_body m), []) /\ req_http1_data q (body_meant (rm_body m)) = Ok w /\ two_sent w "/admin".
Proof.
  exists chunked_in. eexists. eexists. split; [|split; [|split; [vm_compute; reflexivity|split; [vm_compute; reflexivity|]]]].
  - split; [|split].
    + split; [apply name_okb_ok; reflexivity|]. split; [apply slash_ok|]. split; [apply ones_ok|]. apply two_lines_ok.
    + apply (rf_chunked _ (str "chunked")); [vm_compute; reflexivity|vm_compute; reflexivity| |].
      * split; [|split; [left; reflexivity|apply Forall_nil]]. apply Forall_cons; [|apply Forall_nil].
        split; [discriminate|]. split; [exact hex25|]. split; [left; reflexivity|discriminate].
      * apply Forall_cons; [vm_compute; reflexivity|apply Forall_nil].
    + apply two_lines_ok.
  - split; [split; [|split; [right; reflexivity|split]]|].
    + exists MPost, "POST"%string. eexists. split; [vm_compute; tauto|]. split; [reflexivity|]. apply wire_url_spec. vm_compute. reflexivity.
    + repeat (apply Forall_cons; [split; [repeat constructor|reflexivity]|]). apply Forall_nil.
    + cbn. repeat split; repeat constructor.
    + split; [|repeat constructor]. exists (str "chunked"). split; [reflexivity|]. exists [], []. reflexivity.
  - exists (simple "POST" "/" [host_line; te_line "chunked"] (BChunked (mkChunked [] 0 [] []))), (simple "GET" "/admin" [host_line] BNone).
    split; [|split; [exact admin_ok|split; [vm_compute; reflexivity|reflexivity]]]. split; [|split].
    + split; [apply name_okb_ok; reflexivity|]. split; [apply slash_ok|]. split; [apply ones_ok|]. apply two_lines_ok.
    + apply (rf_chunked _ (str "chunked")); [vm_compute; reflexivity|vm_compute; reflexivity| |apply Forall_nil].
      split; [apply Forall_nil|split; [left; reflexivity|apply Forall_nil]].
    + apply two_lines_ok.
Qed.
Print Assumptions C122_chunked_refuted.
(** ... one whose path has an escaped line end (the path is sent without the escapes); ... *)
Definition escaped_in : rfc_message := simple "GET" "/%20HTTP/1.1%0d%0aHost:%20a%0d%0a%0d%0aGET%20/admin" [host_line] BNone.
Ltac a_hex := apply P_Chunk.is_hex_spec; reflexivity.
Ltac esc_list := repeat (first [apply pt_esc; [a_hex|a_hex|] | apply pt_char; [solve [unfold pchar, unreserved, sub_delim, alpha, upper, lower, digit; cbn; lia]|]]); apply pt_nil.
Lemma host_line_names : unconfused_names (map line_field [host_line]).
Proof. repeat (apply Forall_cons; [split; apply clash_freeb_ok; vm_compute; reflexivity|]). apply Forall_nil. Qed.
Lemma host_lines : Forall line_ok [host_line].
Proof. apply Forall_cons; [exact host_line_ok|apply Forall_nil]. Qed.
Lemma first_ok k : In k ["GET"; "POST"]%string -> message_ok (simple k "/" [host_line] BNone).
Proof. intros K. apply simple_ok; [exact K|apply slash_ok|exact host_lines|exact host_line_names|reflexivity|reflexivity]. Qed.
Lemma simple_readable k s t u : In (k, s) method_names -> wire_url k (str t) [(str "Host", str "a")] u -> message_readable (simple s t [host_line] BNone).
Proof.
  intros K U. split; [|exact I]. split; [|split; [right; reflexivity|split]].
  - exists k, s, u. auto.
  - repeat (apply Forall_cons; [split; [repeat constructor|reflexivity]|]). apply Forall_nil.
  - cbn. repeat split; repeat constructor.
Qed.
Theorem C122_escape_refuted : exists m q w, message_ok m /\ message_readable m /\
  read_message parse_request q_header (message_text m) = Ok (q, body_meant (rm_body m), []) /\ req_http1_data q (body_meant (rm_body m)) = Ok w /\ two_sent w "/admin".
Proof.
  exists escaped_in. eexists. eexists. split; [|split; [|split; [vm_compute; reflexivity|split; [vm_compute; reflexivity|]]]].
  - apply simple_ok; [cbn; auto| |exact host_lines|exact host_line_names|reflexivity|reflexivity].
    match goal with |- rfc_target ?m (str ?t) => let p := eval vm_compute in (str t) in change (str t) with p; rewrite <- (app_nil_r p); apply (rt_origin m p []); [apply ap_intro; esc_list|constructor] end.
  - eapply (simple_readable MGet); [cbn; auto|]. apply wire_url_spec. vm_compute. reflexivity.
  - exists (simple "GET" "/" [host_line] BNone), (simple "GET" "/admin" [host_line] BNone).
    split; [apply first_ok; cbn; auto|]. split; [exact admin_ok|]. split; [vm_compute; reflexivity|reflexivity].
Qed.
Print Assumptions C122_escape_refuted.
(** ... and a request of HTTP/2 with content but without a content-length, which HTTP/2 does not need. *)
Definition h2_in (hs : list (bytes * bytes)) : h2_request := mkH2Request (str "POST") ScHttp (str "a") [] (str "/") [] ((str "host", str "a") :: hs).
Definition h2_list (hs : list (bytes * bytes)) : list (bytes * bytes) :=
  pseudo_request (str "POST") (str "http") (str "a") (str "/") ++ (str "host", str "a") :: hs.
Lemma a_host : Forall (fun b => unreserved b \/ sub_delim b) (str "a").
Proof. change (str "a") with [97]. apply Forall_cons; [|apply Forall_nil]. left. left. unfold alpha, lower; lia. Qed.
Lemma one_value c : vchar c -> rfc_value [c].
Proof. intros V. right. left. exists c. split; [reflexivity|left; exact V]. Qed.
Lemma h2_in_ok hs : Forall h2_field hs -> Forall (same_host (str "a")) hs -> h2_request_ok (h2_in hs) /\ h2_request_list (h2_in hs) (h2_list hs).
Proof.
  intros F S. destruct (reg_text _ a_host) as (Rh & _). split.
  - unfold h2_request_ok, h2_in, hr_authority. cbn [hr_method hr_scheme hr_host hr_port hr_path hr_query hr_fields].
    repeat match goal with |- _ /\ _ => split end; try discriminate.
    + apply name_okb_ok. reflexivity.
    + cbn. auto.
    + left. exact Rh.
    + constructor.
    + constructor. constructor.
    + constructor.
    + apply Forall_cons; [|exact F]. unfold h2_field. cbn [fst snd]. repeat match goal with |- _ /\ _ => split end.
      * split; [discriminate|]. change (str "host") with [104; 111; 115; 116]. repeat (apply Forall_cons; [unfold tchar, alpha, lower, upper; lia|]). apply Forall_nil.
      * apply (one_value 97). unfold vchar. lia.
      * cbn. intuition discriminate.
      * discriminate.
    + apply Forall_cons; [intros _; reflexivity|exact S].
  - exists (pseudo_request (str "POST") (str "http") (str "a") (str "/")). split; [apply Permutation_refl|reflexivity].
Qed.
Lemma h2_in_readable hs : total_size (h2_list hs) <= 1000 -> distinct_names (others hs) -> request_readable 1000 (h2_in hs) (h2_list hs).
Proof.
  intros S D. destruct (reg_text _ a_host) as (_ & Th & _). unfold request_readable, target_readable. cbn [h2_in hr_method hr_scheme hr_host hr_port hr_path hr_query hr_fields].
  repeat match goal with |- _ /\ _ => split end.
  - exact S.
  - exists MPost, "POST"%string. cbn. auto.
  - exists (str "a"). exact Th.
  - exists (str "/"). split; [apply pf_char; [discriminate|constructor]|apply utf8_valid_iff; reflexivity].
  - discriminate.
  - cbn. lia.
  - left. reflexivity.
  - cbn. lia.
  - exact D.
Qed.
Definition fh1 : fheader := mkFH 0 KHeaders 4 1.
Theorem C122_length_refuted : exists r fs body q w, h2_request_ok r /\ h2_request_list r fs /\ request_readable 1000 r fs /\ read_request 1000 fh1 fs = Ok q /\
  request_meant r q /\ req_http1_data q body = Ok w /\ two_sent w "/admin".
Proof.
  destruct (h2_in_ok [] (Forall_nil _) (Forall_nil _)) as [A B]. assert (C : request_readable 1000 (h2_in []) (h2_list [])) by (apply h2_in_readable; [vm_compute; discriminate|repeat constructor]).
  destruct (C122_http2 1000 fh1 _ _ hidden A B C) as (q & w & R & M & W & _). exists (h2_in []), (h2_list []), hidden, q, w. repeat match goal with |- _ /\ _ => split end; try assumption.
  assert (Q : q = mkReq MPost V11 (mkUrl ScHttp (str "/") None None (Some (str "a")) (Some 80) None) [(str "Host", str "a")] false).
  { assert (X : Ok q = Ok (mkReq MPost V11 (mkUrl ScHttp (str "/") None None (Some (str "a")) (Some 80) None) [(str "Host", str "a")] false)) by (rewrite <- R; vm_compute; reflexivity). injection X. auto. }
  subst q. exists (simple "POST" "/" [host_line] BNone), (simple "GET" "/admin" [host_line] BNone). split; [apply first_ok; cbn; auto|]. split; [exact admin_ok|].
  split; [|reflexivity]. vm_compute in W. injection W as <-. vm_compute. reflexivity.
Qed.
Print Assumptions C122_length_refuted.
(** A proxy request for one host with a Host field of another, which does not count (RFC 9112 section 3.2.2), is sent on for the other one. *)
Theorem C122_host_refuted : exists m q w, message_ok m /\ message_readable m /\ rm_target m = str "http://b/" /\
  read_message parse_request q_header (message_text m) = Ok (q, [], []) /\ u_domain (q_url q) = Some (str "b") /\ req_http1_data q [] = Ok w /\
  w = message_text (simple "GET" "/" [host_line] BNone).
Proof.
  exists (simple "GET" "http://b/" [host_line] BNone). eexists. eexists.
  split; [|split; [|split; [reflexivity|split; [vm_compute; reflexivity|split; [reflexivity|split; [vm_compute; reflexivity|vm_compute; reflexivity]]]]]].
  - apply simple_ok; [cbn; auto| |exact host_lines|exact host_line_names|reflexivity|reflexivity].
    change (str "http://b/") with ([104; 116; 116; 112] ++ str "://" ++ [98] ++ [] ++ [47] ++ []). apply rt_absolute.
    + apply (sn_intro 104). { unfold alpha, lower; lia. } repeat (apply Forall_cons; [unfold alpha, lower; lia|]). apply Forall_nil.
    + left. unfold reg_name. path_list.
    + constructor.
    + right. apply ap_intro. constructor.
    + constructor.
  - eapply (simple_readable MGet); [cbn; auto|]. apply wire_url_spec. vm_compute. reflexivity.
Qed.
Print Assumptions C122_host_refuted.

(** The conditions are met. *)
Lemma two_length : h2_field (str "content-length", str "2").
Proof.
  unfold h2_field. cbn [fst snd]. repeat match goal with |- _ /\ _ => split end.
  - split; [discriminate|]. match goal with |- Forall _ (str ?t) => let p := eval vm_compute in (str t) in change (str t) with p end.
    repeat (apply Forall_cons; [unfold tchar, alpha, lower, upper; cbn; lia|]). apply Forall_nil.
  - apply (one_value 50). unfold vchar. lia.
  - cbn. intuition discriminate.
  - discriminate.
Qed.
Example C122_http2_met : h2_request_ok (h2_in [(str "content-length", str "2")]) /\ request_readable 1000 (h2_in [(str "content-length", str "2")]) (h2_list [(str "content-length", str "2")]) /\
  h2_passable (h2_in [(str "content-length", str "2")]) (str "ok").
Proof.
  split; [|split].
  - apply h2_in_ok; [apply Forall_cons; [exact two_length|apply Forall_nil]|apply Forall_cons; [discriminate|apply Forall_nil]].
  - apply h2_in_readable; [vm_compute; discriminate|]. cbn. repeat split; repeat constructor.
  - split; [reflexivity|]. split.
    + exists (str "/"). split; [split; [apply pf_char; [discriminate|constructor]|apply utf8_valid_iff; reflexivity]|]. apply Forall_cons; [right; reflexivity|apply Forall_nil].
    + split; [left; left; reflexivity|]. vm_compute cl_of. split; [discriminate|]. split; [apply Forall_cons; [unfold digit; lia|apply Forall_nil]|reflexivity].
Qed.
Example C122_origin_met : message_ok (simple "GET" "/" [host_line] BNone) /\ message_readable (simple "GET" "/" [host_line] BNone) /\ path_plain (str "/").
Proof.
  split; [apply first_ok; cbn; auto|]. split; [eapply (simple_readable MGet); [cbn; auto|apply wire_url_spec; vm_compute; reflexivity]|].
  exists (str "/"). split; [split; [apply pf_char; [discriminate|constructor]|apply utf8_valid_iff; reflexivity]|]. apply Forall_cons; [right; reflexivity|apply Forall_nil].
Qed.
Example C122_response_met : Forall reply_ok four_replies /\ Forall answer_readable four_replies /\ (exists m, In m four_replies /\ num_of (rr_code m) = 404 /\ forall c, rr_body m <> RChunked c) /\ phrase 404 (str "Not Found") /\
  forall s, ~ phrase 299 s.
Proof.
  destruct C114_example as (A & B & _). split; [exact A|]. split; [exact B|]. split.
  { eexists. split; [right; right; right; left; reflexivity|]. split; [reflexivity|discriminate]. }
  split.
  - right. split; [cbn; intuition discriminate|]. apply (C61_reason_phrases_partial 404); [lia|cbn; intuition discriminate|reflexivity].
  - intros s [[K _]|[_ K]]; [discriminate K|]. apply (C61_reason_phrases_partial 299) in K; [vm_compute in K; discriminate|lia|cbn; intuition discriminate].
Qed.
