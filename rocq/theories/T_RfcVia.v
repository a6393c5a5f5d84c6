(** C123: messages that are received and sent on as HTTP/2. *)
From Coq Require Import Ascii String NArith ZArith Lia Bool List ZifyBool ZifyNat ZifyN Permutation.
From Verif Require Import Base S_Utf8 P_Base M_Std M_Helper M_Header M_Url M_Http1 S_Map S_Hex S_Http1Api P_Map P_Msg S_Url S_UrlAll S_Build S_Stream S_WriteAll S_Rfc9112 P_Rfc9112 T_Rfc9112
  S_RfcBody P_RfcBody T_RfcBody S_RfcMessage P_RfcMessage T_RfcMessage S_RfcReply P_RfcReply T_RfcReply S_Rfc3986 S_RfcSend P_RfcSend S_RfcShow P_RfcShow M_Hpack S_Hpack M_Frame M_H2
  S_Rfc9113 S_RfcMeans P_RfcMeans S_RfcAsk P_RfcAsk S_RfcRelay P_RfcRelay T_RfcRelay S_RfcVia P_RfcVia S_Http1.
Import ListNotations.
Local Open Scope N_scope.

(** A conforming HTTP/1 request in origin form that the crate reads (C113), sent with its fields behind what Parts::request and encode_header make
    (C120), is a conforming HTTP/2 request with the same method and fields for the same path, query and host exactly if it has no query, no escape
    that is needed, a Host field without a port, and no field that belongs to the connection or whose name compares equal to that of a pseudo header
    field. *)
Theorem C123_origin : forall pr m p s rest, bytes_ok (message_text m ++ rest) -> message_ok m -> message_readable m -> rm_target m = p ++ s -> abs_path p -> query_text s ->
  rm_method m <> str "CONNECT" ->
  exists q, read_message parse_request q_header (message_text m ++ rest) = Ok (q, body_meant (rm_body m), rest) /\
    (asked m (for_origin m p s) (map lower_field (request_behind (q_method q) (q_url q) pr (q_header q))) <->
     s = [] /\ path_plain p /\ fields_passable (rm_fields m) /\ exists h, host_fields (rm_fields m) = [h] /\ h <> [] /\ uri_host h).
Proof. exact origin_asked. Qed.
Print Assumptions C123_origin.
(** The absolute form of a proxy request: http or https, the port of the scheme, a host that stands for itself and that the Host field names. *)
Theorem C123_absolute : forall pr m r rest, bytes_ok (message_text m ++ rest) -> message_ok m -> message_readable m -> rm_target m = uri_text r -> uri_ok r -> ui_user r = [] -> ui_frag r = [] ->
  uri_readable r -> rm_method m <> str "CONNECT" ->
  exists q, read_message parse_request q_header (message_text m ++ rest) = Ok (q, body_meant (rm_body m), rest) /\
    (asked m (for_uri r) (map lower_field (request_behind (q_method q) (q_url q) pr (q_header q))) <->
     (exists s, In s [ScHttp; ScHttps] /\ ui_scheme r = scheme_str s /\ port_meant (scheme_port s) (ui_port r) (scheme_port s)) /\
     (exists d, text_of (ui_host r) d /\ d <> [] /\ host_plain d /\ Forall (same_host d) (map lower_field (rm_fields m))) /\
     ui_query r = [] /\ path_plain (ui_path r) /\ fields_passable (rm_fields m)).
Proof. exact absolute_asked. Qed.
Print Assumptions C123_absolute.
(** A conforming HTTP/2 request that the crate reads (C115), sent on as HTTP/2: exactly if it has a host field, no port, no query and nothing escaped
    that has to be. *)
Theorem C123_http2 : forall L fh pr r fs, h2_request_ok r -> h2_request_list r fs -> request_readable L r fs ->
  exists q, read_request L fh fs = Ok q /\ request_meant r q /\
    (asked_again r (map lower_field (request_behind (q_method q) (q_url q) pr (q_header q))) <->
     In (str "host") (map fst (hr_fields r)) /\ hr_port r = [] /\ ~ In 37 (hr_host r) /\ hr_query r = [] /\ path_plain (hr_path r)).
Proof. exact request_again. Qed.
Print Assumptions C123_http2.
(** Responses of HTTP/1, *)
Theorem C123_response : forall m rest, bytes_ok (reply_text m ++ rest) -> reply_ok m -> follows (rr_body m) rest -> answer_readable m ->
  exists p, read_reply (rr_to m) (reply_text m ++ rest) = Ok (p, reply_meant (rr_body m), rest) /\
    (answers (num_of (rr_code m)) (rr_fields m) (map lower_field (response_behind (p_status p) (p_header p))) <->
     Forall (fun f => ~ In (fst f) connection_names /\ (fst f = str "te" -> snd f = str "trailers")) (map lower_field (rr_fields m)) /\
     Forall (fun f => name_eq (str ":status") (fst f) = false) (rr_fields m)).
Proof. exact reply_answers. Qed.
Print Assumptions C123_response.
(** and of HTTP/2: those always stay what they were. *)
Theorem C123_http2_response : forall L fh code hs fs, Forall h2_field hs -> code < 1000 -> response_list code hs fs -> total_size fs <= L -> 100 <= code -> distinct_names hs ->
  exists p, read_response L fh fs = Ok p /\ answers code hs (map lower_field (response_behind (p_status p) (p_header p))).
Proof. exact response_answers. Qed.
Print Assumptions C123_http2_response.

(** What is sent is malformed, so that any receiver has to refuse it (RFC 9113 section 8.1.1), for every HTTP/2 request without a host field, *)
Theorem C123_hostless_refuted : forall L fh pr r fs, h2_request_ok r -> h2_request_list r fs -> request_readable L r fs -> ~ In (str "host") (map fst (hr_fields r)) ->
  exists q, read_request L fh fs = Ok q /\ request_meant r q /\ malformed (map lower_field (request_behind (q_method q) (q_url q) pr (q_header q))).
Proof. exact hostless_malformed. Qed.
Print Assumptions C123_hostless_refuted.
(** for every HTTP/1 request with a port in its Host field, *)
Theorem C123_port_refuted : forall pr m p s h rest, bytes_ok (message_text m ++ rest) -> message_ok m -> message_readable m -> rm_target m = p ++ s -> abs_path p -> query_text s ->
  rm_method m <> str "CONNECT" -> fields_passable (rm_fields m) -> host_fields (rm_fields m) = [h] -> In 58 h ->
  exists q, read_message parse_request q_header (message_text m ++ rest) = Ok (q, body_meant (rm_body m), rest) /\
    malformed (map lower_field (request_behind (q_method q) (q_url q) pr (q_header q))).
Proof. exact origin_port. Qed.
Print Assumptions C123_port_refuted.
(** and for every one with a field that belongs to the connection (a chunked one always has one): they are not removed. *)
Theorem C123_connection_refuted : forall pr m n v rest, bytes_ok (message_text m ++ rest) -> message_ok m -> message_readable m -> In (n, v) (rm_fields m) -> In (fold_name n) connection_names ->
  exists q, read_message parse_request q_header (message_text m ++ rest) = Ok (q, body_meant (rm_body m), rest) /\
    malformed (map lower_field (request_behind (q_method q) (q_url q) pr (q_header q))).
Proof. exact connection_malformed. Qed.
Print Assumptions C123_connection_refuted.
Theorem C123_connection_response_refuted : forall m n v rest, bytes_ok (reply_text m ++ rest) -> reply_ok m -> follows (rr_body m) rest -> answer_readable m ->
  In (n, v) (rr_fields m) -> In (fold_name n) connection_names ->
  exists p v', read_reply (rr_to m) (reply_text m ++ rest) = Ok (p, reply_meant (rr_body m), rest) /\ In (fold_name n, v') (map lower_field (response_behind (p_status p) (p_header p))).
Proof. exact connection_reply. Qed.
Print Assumptions C123_connection_response_refuted.

(** A conforming HTTP/1 request for one path of one host can become a conforming HTTP/2 request for another path of another host, since Z and the
    colon compare equal: a Zpath field is taken for :path, Zauthority for :authority. *)
Definition z_line (n v : string) : line := mkLine (str n) [SP] (str v) [].
Definition z_lines : list line := [z_line "Zpath" "/admin"; z_line "Zauthority" "b"].
Lemma z_lines_ok : Forall line_ok z_lines.
Proof.
  apply Forall_cons; [|apply Forall_cons; [|apply Forall_nil]].
  - unfold z_line. line_list. right. right. exists 47, (str "admi"), 110. split; [reflexivity|].
    split; [left; unfold vchar; lia|]. split; [left; unfold vchar; lia|]. cbn. repeat (apply Forall_cons; [left; left; unfold vchar; lia|]). apply Forall_nil.
  - unfold z_line. line_list. apply (one_value 98). unfold vchar; lia.
Qed.
Definition z_request : rfc_message := simple "GET" "http://a/" z_lines BNone.
Definition z_meant : h2_request := mkH2Request (str "GET") ScHttp (str "b") [] (str "/admin") [] [].
Lemma z_request_ok : message_ok z_request.
Proof.
  apply simple_ok; [cbn; auto| |exact z_lines_ok| |reflexivity|reflexivity].
  - change (str "http://a/") with ([104; 116; 116; 112] ++ str "://" ++ [97] ++ [] ++ [47] ++ []). apply rt_absolute.
    + apply (sn_intro 104). { unfold alpha, lower; lia. } repeat (apply Forall_cons; [unfold alpha, lower; lia|]). apply Forall_nil.
    + left. unfold reg_name. path_list.
    + constructor.
    + right. apply ap_intro. constructor.
    + constructor.
  - repeat (apply Forall_cons; [split; apply clash_freeb_ok; vm_compute; reflexivity|]). apply Forall_nil.
Qed.
Lemma z_request_readable : message_readable z_request.
Proof.
  split; [|exact I]. split; [|split; [right; reflexivity|split]].
  - exists MGet, "GET"%string. eexists. split; [cbn; auto|]. split; [reflexivity|]. apply wire_url_spec. vm_compute. reflexivity.
  - repeat (apply Forall_cons; [split; [repeat constructor|reflexivity]|]). apply Forall_nil.
  - cbn. repeat split; repeat constructor.
Qed.
Lemma z_meant_ok : h2_request_ok z_meant.
Proof.
  unfold h2_request_ok, z_meant, hr_authority. cbn [hr_method hr_scheme hr_host hr_port hr_path hr_query hr_fields].
  repeat match goal with |- _ /\ _ => split end; try discriminate.
  - apply name_okb_ok. reflexivity.
  - cbn. auto.
  - left. unfold reg_name. change (str "b") with [98]. path_list.
  - constructor.
  - match goal with |- abs_path (str ?t) => let p := eval vm_compute in (str t) in change (str t) with p end. apply ap_intro. path_list.
  - constructor.
  - constructor.
  - constructor.
Qed.
Theorem C123_name_refuted : exists m r q, message_ok m /\ message_readable m /\ rm_target m = str "http://a/" /\
  read_message parse_request q_header (message_text m) = Ok (q, [], []) /\ u_domain (q_url q) = Some (str "a") /\ u_path (q_url q) = str "/" /\
  h2_request_ok r /\ hr_authority r = str "b" /\ hr_path r = str "/admin" /\
  forall pr, h2_request_list r (map lower_field (request_behind (q_method q) (q_url q) pr (q_header q))).
Proof.
  exists z_request, z_meant. eexists. split; [exact z_request_ok|]. split; [exact z_request_readable|]. split; [reflexivity|]. split; [vm_compute; reflexivity|].
  split; [reflexivity|]. split; [reflexivity|]. split; [exact z_meant_ok|]. split; [reflexivity|]. split; [reflexivity|].
  intros pr. exists (four (str "GET") (str "http") (str "b") (str "/admin")). split; [|vm_compute; reflexivity].
  unfold four, pseudo_request. cbn [z_meant hr_method hr_scheme hr_path hr_query]. apply perm_skip. apply perm_swap.
Qed.
Print Assumptions C123_name_refuted.

(** The conditions are met. *)
Example C123_http2_met : h2_request_ok (h2_in []) /\ request_readable 1000 (h2_in []) (h2_list []) /\ In (str "host") (map fst (hr_fields (h2_in []))) /\
  hr_port (h2_in []) = [] /\ ~ In 37 (hr_host (h2_in [])) /\ hr_query (h2_in []) = [] /\ path_plain (hr_path (h2_in [])).
Proof.
  destruct (h2_in_ok [] (Forall_nil _) (Forall_nil _)) as [A _]. split; [exact A|]. split; [apply h2_in_readable; [vm_compute; discriminate|repeat constructor]|].
  split; [left; reflexivity|]. split; [reflexivity|]. split; [cbn; intuition discriminate|]. split; [reflexivity|]. apply C122_origin_met.
Qed.
Example C123_origin_met : message_ok (simple "GET" "/" [host_line] BNone) /\ message_readable (simple "GET" "/" [host_line] BNone) /\ path_plain (str "/") /\
  fields_passable (map line_field [host_line]) /\ host_fields (map line_field [host_line]) = [str "a"] /\ uri_host (str "a").
Proof.
  destruct C122_origin_met as (A & B & C). split; [exact A|]. split; [exact B|]. split; [exact C|]. split; [|split; [reflexivity|left; apply (reg_text _ a_host)]].
  split.
  - apply Forall_cons; [|apply Forall_nil]. split; [cbn; intuition discriminate|discriminate].
  - apply Forall_cons; [|apply Forall_nil]. intros n I. vm_compute in I. repeat (destruct I as [<-|I]; [reflexivity|]). destruct I.
Qed.
Example C123_response_met : exists m, In m four_replies /\ reply_ok m /\ answer_readable m /\ num_of (rr_code m) = 404 /\
  Forall (fun f => ~ In (fst f) connection_names /\ (fst f = str "te" -> snd f = str "trailers")) (map lower_field (rr_fields m)) /\
  Forall (fun f => name_eq (str ":status") (fst f) = false) (rr_fields m).
Proof.
  destruct C114_example as (A & B & _). rewrite Forall_forall in A, B. eexists. split; [right; right; right; left; reflexivity|].
  split; [apply A; right; right; right; left; reflexivity|]. split; [apply B; right; right; right; left; reflexivity|]. split; [reflexivity|]. split.
  - apply Forall_cons; [|apply Forall_nil]. split; [cbn; intuition discriminate|discriminate].
  - apply Forall_cons; [reflexivity|apply Forall_nil].
Qed.
