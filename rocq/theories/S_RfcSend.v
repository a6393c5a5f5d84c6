(** What a conforming recipient makes of the HTTP/1 messages that the crate writes (C117). *)
From Coq Require Import Ascii String NArith ZArith Bool List.
From Verif Require Import Base S_Utf8 M_Header M_Url M_Http1 S_Map S_Hex S_Http1 S_Http1Api S_Url S_Build S_Rfc9112 S_RfcBody S_RfcMessage S_RfcReply S_Rfc3986.
Import ListNotations.
Local Open Scope N_scope.

(** ** Targets
    RFC 9112 section 3.2: CONNECT takes the authority form and nothing else does; "*" is for OPTIONS.  (The path of
    a URL that only has an authority is "/", or empty.) *)
Inductive target_means (m : bytes) (u : url) : bytes -> Prop :=
| tm_origin p s : m <> str "CONNECT" -> abs_path p -> query_text s -> path_meant p (u_path u) -> query_meant s (u_query u) ->
    target_means m u (p ++ s)
| tm_absolute r : m <> str "CONNECT" -> uri_ok r -> ui_user r = [] -> ui_frag r = [] -> uri_meant r u -> target_means m u (uri_text r)
| tm_authority h ds d : m = str "CONNECT" -> uri_host h -> Forall digit ds -> ds <> [] -> text_of h d -> u_domain u = Some d ->
    u_port u = Some (num_of ds) -> (u_path u = str "/" \/ u_path u = []) -> u_query u = None -> target_means m u (h ++ 58 :: ds)
| tm_asterisk : m = str "OPTIONS" -> u_path u = str "*" -> u_query u = None -> target_means m u (str "*").

(** Section 3.2: a request of HTTP/1.1 has exactly one Host field, with a host and perhaps a port, and for a URL with a
    host it is that one. *)
Definition host_fields (fs : list (bytes * bytes)) : list bytes := map snd (filter (fun nv => beq (fold_name (fst nv)) (str "host")) fs).
Definition host_said (u : url) (fs : list (bytes * bytes)) : Prop :=
  exists h po, host_fields fs = [h ++ po] /\ uri_host h /\ port_opt po /\
    forall d, u_domain u = Some d -> text_of h d /\ (forall n n0, u_port u = Some n -> own_port (u_scheme u) n0 -> port_meant n0 po n).

(** The octets [w] are a conforming request that means [q] with this content. *)
Definition request_said (q : request) (body w : bytes) : Prop :=
  exists t ls x, rfc_request (method_str (q_method q)) t (version_str (q_version q)) ls /\ rfc_framed (map line_field ls) x /\
    w = rfc_request_text (method_str (q_method q)) t (version_str (q_version q)) ls ++ body_wire x /\
    target_means (method_str (q_method q)) (q_url q) t /\ map line_field ls = q_header q /\ body_meant x = body /\
    (version_str (q_version q) = str "HTTP/1.1" -> host_said (q_url q) (map line_field ls)).
(** The same for a response to a request with the method [k]. *)
Definition response_said (k : method) (p : response) (body w : bytes) : Prop :=
  exists r ls x, rfc_response (version_str (p_version p)) (three_digits (p_status p)) r ls /\ reply_framed k (p_status p) (map line_field ls) x /\
    w = rfc_response_text (version_str (p_version p)) (three_digits (p_status p)) r ls ++ reply_wire x /\
    map line_field ls = p_header p /\ reply_meant x = body.

(** ** What has to hold of the objects *)
Definition http1 (v : version) : Prop := v = V10 \/ v = V11.
Definition fields_fine (fs : list (bytes * bytes)) : Prop := Forall (fun nv => name_ok (fst nv) /\ rfc_value (snd nv)) fs.
(** The path is written as it is, the query not at all. *)
Definition path_fine (m : bytes) (u : url) : Prop :=
  m <> str "CONNECT" /\ u_query u = None /\
  ((hd_error (u_path u) = Some 47 /\ Forall (fun b => pchar b \/ b = 47) (u_path u)) \/ (m = str "OPTIONS" /\ u_path u = str "*")).
(** The body is written as it is, so only a Content-Length can delimit it. *)
Definition body_fine (fs : list (bytes * bytes)) (body : bytes) : Prop :=
  te_of fs = None /\ match cl_of fs with Some v => decimal v (blen body) | None => body = [] end.
Definition request_fine (q : request) (body : bytes) : Prop :=
  name_ok (method_str (q_method q)) /\ http1 (q_version q) /\ path_fine (method_str (q_method q)) (q_url q) /\
  fields_fine (q_header q) /\ body_fine (q_header q) body /\ (q_version q = V11 -> host_said (q_url q) (q_header q)).
Definition reply_fine (k : method) (code : N) (fs : list (bytes * bytes)) (body : bytes) : Prop :=
  (bodiless k code -> body = []) /\
  (~ bodiless k code -> (forall v, te_of fs = Some v -> ~ finally_chunked v) /\ (te_of fs = None -> forall v, cl_of fs = Some v -> decimal v (blen body))).
Definition response_fine (k : method) (p : response) (body : bytes) : Prop :=
  http1 (p_version p) /\ fields_fine (p_header p) /\ reply_fine k (p_status p) (p_header p) body.
(** A host that stands for itself. *)
Definition host_fine (d : bytes) : Prop := uri_host d /\ ~ In 37 d.
