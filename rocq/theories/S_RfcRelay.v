(** Messages that are received and sent on (C122). *)
From Coq Require Import Ascii String NArith ZArith Bool List.
From Verif Require Import Base S_Utf8 M_Header M_Url M_Http1 S_Map S_Hex S_Http1 S_Http1Api S_Url S_Build S_Rfc9112 S_RfcBody S_RfcMessage S_RfcReply S_Rfc3986
  S_RfcSend S_RfcShow M_Hpack S_Rfc9113 S_RfcMeans S_Http1.
Import ListNotations.
Local Open Scope N_scope.

(** [w] is a conforming request with the method, version, fields and content of [m], and with a target in [T]. *)
Definition passed (T : bytes -> Prop) (m : rfc_message) (w : bytes) : Prop :=
  exists t ls x, rfc_request (rm_method m) t (rm_version m) ls /\ rfc_framed (map line_field ls) x /\
    w = rfc_request_text (rm_method m) t (rm_version m) ls ++ body_wire x /\ T t /\
    map line_field ls = rm_fields m /\ body_meant x = body_meant (rm_body m).
(** Targets with the same meaning: the same path and query, whatever is escaped; the host is in the fields. *)
Definition same_path (p p' : bytes) : Prop := exists x, path_meant p x /\ path_meant p' x.
Definition same_query (s s' : bytes) : Prop := exists o, query_meant s o /\ query_meant s' o.
Inductive origin_like (p s : bytes) : bytes -> Prop :=
| ol_intro p' s' : abs_path p' -> query_text s' -> same_path p p' -> same_query s s' -> origin_like p s (p' ++ s').
(** For the absolute form: an equivalent URI, or the origin form if there is one Host field and it names the same host and port. *)
Definition host_agrees (fs : list (bytes * bytes)) (r : uri) : Prop :=
  exists h po d s n0 n, host_fields fs = [h ++ po] /\ uri_host h /\ port_opt po /\ text_of h d /\ text_of (ui_host r) d /\
    scheme_meant (ui_scheme r) s /\ own_port s n0 /\ port_meant n0 po n /\ port_meant n0 (ui_port r) n.
Inductive absolute_like (fs : list (bytes * bytes)) (r : uri) : bytes -> Prop :=
| al_origin p s : abs_path p -> query_text s -> same_path (ui_path r) p -> same_query (ui_query r) s -> host_agrees fs r -> absolute_like fs r (p ++ s)
| al_absolute r' : uri_ok r' -> ui_user r' = [] -> ui_frag r' = [] -> (exists u, uri_meant r u /\ uri_meant r' u) -> absolute_like fs r (uri_text r').
(** For the authority form: the same host and port. *)
Inductive authority_like (h ds : bytes) : bytes -> Prop :=
| aul_intro h' ds' : uri_host h' -> Forall digit ds' -> ds' <> [] -> (exists d, text_of h d /\ text_of h' d) -> num_of ds = num_of ds' ->
    authority_like h ds (h' ++ 58 :: ds').
(** The same for a response. *)
Definition reply_passed (m : rfc_reply) (w : bytes) : Prop :=
  exists r ls x, rfc_response (rr_version m) (rr_code m) r ls /\ reply_framed (rr_to m) (num_of (rr_code m)) (map line_field ls) x /\
    w = rfc_response_text (rr_version m) (rr_code m) r ls ++ reply_wire x /\ map line_field ls = rr_fields m /\ reply_meant x = reply_meant (rr_body m).

(** What has to hold of a path: when its escapes are resolved it has nothing that would need one. *)
Definition path_plain (p : bytes) : Prop := exists x, path_meant p x /\ Forall (fun b => pchar b \/ b = 47) x.
(** A request of HTTP/2: no query, such a path, a host like that or in a host field, and a length or no content. *)
Definition h2_passable (r : h2_request) (body : bytes) : Prop :=
  hr_query r = [] /\ path_plain (hr_path r) /\
  (In (str "host") (map fst (hr_fields r)) \/ exists d, text_of (hr_host r) d /\ host_plain d) /\
  match cl_of (hr_fields r) with Some v => decimal v (blen body) | None => body = [] end.
