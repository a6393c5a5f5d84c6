(** Messages that are received and sent on as messages of HTTP/2 (C123). *)
From Coq Require Import Ascii String NArith ZArith Bool List.
From Verif Require Import Base S_Utf8 M_Header M_Url M_Http1 S_Map S_Hex S_Http1 S_Http1Api S_Url S_Build S_Rfc9112 S_RfcBody S_RfcMessage S_RfcReply S_Rfc3986
  S_RfcSend S_RfcShow M_Hpack S_Hpack S_Rfc9113 S_RfcMeans S_RfcAsk S_RfcRelay S_Http1.
Import ListNotations.
Local Open Scope N_scope.

(** [l], the list of fields as it is on the wire, is a conforming HTTP/2 request (which [h2_request_ok] says: a host field is the authority, and
    there are none of the fields that belong to the connection) with the method and the fields of the HTTP/1 request [m], with names in lower case, ... *)
Definition asked (m : rfc_message) (T : h2_request -> Prop) (l : list hfield) : Prop :=
  exists r, h2_request_ok r /\ h2_request_list r l /\ hr_method r = rm_method m /\ hr_fields r = map lower_field (rm_fields m) /\ T r.
(** ... for the same path and query, and the host of its Host field; *)
Definition for_origin (m : rfc_message) (p s : bytes) (r : h2_request) : Prop :=
  same_path p (hr_path r) /\ same_query s (hr_query r) /\ host_fields (rm_fields m) = [hr_authority r].
(** ... for the same URI, if the target is in absolute form. *)
Definition for_uri (r : uri) (r' : h2_request) : Prop :=
  scheme_meant (ui_scheme r) (hr_scheme r') /\ (exists d, text_of (ui_host r) d /\ text_of (hr_host r') d) /\
  (exists n, port_meant (scheme_port (hr_scheme r')) (ui_port r) n /\ port_meant (scheme_port (hr_scheme r')) (hr_port r') n) /\
  same_path (ui_path r) (hr_path r') /\ same_query (ui_query r) (hr_query r').
(** From HTTP/2 to HTTP/2: the host field can be moved, added or left out, since it says what :authority says. *)
Definition asked_again (r : h2_request) (l : list hfield) : Prop :=
  exists r', h2_request_ok r' /\ h2_request_list r' l /\ hr_method r' = hr_method r /\ hr_scheme r' = hr_scheme r /\
    (exists d, text_of (hr_host r) d /\ text_of (hr_host r') d) /\
    (exists n, port_meant (scheme_port (hr_scheme r)) (hr_port r) n /\ port_meant (scheme_port (hr_scheme r)) (hr_port r') n) /\
    same_path (hr_path r) (hr_path r') /\ same_query (hr_query r) (hr_query r') /\ others (hr_fields r') = others (hr_fields r).

(** What has to hold: no fields of the connection, and no name that compares equal to that of a pseudo header field. *)
Definition fields_passable (fs : list hfield) : Prop :=
  Forall (fun f => ~ In (fst f) connection_names /\ (fst f = str "te" -> snd f = str "trailers")) (map lower_field fs) /\
  Forall (fun f => forall n, In n (map str [":method"; ":authority"; ":scheme"; ":path"]%string) -> name_eq n (fst f) = false) fs.
