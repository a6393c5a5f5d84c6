(** The HTTP/2 messages that a sender makes of a request or a response, and when RFC 9113 section 8 takes them for it (C120). *)
From Coq Require Import Ascii String NArith ZArith Bool List Permutation.
From Verif Require Import Base S_Utf8 M_Header M_Url M_Http1 S_Http1 S_Http1Api S_Url S_Rfc9112 M_Std M_Hpack S_Hpack S_Frame M_Frame M_H2 S_FrameAll S_Rfc9113 S_RfcMeans
  S_WriteAll S_RfcFrames S_RfcSend.
Import ListNotations.
Local Open Scope N_scope.

(** ** What a program does to send a request
    Parts::request gives the pseudo header fields, encode_header puts them into a header map, and the fields of the
    request are inserted behind them, *)
Definition request_behind (m : method) (u : url) (pr : option scheme) (fs : headers) : headers :=
  hm_insert_all (parts_encode_header (parts_request m u pr) []) fs.
(** or encode_header is called with the header map of the request. *)
Definition request_onto (m : method) (u : url) (pr : option scheme) (fs : headers) : headers :=
  parts_encode_header (parts_request m u pr) fs.
(** A response has the pseudo header field :status only. *)
Definition response_behind (code : N) (fs : headers) : headers := hm_insert_all (parts_encode_header (parts_response code) []) fs.
Definition response_onto (code : N) (fs : headers) : headers := parts_encode_header (parts_response code) fs.

(** ** What it should have done
    [l], the list of fields as it is on the wire, is a conforming request with this method, for this URL and with these
    fields, whose names are sent in lower case. *)
Definition asks (m : method) (u : url) (fs l : list hfield) : Prop :=
  exists r d n, h2_request_ok r /\ h2_request_list r l /\ hr_method r = method_str m /\
    url_meant (hr_scheme r) (hr_host r) (hr_port r) (hr_path r) (hr_query r) u d n /\ hr_fields r = map lower_field fs.
(** 8.5: a CONNECT to the host of the URL. *)
Definition asks_connect (u : url) (fs l : list hfield) : Prop :=
  exists h ds d, connect_ok h ds (map lower_field fs) /\ connect_list h ds (map lower_field fs) l /\ text_of h d /\ u_domain u = Some d.
Definition answers (code : N) (fs l : list hfield) : Prop :=
  Forall h2_field (map lower_field fs) /\ response_list code (map lower_field fs) l.

(** On the wire: frames that tell a receiver with the table [peer] a header block [l] with the property [Q], on the
    stream [id], the last thing on it or not. *)
Definition told (room max : N) (peer : list hfield) (id : N) (last : Prop) (Q : list hfield -> Prop) (b : bytes) (peer' : list hfield) : Prop :=
  exists l fl, (flag_on fl 0 <-> last) /\ Forall (fun f => lower_field f = f) l /\ Q l /\
    conforms room max peer (FHeaders (mkHeaders id None l parts_default fl)) b peer'.

(** ** When it does
    A URL with a scheme http or https and the port of the scheme, with a host and a path that stand for themselves, and
    without a user, a password and a query, since those are not sent; a field Host, if there is one, is the host without
    the port; and no two names, also those of the pseudo header fields, compare equal. *)
Definition request_sendable (m : method) (u : url) (fs : list hfield) : Prop :=
  name_ok (method_str m) /\ method_str m <> str "CONNECT" /\ In (u_scheme u) [ScHttp; ScHttps] /\
  u_user u = None /\ u_pass u = None /\ u_query u = None /\ u_port u = Some (scheme_port (u_scheme u)) /\
  (exists d, u_domain u = Some d /\ d <> [] /\ host_fine d /\ Forall (same_host d) (map lower_field fs)) /\
  hd_error (u_path u) = Some 47 /\ Forall (fun b => pchar b \/ b = 47) (u_path u) /\
  Forall h2_field (map lower_field fs) /\
  distinct_names (map (fun n => (str n, [])) [":method"; ":authority"; ":scheme"; ":path"]%string ++ fs).
Definition response_sendable (code : N) (fs : list hfield) : Prop :=
  100 <= code <= 999 /\ Forall h2_field (map lower_field fs) /\ distinct_names ((str ":status", []) :: fs).
