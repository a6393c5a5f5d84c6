(** The messages of RFC 9113 section 8.3: the header lists of requests and responses, and what they mean (C115). *)
From Coq Require Import Ascii String NArith ZArith Bool List Permutation.
From Verif Require Import Base S_Utf8 M_Header M_Url M_Http1 S_Http1 S_Http1Api S_Url S_Rfc9112 M_Std M_Hpack S_Hpack M_Frame M_H2 S_Rfc9113.
Import ListNotations.
Local Open Scope N_scope.

(** What an endpoint does with the fields of a header block: the frame collects them (at most [L] octets of them), and
    into_request and into_response make a message of the frame.  [fh] is the head of the frame. *)
Definition read_with {A} (L : N) (fh : fheader) (fs : list hfield) (k : headersf -> res A) : res A :=
  match hdr_collect L 0 (headers_new fh []) fs with
  | (h, Ok _) => k h
  | (_, Err e) => Err e
  | (_, Panic) => Panic
  | (_, Diverge) => Diverge
  end.
Definition read_request (L : N) (fh : fheader) (fs : list hfield) : res request :=
  read_with L fh fs (fun h => headers_into_request h req_default).
Definition read_response (L : N) (fh : fheader) (fs : list hfield) : res response :=
  read_with L fh fs (fun h => Ok (headers_into_response h resp_default)).

(** 8.2: names are lower case tokens, values those of RFC 9110, and there are no fields that belong to the connection. *)
Definition connection_names : list bytes :=
  map str ["connection"; "proxy-connection"; "keep-alive"; "transfer-encoding"; "upgrade"]%string.
Definition h2_field (f : hfield) : Prop :=
  lower_token (fst f) /\ rfc_value (snd f) /\ ~ In (fst f) connection_names /\ (fst f = str "te" -> snd f = str "trailers").

(** 8.3.1: a request for an http or https URI.  A host field says the same as :authority. *)
Record h2_request := mkH2Request {
  hr_method : bytes; hr_scheme : scheme; hr_host : bytes; hr_port : bytes; hr_path : bytes; hr_query : bytes; hr_fields : list hfield }.
Definition hr_authority (r : h2_request) : bytes := hr_host r ++ hr_port r.
Definition same_host (a : bytes) (f : hfield) : Prop := fst f = str "host" -> snd f = a.
Definition h2_request_ok (r : h2_request) : Prop :=
  name_ok (hr_method r) /\ hr_method r <> str "CONNECT" /\ In (hr_scheme r) [ScHttp; ScHttps] /\
  hr_host r <> [] /\ uri_host (hr_host r) /\ port_opt (hr_port r) /\ abs_path (hr_path r) /\ query_text (hr_query r) /\
  Forall h2_field (hr_fields r) /\ Forall (same_host (hr_authority r)) (hr_fields r).
Definition pseudo_request (m s a p : bytes) : list hfield :=
  [(str ":method", m); (str ":scheme", s); (str ":authority", a); (str ":path", p)].
(** The pseudo header fields come first, in any order. *)
Definition h2_request_list (r : h2_request) (fs : list hfield) : Prop :=
  exists ps, Permutation ps (pseudo_request (hr_method r) (scheme_str (hr_scheme r)) (hr_authority r) (hr_path r ++ hr_query r)) /\
    fs = ps ++ hr_fields r.

(** What it means: the method, the URI and the fields; the host field, which HTTP/1.1 has, is first, and names the authority. *)
Definition scheme_port (s : scheme) : N := match s with ScHttps => 443 | _ => 80 end.
Definition is_host (f : hfield) : bool := beq (fst f) (str "host").
Definition others (fs : list hfield) : list hfield := filter (fun f => negb (is_host f)) fs.
Definition host_value (a d : bytes) (n : N) (fs : list hfield) : bytes :=
  if existsb is_host fs then a else d ++ 58 :: dec_print n.
Definition url_meant (s : scheme) (h po p q : bytes) (u : url) (d : bytes) (n : N) : Prop :=
  u_scheme u = s /\ u_user u = None /\ u_pass u = None /\ u_domain u = Some d /\ text_of h d /\
  u_port u = Some n /\ n < 65536 /\ port_meant (scheme_port s) po n /\ path_meant p (u_path u) /\ query_meant q (u_query u).
Definition request_meant (r : h2_request) (q : request) : Prop :=
  method_str (q_method q) = hr_method r /\
  exists d n, url_meant (hr_scheme r) (hr_host r) (hr_port r) (hr_path r) (hr_query r) (q_url q) d n /\
    q_header q = (str "Host", host_value (hr_authority r) d n (hr_fields r)) :: others (hr_fields r).

(** What the crate asks of it: a method that it knows, escapes that stand for UTF-8 texts, no ':' in the host (so no
    IPv6 address), a port below 65536 that is not empty, no '@' in the target, and no name twice. *)
Definition text_has (l : bytes) : Prop := exists s, text_of l s.
Definition port_fine (po : bytes) : Prop := po = [] \/ exists ds, po = 58 :: ds /\ ds <> [] /\ num_of ds < 65536.
Definition target_readable (h po p q : bytes) : Prop :=
  text_has h /\ text_has p /\ (forall y, q = 63 :: y -> text_has y) /\ ~ In 58 h /\ port_fine po /\ ~ In 64 (p ++ q).
Definition request_readable (L : N) (r : h2_request) (fs : list hfield) : Prop :=
  total_size fs <= L /\ (exists m s, In (m, s) method_names /\ hr_method r = str s) /\
  target_readable (hr_host r) (hr_port r) (hr_path r) (hr_query r) /\ distinct_names (others (hr_fields r)).

(** 8.5: CONNECT has only :method and :authority, with a port. *)
Definition connect_ok (h ds : bytes) (hs : list hfield) : Prop :=
  h <> [] /\ uri_host h /\ ds <> [] /\ Forall digit ds /\ Forall h2_field hs /\ Forall (same_host (h ++ 58 :: ds)) hs.
Definition connect_list (h ds : bytes) (hs fs : list hfield) : Prop :=
  exists ps, Permutation ps [(str ":method", str "CONNECT"); (str ":authority", h ++ 58 :: ds)] /\ fs = ps ++ hs.
(** It is to be found as a CONNECT to "http://authority/". *)
Definition connect_meant (h ds : bytes) (hs : list hfield) (q : request) : Prop :=
  q_method q = MConnect /\
  exists d n, url_meant ScHttp h (58 :: ds) (str "/") [] (q_url q) d n /\
    q_header q = (str "Host", host_value (h ++ 58 :: ds) d n hs) :: others hs.

(** 8.3.2: a response has :status only. *)
Definition response_list (code : N) (hs fs : list hfield) : Prop := fs = (str ":status", three_digits code) :: hs.

(** 8.1.1: some of the ways to be malformed. *)
Inductive malformed (fs : list hfield) : Prop :=
| mf_upper n v : In (n, v) fs -> (exists b, In b n /\ upper b) -> malformed fs
| mf_name n v b : In (n, v) fs -> In b (tl n) -> ~ tchar b -> malformed fs
| mf_value n v : In (n, v) fs -> ~ rfc_value v -> malformed fs
| mf_late a f b g c : fs = a ++ f :: b ++ g :: c -> hd_error (fst f) <> Some 58 -> hd_error (fst g) = Some 58 -> malformed fs
| mf_twice n : (1 < length (filter (fun f : hfield => beq (fst f) n) fs))%nat -> hd_error n = Some 58 -> malformed fs
| mf_unknown n v : In (n, v) fs -> hd_error n = Some 58 -> ~ In n (map str [":method"; ":scheme"; ":authority"; ":path"]%string) -> malformed fs
| mf_connection n v : In (n, v) fs -> In n connection_names -> malformed fs
| mf_no_method : ~ In (str ":method") (map fst fs) -> malformed fs
| mf_no_target : ~ In (str ":method", str "CONNECT") fs -> ~ In (str ":scheme") (map fst fs) \/ ~ In (str ":path") (map fst fs) -> malformed fs
| mf_no_path : In (str ":path", []) fs -> malformed fs
| mf_hosts a b : In (str ":authority", a) fs -> In (str "host", b) fs -> a <> b -> malformed fs.
