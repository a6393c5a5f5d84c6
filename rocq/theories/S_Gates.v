(** Messages through any row of gateways, over HTTP/1 and HTTP/2 (C132). *)
From Coq Require Import Ascii String NArith ZArith Bool List.
From Verif Require Import Base M_Std M_Helper M_Header M_Url M_Http1 S_Http1Api S_Map S_Stream S_Via M_Hpack S_Hpack M_Frame M_H2 S_Rfc9112 S_RfcMeans S_RfcAsk S_RfcShow S_RfcVia S_Http1.
Import ListNotations.
Local Open Scope N_scope.

(** A gateway has received a message and sends it on: over HTTP/1 as in C130, or as HTTP/2 with its pseudo header fields first (C120), to a
    receiver with the limit [L] for header lists; [fh] is the head of the frame. Names are sent in lower case by the HPACK encoder. *)
Inductive gate := OverHttp1 | OverHttp2 (L : N) (fh : fheader).
Definition one {A} (l : list A) : res A := match l with [x] => Ok x | _ => partial end.
Definition request_fields (q : request) : list hfield := map lower_field (request_behind (q_method q) (q_url q) None (q_header q)).
Definition response_fields (p : response) : list hfield := map lower_field (response_behind (p_status p) (p_header p)).
Definition pass_request (g : gate) (x : request * bytes) : res (request * bytes) :=
  match g with
  | OverHttp1 => got <- over_requests [request_again x] ;; one got
  | OverHttp2 L fh => q <- read_request L fh (request_fields (fst x)) ;; Ok (q, snd x)
  end.
Definition pass_response (g : gate) (x : response * bytes) : res (response * bytes) :=
  match g with
  | OverHttp1 => got <- over_responses [response_again x] ;; one got
  | OverHttp2 L fh => p <- read_response L fh (response_fields (fst x)) ;; Ok (p, snd x)
  end.
Fixpoint pass_all {A} (f : gate -> A -> res A) (gs : list gate) (x : A) : res A :=
  match gs with [] => Ok x | g :: gs' => y <- f g x ;; pass_all f gs' y end.
Definition is_http2 (g : gate) : bool := match g with OverHttp2 _ _ => true | OverHttp1 => false end.
Definition limit_fits (n : N) (g : gate) : Prop := match g with OverHttp2 L _ => n <= L | OverHttp1 => True end.

(** A received HTTP/1.1 request for http://d/path, with no query, no escapes, no port and no '@'; one Host field, that names d, *)
Definition ready_target (q : request) (d : bytes) : Prop :=
  In (q_method q) known_methods /\ q_method q <> MConnect /\ q_version q = V11 /\ q_partial q = false /\
  q_url q = mkUrl ScHttp (u_path (q_url q)) None None (Some d) (Some 80) None /\
  hd_error (u_path (q_url q)) = Some 47 /\ Forall (fun b => (pchar b \/ b = 47) /\ b <> 64) (u_path (q_url q)) /\
  d <> [] /\ host_plain d /\ ~ In 58 d /\
  Forall (same_host d) (map lower_field (q_header q)) /\ In (str "host") (map fst (map lower_field (q_header q))).
(** fields that HTTP/1 and HTTP/2 allow, none of them of the connection, and no name that compares equal to that of a field for the framing without being it, *)
Definition framing_names : list bytes := map str ["content-length"; "transfer-encoding"]%string.
Definition names_true (h : headers) : Prop := Forall (fun f => forall k, In k framing_names -> name_eq (fst f) k = true -> fold_name (fst f) = k) h.
Definition ready_fields (h : headers) : Prop :=
  fields_ok h /\ Forall (fun f => rfc_value (snd f)) h /\ distinct_names h /\ names_true h /\
  Forall (fun f => ~ In (fst f) connection_names /\ (fst f = str "te" -> snd f = str "trailers")) (map lower_field h).
(** and the content that the length says, or none. *)
Definition request_ready (x : request * bytes) (d : bytes) : Prop :=
  ready_target (fst x) d /\ ready_fields (q_header (fst x)) /\
  Forall (fun f => forall n, In n (map str [":method"; ":authority"; ":scheme"; ":path"]%string) -> name_eq n (fst f) = false) (q_header (fst x)) /\
  framed (q_header (fst x)) (Sized (snd x)).
Definition response_ready (x : response * bytes) : Prop :=
  p_version (fst x) = V11 /\ p_partial (fst x) = false /\ (exists rs, canonical_reason (p_status (fst x)) = Some rs) /\ 100 <= p_status (fst x) <= 999 /\
  ready_fields (p_header (fst x)) /\ Forall (fun f => name_eq (str ":status") (fst f) = false) (p_header (fst x)) /\ framed (p_header (fst x)) (Sized (snd x)).
(** Over HTTP/2 names become lower case, and the Host field comes first. *)
Definition host_first (d : bytes) (h : headers) : headers := (str "Host", d) :: others (map lower_field h).
