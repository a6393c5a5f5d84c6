(** Vocabulary for the theorems that say exactly when a message or URL survives being written and read (T_Exact.v). *)
From Coq Require Import Ascii String NArith ZArith Bool List.
From Verif Require Import Base S_Utf8 M_Header M_Url M_Http1 S_Http1 S_Http1Api S_Url.
Import ListNotations.
Local Open Scope N_scope.

(** Every component is a Rust String. *)
Definition utf8_url (u : url) : Prop :=
  is_utf8 (scheme_str (u_scheme u)) /\ is_utf8 (u_path u) /\ opt_utf8 (u_user u) /\ opt_utf8 (u_pass u) /\ opt_utf8 (u_domain u) /\ opt_utf8 (u_query u).
(** A Host that can be used: none, a name, or a name and a port. *)
Definition host_usable (h : headers) : Prop :=
  hm_get_host h = None \/ exists v d n, hm_get_host h = Some v /\ host_parts v d n.
(** Methods, paths, names and values are octets. *)
Definition request_bytes (q : request) : Prop :=
  bytes_ok (method_str (q_method q)) /\ bytes_ok (u_path (q_url q)) /\ Forall (fun nv => bytes_ok (fst nv) /\ bytes_ok (snd nv)) (q_header q).
Definition response_bytes (p : response) : Prop := Forall (fun nv => bytes_ok (fst nv) /\ bytes_ok (snd nv)) (p_header p).
(** What the receiver gets from a request written in front of [body]: the same method, version, path, query and headers. *)
Definition request_delivered (q0 q : request) (body : bytes) : Prop :=
  exists w q' n, req_http1_data q body = Ok w /\ req_parse q0 w = (q', Ok n) /\
    q_method q' = q_method q /\ q_version q' = q_version q /\ q_header q' = q_header q /\
    u_path (q_url q') = u_path (q_url q) /\ u_query (q_url q') = u_query (q_url q).
Definition response_delivered (p0 p : response) (body : bytes) : Prop :=
  exists w p' n, resp_httpdata p body = Ok w /\ resp_parse p0 w = (p', Ok n) /\
    p_status p' = p_status p /\ p_version p' = p_version p /\ p_header p' = p_header p.
