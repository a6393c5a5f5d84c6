(** Requests that HTTP/2 carries unchanged through this library, for C55, and the kinds of frames, for C65. *)
From Coq Require Import Ascii String NArith Bool List.
From Verif Require Import Base M_Url S_Http1 S_Http1Api S_Url M_Frame M_H2.
Import ListNotations.
Local Open Scope N_scope.

(** A URL of a scheme, a host, the scheme's default port and a path without escapes; no user, password or query. *)
Definition plain_url (u : url) : Prop :=
  legal_scheme (u_scheme u) /\ (exists d, u_domain u = Some d /\ Forall host_char d) /\ plain_path (u_path u) /\
  (exists n, u_port u = Some n /\
     (In (u_scheme u, n) default_ports \/ ((forall m, ~ In (u_scheme u, m) default_ports) /\ n = 0))) /\
  u_user u = None /\ u_pass u = None /\ u_query u = None.

(** The kind of a frame. *)
Definition kind_of (f : frame) : kind :=
  match f with
  | FData _ => KData | FHeaders _ => KHeaders | FPriority _ => KPriority | FPushPromise _ => KPushPromise | FSettings _ => KSettings
  | FPing _ => KPing | FGoAway _ => KGoAway | FWindowUpdate _ => KWindowUpdate | FReset _ => KReset
  end.
