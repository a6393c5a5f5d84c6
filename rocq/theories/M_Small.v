(** Small constructors, conversions and constants of the public API: src/ws/message.rs, src/http/status.rs,
    src/http/http2/mod.rs and src/http/http2/frame/*.rs. *)
From Coq Require Import Ascii String NArith Bool List.
From Verif Require Import Base M_Ws M_Std M_Header M_Url M_Http1 M_Frame M_H2 M_Build.
Import ListNotations.
Local Open Scope N_scope.

(** ** ws/message.rs *)
(** 353-355 OwnedMessage::message_size *)
Definition owned_size (m : owned) (masked : bool) : N := frame_size (owned_df m) masked.
(** 438-442 From<String>, 444-448 From<Vec<u8>> *)
Definition owned_of_string (s : bytes) : owned := OwText s.
Definition owned_of_vec (s : bytes) : owned := OwBinary s.
(** 495-500 CloseData::normal, 502-510 CloseData::new (the code is any Into<u16>, here a CloseCode) *)
Definition close_normal : close_data := {| cd_code := close_u16 CNormal; cd_reason := [] |}.
Definition close_new (c : close_code) (reason : bytes) : close_data := {| cd_code := close_u16 c; cd_reason := reason |}.

(** ** http/status.rs *)
(** 109-111 as_u16 and 260-265 From<StatusCode> for u16: a status is its number *)
Definition status_u16 (s : N) : N := s.
(** 236-241 Default *)
Definition status_default : N := 200.
(** 243-255 PartialEq<u16> for StatusCode and PartialEq<StatusCode> for u16 *)
Definition status_eq_u16 (s n : N) : bool := status_u16 s =? n.
Definition u16_eq_status (n s : N) : bool := n =? status_u16 s.
(** 197-202 build_header *)
Definition status_build_header (s : N) : bytes * bytes := (str ":status", status_str s).
(** 335-524: the associated constants, in the order of the source *)
Definition status_consts : list (string * N) := [
  ("CONTINUE"%string, 100); ("SWITCHING_PROTOCOLS"%string, 101); ("PROCESSING"%string, 102);
  ("OK"%string, 200); ("CREATED"%string, 201); ("ACCEPTED"%string, 202);
  ("NON_AUTHORITATIVE_INFORMATION"%string, 203); ("NO_CONTENT"%string, 204); ("RESET_CONTENT"%string, 205);
  ("PARTIAL_CONTENT"%string, 206); ("MULTI_STATUS"%string, 207); ("ALREADY_REPORTED"%string, 208);
  ("IM_USED"%string, 226); ("MULTIPLE_CHOICES"%string, 300); ("MOVED_PERMANENTLY"%string, 301);
  ("FOUND"%string, 302); ("SEE_OTHER"%string, 303); ("NOT_MODIFIED"%string, 304);
  ("USE_PROXY"%string, 305); ("TEMPORARY_REDIRECT"%string, 307); ("PERMANENT_REDIRECT"%string, 308);
  ("BAD_REQUEST"%string, 400); ("UNAUTHORIZED"%string, 401); ("PAYMENT_REQUIRED"%string, 402);
  ("FORBIDDEN"%string, 403); ("NOT_FOUND"%string, 404); ("METHOD_NOT_ALLOWED"%string, 405);
  ("NOT_ACCEPTABLE"%string, 406); ("PROXY_AUTHENTICATION_REQUIRED"%string, 407); ("REQUEST_TIMEOUT"%string, 408);
  ("CONFLICT"%string, 409); ("GONE"%string, 410); ("LENGTH_REQUIRED"%string, 411);
  ("PRECONDITION_FAILED"%string, 412); ("PAYLOAD_TOO_LARGE"%string, 413); ("URI_TOO_LONG"%string, 414);
  ("UNSUPPORTED_MEDIA_TYPE"%string, 415); ("RANGE_NOT_SATISFIABLE"%string, 416); ("EXPECTATION_FAILED"%string, 417);
  ("IM_A_TEAPOT"%string, 418); ("MISDIRECTED_REQUEST"%string, 421); ("UNPROCESSABLE_ENTITY"%string, 422);
  ("LOCKED"%string, 423); ("FAILED_DEPENDENCY"%string, 424); ("UPGRADE_REQUIRED"%string, 426);
  ("PRECONDITION_REQUIRED"%string, 428); ("TOO_MANY_REQUESTS"%string, 429); ("REQUEST_HEADER_FIELDS_TOO_LARGE"%string, 431);
  ("UNAVAILABLE_FOR_LEGAL_REASONS"%string, 451); ("INTERNAL_SERVER_ERROR"%string, 500); ("NOT_IMPLEMENTED"%string, 501);
  ("BAD_GATEWAY"%string, 502); ("SERVICE_UNAVAILABLE"%string, 503); ("GATEWAY_TIMEOUT"%string, 504);
  ("HTTP_VERSION_NOT_SUPPORTED"%string, 505); ("VARIANT_ALSO_NEGOTIATES"%string, 506); ("INSUFFICIENT_STORAGE"%string, 507);
  ("LOOP_DETECTED"%string, 508); ("NOT_EXTENDED"%string, 510); ("NETWORK_AUTHENTICATION_REQUIRED"%string, 511)].

(** ** http2/frame: constructors *)
(** ping.rs:31-32 SHUTDOWN_PAYLOAD, USER_PAYLOAD, 35-36 *)
Definition SHUTDOWN_PAYLOAD : bytes := [11; 123; 162; 240; 139; 155; 254; 84].
Definition USER_PAYLOAD : bytes := [59; 124; 219; 122; 11; 135; 22; 180].
(** ping.rs:38-43 new, 45-47 pong, 56-58 is_ack, 60-66 payload and into_payload *)
Definition ping_new (p : bytes) : ping := mkPing false p.
Definition ping_pong (p : bytes) : ping := mkPing true p.
Definition ping_is_ack (p : ping) : bool := pg_ack p.
Definition ping_payload (p : ping) : bytes := pg_payload p.
(** go_away.rs:28-34 new, 36-46 with_debug_data *)
Definition goaway_new (last code : N) : goaway := mkGoAway last code [].
Definition goaway_with_debug_data (last code : N) (d : bytes) : goaway := mkGoAway last code d.
(** reset.rs:26-31 new, window_update.rs:29-34 new *)
Definition reset_new (id code : N) : resetf := mkReset id code.
Definition winupd_new (id inc : N) : winupd := mkWin id inc.
(** priority.rs:91-97 StreamDependency::new, 52-58 Priority::into *)
Definition dep_new (id w : N) (e : bool) : stream_dep := mkDep id w e.
Definition priority_into (p : priority) : N * N * N := (pr_id p, dp_id (pr_dep p), dp_weight (pr_dep p)).
(** frame/mod.rs:58-68 zero, client_first, server_first *)
Definition stream_zero : N := 0.
Definition client_first : N := 1.
Definition server_first : N := 2.
(** frame/mod.rs:76-78 is_zero, 92-102 Ord, 104-108 Display *)
Definition stream_is_zero (s : N) : bool := s =? 0.
Definition stream_cmp (a b : N) : comparison := N.compare a b.
Definition stream_display (s : N) : bytes := dec_print s.
(** frame/mod.rs:111-116 read_u64 *)
Definition read_u64 (l : bytes) : res (N * bytes) := if blen l <? 8 then Ok (0, l) else get 8 l.
(** http2/mod.rs:14 MAIGC_LEN *)
Definition MAIGC_LEN : N := blen HTTP2_MAGIC.
