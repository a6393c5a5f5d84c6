(** Model of the named header fields of src/http/name.rs (C136). *)
From Coq Require Import Ascii String NArith Bool List.
From Verif Require Import Base M_Value.
Import ListNotations.
Local Open Scope string_scope.

(** name.rs 153-1013 standard_headers!: the constants HeaderName::ACCEPT etc. with their literals, in the order of the source; the comment
    behind each gives the line.  The first name of each row of the source (Accept) is not used by the macro. *)
Definition named_fields : list (string * string) :=
 [
  ("ACCEPT", "accept") (* 193 *);
  ("ACCEPT_CHARSET", "accept-charset") (* 208 *);
  ("ACCEPT_ENCODING", "accept-encoding") (* 236 *);
  ("ACCEPT_LANGUAGE", "accept-language") (* 261 *);
  ("ACCEPT_RANGES", "accept-ranges") (* 271 *);
  ("ACCESS_CONTROL_ALLOW_CREDENTIALS", "access-control-allow-credentials") (* 296 *);
  ("ACCESS_CONTROL_ALLOW_HEADERS", "access-control-allow-headers") (* 312 *);
  ("ACCESS_CONTROL_ALLOW_METHODS", "access-control-allow-methods") (* 319 *);
  ("ACCESS_CONTROL_ALLOW_ORIGIN", "access-control-allow-origin") (* 323 *);
  ("ACCESS_CONTROL_EXPOSE_HEADERS", "access-control-expose-headers") (* 327 *);
  ("ACCESS_CONTROL_MAX_AGE", "access-control-max-age") (* 330 *);
  ("ACCESS_CONTROL_REQUEST_HEADERS", "access-control-request-headers") (* 334 *);
  ("ACCESS_CONTROL_REQUEST_METHOD", "access-control-request-method") (* 338 *);
  ("AGE", "age") (* 346 *);
  ("ALLOW", "allow") (* 355 *);
  ("ALT_SVC", "alt-svc") (* 358 *);
  ("AUTHORIZATION", "authorization") (* 364 *);
  ("CACHE_CONTROL", "cache-control") (* 372 *);
  ("CACHE_STATUS", "cache-status") (* 377 *);
  ("CDN_CACHE_CONTROL", "cdn-cache-control") (* 384 *);
  ("CONNECTION", "connection") (* 399 *);
  ("CONTENT_DISPOSITION", "content-disposition") (* 419 *);
  ("CONTENT_ENCODING", "content-encoding") (* 431 *);
  ("CONTENT_LANGUAGE", "content-language") (* 446 *);
  ("CONTENT_LENGTH", "content-length") (* 452 *);
  ("CONTENT_LOCATION", "content-location") (* 465 *);
  ("CONTENT_RANGE", "content-range") (* 468 *);
  ("CONTENT_SECURITY_POLICY", "content-security-policy") (* 476 *);
  ("CONTENT_SECURITY_POLICY_REPORT_ONLY", "content-security-policy-report-only") (* 484 *);
  ("CONTENT_TYPE", "content-type") (* 496 *);
  ("COOKIE", "cookie") (* 503 *);
  ("DNT", "dnt") (* 509 *);
  ("DATE", "date") (* 512 *);
  ("ETAG", "etag") (* 528 *);
  ("EXPECT", "expect") (* 547 *);
  ("EXPIRES", "expires") (* 556 *);
  ("FORWARDED", "forwarded") (* 568 *);
  ("FROM", "from") (* 577 *);
  ("HOST", "host") (* 588 *);
  ("IF_MATCH", "if-match") (* 613 *);
  ("IF_MODIFIED_SINCE", "if-modified-since") (* 630 *);
  ("IF_NONE_MATCH", "if-none-match") (* 666 *);
  ("IF_RANGE", "if-range") (* 682 *);
  ("IF_UNMODIFIED_SINCE", "if-unmodified-since") (* 703 *);
  ("LAST_MODIFIED", "last-modified") (* 706 *);
  ("LINK", "link") (* 710 *);
  ("LOCATION", "location") (* 741 *);
  ("MAX_FORWARDS", "max-forwards") (* 745 *);
  ("ORIGIN", "origin") (* 753 *);
  ("PRAGMA", "pragma") (* 761 *);
  ("PROXY_AUTHENTICATE", "proxy-authenticate") (* 779 *);
  ("PROXY_AUTHORIZATION", "proxy-authorization") (* 786 *);
  ("PUBLIC_KEY_PINS", "public-key-pins") (* 794 *);
  ("PUBLIC_KEY_PINS_REPORT_ONLY", "public-key-pins-report-only") (* 801 *);
  ("RANGE", "range") (* 811 *);
  ("REFERER", "referer") (* 819 *);
  ("REFERRER_POLICY", "referrer-policy") (* 823 *);
  ("REFRESH", "refresh") (* 827 *);
  ("RETRY_AFTER", "retry-after") (* 839 *);
  ("SEC_WEBSOCKET_ACCEPT", "sec-websocket-accept") (* 845 *);
  ("SEC_WEBSOCKET_EXTENSIONS", "sec-websocket-extensions") (* 852 *);
  ("SEC_WEBSOCKET_KEY", "sec-websocket-key") (* 861 *);
  ("SEC_WEBSOCKET_PROTOCOL", "sec-websocket-protocol") (* 868 *);
  ("SEC_WEBSOCKET_VERSION", "sec-websocket-version") (* 876 *);
  ("SERVER", "server") (* 885 *);
  ("SET_COOKIE", "set-cookie") (* 888 *);
  ("STRICT_TRANSPORT_SECURITY", "strict-transport-security") (* 891 *);
  ("TE", "te") (* 901 *);
  ("TRAILER", "trailer") (* 905 *);
  ("TRANSFER_ENCODING", "transfer-encoding") (* 919 *);
  ("USER_AGENT", "user-agent") (* 923 *);
  ("UPGRADE", "upgrade") (* 926 *);
  ("UPGRADE_INSECURE_REQUESTS", "upgrade-insecure-requests") (* 930 *);
  ("VARY", "vary") (* 942 *);
  ("VIA", "via") (* 951 *);
  ("WARNING", "warning") (* 959 *);
  ("WWW_AUTHENTICATE", "www-authenticate") (* 963 *);
  ("X_CONTENT_TYPE_OPTIONS", "x-content-type-options") (* 978 *);
  ("X_DNS_PREFETCH_CONTROL", "x-dns-prefetch-control") (* 991 *);
  ("X_FRAME_OPTIONS", "x-frame-options") (* 1001 *);
  ("X_XSS_PROTECTION", "x-xss-protection") (* 1012 *)
 ].
(** 163: pub const $upcase: HeaderName = HeaderName::Stand(...) *)
Definition named (k : string) : option hname :=
  match find (fun r => String.eqb (fst r) k) named_fields with Some r => Some (NStand (str (snd r))) | None => None end.
(** 168-177: from_bytes: the literals of the table, as patterns of a match, give the constant; anything else is copied as text. *)
Definition header_name_from_bytes (s : bytes) : option hname := Some (hn_from_bytes (map (fun r => str (snd r)) named_fields) s).
