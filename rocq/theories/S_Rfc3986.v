(** URIs with an authority, of RFC 3986, with user information and fragments, and what they mean (C116). *)
From Coq Require Import Ascii String NArith ZArith Bool List.
From Verif Require Import Base S_Utf8 M_Url S_Http1 S_Http1Api S_Hex S_Url S_Rfc9112.
Import ListNotations.
Local Open Scope N_scope.

(** [ userinfo "@" ], where userinfo = *( unreserved / pct-encoded / sub-delims / ":" ). *)
Inductive userinfo_opt : bytes -> Prop :=
| uo_none : userinfo_opt []
| uo_some x : pct_text (fun b => unreserved b \/ sub_delim b \/ b = 58) x -> userinfo_opt (x ++ [64]).
(** [ "#" fragment ] *)
Inductive fragment_opt : bytes -> Prop :=
| fo_none : fragment_opt []
| fo_some f : pct_text (fun b => pchar b \/ In b (str "/?")) f -> fragment_opt (35 :: f).
Record uri := mkUri { ui_scheme : bytes; ui_user : bytes; ui_host : bytes; ui_port : bytes; ui_path : bytes; ui_query : bytes; ui_frag : bytes }.
Definition uri_ok (r : uri) : Prop :=
  scheme_name (ui_scheme r) /\ userinfo_opt (ui_user r) /\ uri_host (ui_host r) /\ port_opt (ui_port r) /\
  (ui_path r = [] \/ abs_path (ui_path r)) /\ query_text (ui_query r) /\ fragment_opt (ui_frag r).
Definition uri_text (r : uri) : bytes :=
  ui_scheme r ++ str "://" ++ ui_user r ++ ui_host r ++ ui_port r ++ ui_path r ++ ui_query r ++ ui_frag r.

(** The user is what stands before the first ':', the password what stands behind it. *)
Definition user_meant (k : bytes) (us pw : option bytes) : Prop :=
  (k = [] /\ us = None /\ pw = None) \/
  (exists a s, k = a ++ [64] /\ ~ In 58 a /\ text_of a s /\ us = Some s /\ pw = None) \/
  (exists a b s t, k = a ++ 58 :: b ++ [64] /\ ~ In 58 a /\ text_of a s /\ text_of b t /\ us = Some s /\ pw = Some t).
(** Schemes do not depend on case. *)
Definition lower_byte (b : N) : N := if (65 <=? b) && (b <=? 90) then b + 32 else b.
Definition scheme_meant (t : bytes) (s : scheme) : Prop :=
  map lower_byte (scheme_str s) = map lower_byte t /\ (In (map lower_byte t) known_schemes -> forall x, s <> ScExt x).
(** The port of a scheme; 0 when the scheme has none. *)
Definition own_port (s : scheme) (n : N) : Prop := In (s, n) default_ports \/ ((forall m, ~ In (s, m) default_ports) /\ n = 0).
(** The URL of a URI.  It has no place for the fragment, which belongs to the client (RFC 9110, 4.2). *)
Definition uri_meant (r : uri) (u : url) : Prop :=
  scheme_meant (ui_scheme r) (u_scheme u) /\ user_meant (ui_user r) (u_user u) (u_pass u) /\
  (exists d, text_of (ui_host r) d /\ u_domain u = Some d) /\
  (exists n0 n, own_port (u_scheme u) n0 /\ port_meant n0 (ui_port r) n /\ n < 65536 /\ u_port u = Some n) /\
  path_meant (ui_path r) (u_path u) /\ query_meant (ui_query r) (u_query u).

(** What the crate asks of a URI: known schemes in lower case and others of at most 64 characters; user information with
    exactly one ':', a host without ':', a port that is not empty, no '@' behind the host, no query without a path, and
    no fragment. *)
Definition text_there (l : bytes) : Prop := exists s, text_of l s.
Definition login_fine (k : bytes) : Prop :=
  k = [] \/ exists a b, k = a ++ 58 :: b ++ [64] /\ ~ In 58 (a ++ b) /\ text_there a /\ text_there b.
Definition uri_readable (r : uri) : Prop :=
  (length (ui_scheme r) <= 64)%nat /\ (In (map lower_byte (ui_scheme r)) known_schemes -> In (ui_scheme r) known_schemes) /\
  login_fine (ui_user r) /\ text_there (ui_host r) /\ ~ In 58 (ui_host r) /\
  (ui_port r = [] \/ exists ds, ui_port r = 58 :: ds /\ ds <> [] /\ num_of ds < 65536) /\
  text_there (ui_path r) /\ (forall y, ui_query r = 63 :: y -> text_there y) /\ ~ In 64 (ui_path r ++ ui_query r) /\
  (ui_path r = [] -> ui_query r = []).
