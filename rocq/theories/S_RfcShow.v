(** What a URL shows, as a URI or an authority of RFC 3986 (C121). *)
From Coq Require Import Ascii String NArith ZArith Bool List.
From Verif Require Import Base S_Utf8 M_Url S_Http1 S_Http1Api S_Hex S_Url S_Rfc9112 S_Rfc3986.
Import ListNotations.
Local Open Scope N_scope.

(** The text [w] is a URI that means [u], *)
Definition shows (u : url) (w : bytes) : Prop := exists r, uri_ok r /\ w = uri_text r /\ uri_meant r u.
(** and an authority (RFC 3986 section 3.2, without user information) that means its host and port. *)
Definition shows_authority (u : url) (w : bytes) : Prop :=
  exists h po d n0 n, w = h ++ po /\ uri_host h /\ port_opt po /\ text_of h d /\ u_domain u = Some d /\
    own_port (u_scheme u) n0 /\ port_meant n0 po n /\ u_port u = Some n.

(** A host is written as it is, so that it has to stand for itself. *)
Definition host_plain (d : bytes) : Prop := uri_host d /\ ~ In 37 d.
(** Of the delimiters none is escaped: the user has none, the password none but ':', the path no '?'. *)
Definition none_of (cs s : bytes) : Prop := forall c, In c s -> ~ In c cs.
Definition url_plain (u : url) : Prop :=
  scheme_name (scheme_str (u_scheme u)) /\ (forall x, u_scheme u = ScExt x -> ~ In (map lower_byte x) known_schemes) /\
  ((u_user u = None /\ u_pass u = None) \/
   exists a b, u_user u = Some a /\ u_pass u = Some b /\ none_of (str ":@/?") a /\ none_of (str "@/?") b) /\
  (exists d, u_domain u = Some d /\ host_plain d) /\ (exists n, u_port u = Some n /\ n < 65536) /\
  hd_error (u_path u) = Some 47 /\ none_of (str "?") (u_path u).
(** The authority leaves the port out for http and https with their ports, and for a URL without a scheme. *)
Definition authority_plain (u : url) : Prop :=
  (exists d, u_domain u = Some d /\ host_plain d) /\ (exists n, u_port u = Some n /\ (u_scheme u = ScNone -> n = 0)).

(** Two URLs that differ at most in the case of a scheme that the crate does not know. *)
Definition same_url (u v : url) : Prop :=
  map lower_byte (scheme_str (u_scheme u)) = map lower_byte (scheme_str (u_scheme v)) /\
  (u_scheme u = u_scheme v \/ exists x y, u_scheme u = ScExt x /\ u_scheme v = ScExt y) /\
  u_user u = u_user v /\ u_pass u = u_pass v /\ u_domain u = u_domain v /\ u_port u = u_port v /\ u_path u = u_path v /\ u_query u = u_query v.
