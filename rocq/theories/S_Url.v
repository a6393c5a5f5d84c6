(** Specification of percent-encoding and of URL texts (C19-C24). *)
From Coq Require Import Ascii String NArith ZArith Bool List.
From Verif Require Import Base S_Utf8 M_Url S_Http1 S_Http1Api S_Hex.
Import ListNotations.
Local Open Scope N_scope.

(** ** Percent-encoding *)
(** The characters that url_encode leaves alone. *)
Definition safe_char (b : N) : Prop := alpha b \/ digit b \/ In b (str "-._/:?=&@").
Definition upper_hex (b d : N) : Prop := nth_error (str "0123456789ABCDEF") (N.to_nat d) = Some b.
(** [l] is the escaped form of [s]. *)
Inductive escaped : bytes -> bytes -> Prop :=
| es_nil : escaped [] []
| es_safe b s l : safe_char b -> escaped s l -> escaped (b :: s) (b :: l)
| es_esc b h x k y s l : ~ safe_char b -> b = 16 * x + y -> upper_hex h x -> upper_hex k y -> escaped s l ->
    escaped (b :: s) (37 :: h :: k :: l).
(** [l] is a text whose every '%' is followed by two hexadecimal digits, and it
    denotes [s]. *)
Inductive pct_form : bytes -> bytes -> Prop :=
| pf_nil : pct_form [] []
| pf_char b l s : b <> 37 -> pct_form l s -> pct_form (b :: l) (b :: s)
| pf_esc h x k y l s : hexv h x -> hexv k y -> pct_form l s -> pct_form (37 :: h :: k :: l) (16 * x + y :: s).

(** ** URL texts *)
(** Characters of a host, user, password or port: visible ASCII without ':',
    '@', '/' and '?'. *)
Definition part_char (b : N) : Prop := vchar b /\ ~ In b (str ":@/?").
Definition host_char (b : N) : Prop := part_char b /\ b <> 37.
Definition path_char (b : N) : Prop := vchar b /\ b <> 63 /\ b <> 64.
Definition query_char (b : N) : Prop := vchar b /\ b <> 64.
Definition scheme_char (b : N) : Prop := alpha b \/ digit b \/ In b (str "+-.").
Definition known_schemes : list bytes := map str ["http"; "https"; "ws"; "wss"; "ftp"]%string.
(** Schemes with a text form. *)
Inductive legal_scheme : scheme -> Prop :=
| lg_http : legal_scheme ScHttp
| lg_https : legal_scheme ScHttps
| lg_ws : legal_scheme ScWs
| lg_wss : legal_scheme ScWss
| lg_ftp : legal_scheme ScFtp
| lg_ext b s : alpha b -> Forall scheme_char s -> (length s < 64)%nat -> ~ In (b :: s) known_schemes ->
    legal_scheme (ScExt (b :: s)).
(** A component that may be written between ':' '@' '/' and '?'. *)
Definition free_of (cs : bytes) (s : bytes) : Prop := is_utf8 s /\ forall b, In b s -> ~ In b cs.
Definition legal_userinfo (us pw : option bytes) : Prop :=
  (us = None /\ pw = None) \/
  exists a b, us = Some a /\ pw = Some b /\ free_of (str ":@/?") a /\ free_of (str ":@/?") b.
Definition legal_path (p : bytes) : Prop := hd_error p = Some 47 /\ free_of (str "@?") p.
Definition legal_query (q : option bytes) : Prop := q = None \/ exists s, q = Some s /\ free_of (str "@") s.
(** A URL whose components are legal where they are written. *)
Definition legal_url (u : url) : Prop :=
  legal_scheme (u_scheme u) /\
  (exists d, u_domain u = Some d /\ Forall host_char d) /\
  (exists p, u_port u = Some p /\ p < 65536) /\
  legal_userinfo (u_user u) (u_pass u) /\ legal_path (u_path u) /\ legal_query (u_query u).
(** An origin-form target: no scheme and no authority. *)
Definition legal_origin (u : url) : Prop :=
  u_scheme u = ScNone /\ u_domain u = None /\ u_port u = Some 0 /\ u_user u = None /\ u_pass u = None /\
  legal_path (u_path u) /\ legal_query (u_query u).

(** The text of a URL, from the texts of its components. *)
Definition opt_text (pre : bytes) (o : option bytes) : bytes := match o with Some t => pre ++ t | None => [] end.
Definition url_text (sc : bytes) (ui : option (bytes * bytes)) (h : bytes) (p : option bytes) (pa q : option bytes) : bytes :=
  sc ++ str "://" ++ (match ui with Some (a, b) => a ++ [58] ++ b ++ [64] | None => [] end) ++
  h ++ opt_text [58] p ++ opt_text [] pa ++ opt_text [63] q.
Definition default_ports : list (scheme * N) :=
  [(ScHttp, 80); (ScHttps, 443); (ScWs, 80); (ScWss, 443); (ScFtp, 21)].

(** ** What a URL text without '@' means *)
(** [s] is what the escaped text [raw] stands for. *)
Definition text_of (raw s : bytes) : Prop := pct_form raw s /\ is_utf8 s.
(** Nothing, or ':' and a port number. (The parser takes '?' for ':' and skips
    further '?' inside the number.) *)
Inductive port_part (s : scheme) : bytes -> N -> Prop :=
| pp_none n : (In (s, n) default_ports \/ ((forall m, ~ In (s, m) default_ports) /\ n = 0)) -> port_part s [] n
| pp_some c t ds n : c = 58 \/ c = 63 -> Forall (fun b => part_char b \/ b = 63) t ->
    text_of (filter (fun b => negb (b =? 63)) t) ds -> port_text ds n -> port_part s (c :: t) n.
Inductive path_part : bytes -> bytes -> Prop :=
| pa_none : path_part [] (str "/")
| pa_some t p : Forall path_char t -> text_of (47 :: t) p -> path_part (47 :: t) p.
Inductive query_part : bytes -> option bytes -> Prop :=
| qp_none : query_part [] None
| qp_some t q : Forall query_char t -> text_of t q -> query_part (63 :: t) (Some q).
Inductive url_form : bytes -> url -> Prop :=
| uf_absolute s h d pp n pa p qq q : legal_scheme s -> Forall part_char h -> text_of h d ->
    port_part s pp n -> path_part pa p -> query_part qq q -> (pa = [] -> qq = []) ->
    url_form (scheme_str s ++ str "://" ++ h ++ pp ++ pa ++ qq) (mkUrl s p None None (Some d) (Some n) q)
| uf_origin pa p qq q : path_part pa p -> pa <> [] -> query_part qq q ->
    url_form (pa ++ qq) (mkUrl ScNone p None None None (Some 0) q).

(** An optional component that is UTF-8 when present. *)
Definition opt_utf8 (o : option bytes) : Prop := match o with Some s => is_utf8 s | None => True end.
