(** The grammar of message heads in RFC 9112, with the tokens of RFC 9110 and
    the URI characters of RFC 3986 (C108, C109).  Nothing here comes from the
    crate; the parsers are compared with it in the theorems. *)
From Coq Require Import Ascii String NArith ZArith Bool List.
From Verif Require Import Base S_Hex S_Http1 S_Http1Api S_Url.
Import ListNotations.
Local Open Scope N_scope.

Definition TAB : N := 9.
(** RFC 9110 section 5.6.3: OWS. *)
Definition blank (b : N) : Prop := b = SP \/ b = TAB.
(** RFC 9110 section 5.5: field-vchar = VCHAR / obs-text. *)
Definition field_vchar (b : N) : Prop := vchar b \/ 128 <= b <= 255.
(** field-value = *field-content: visible at both ends, blanks only inside. *)
Definition rfc_value (v : bytes) : Prop :=
  v = [] \/ (exists b, v = [b] /\ field_vchar b) \/
  exists b w c, v = b :: w ++ [c] /\ field_vchar b /\ field_vchar c /\ Forall (fun x => field_vchar x \/ blank x) w.

(** field-line = field-name ":" OWS field-value OWS, with its line end.  The
    blanks around an empty value are all counted as coming before it. *)
Record line := mkLine { ln_name : bytes; ln_lead : bytes; ln_value : bytes; ln_trail : bytes }.
Definition line_ok (l : line) : Prop :=
  name_ok (ln_name l) /\ Forall blank (ln_lead l) /\ rfc_value (ln_value l) /\ Forall blank (ln_trail l) /\
  (ln_value l = [] -> ln_trail l = []).
Definition line_text (l : line) : bytes := ln_name l ++ COLON :: ln_lead l ++ ln_value l ++ ln_trail l ++ CRLF.
(** The field that the line carries. *)
Definition line_field (l : line) : bytes * bytes := (ln_name l, ln_value l).
Definition lines_text (ls : list line) : bytes := concat (map line_text ls) ++ CRLF.

(** ** Targets (RFC 9112 section 3.2, RFC 3986) *)
Definition unreserved (b : N) : Prop := alpha b \/ digit b \/ In b (str "-._~").
Definition sub_delim (b : N) : Prop := In b (str "!$&'()*+,;=").
Definition pchar (b : N) : Prop := unreserved b \/ sub_delim b \/ In b (str ":@").
(** Characters of the class [P] and pct-encoded octets. *)
Inductive pct_text (P : N -> Prop) : bytes -> Prop :=
| pt_nil : pct_text P []
| pt_char b l : P b -> pct_text P l -> pct_text P (b :: l)
| pt_esc h k l : hex_byte h -> hex_byte k -> pct_text P l -> pct_text P (37 :: h :: k :: l).
(** absolute-path = 1*( "/" segment ). *)
Inductive abs_path : bytes -> Prop :=
| ap_intro p : pct_text (fun b => pchar b \/ b = 47) p -> abs_path (47 :: p).
(** [ "?" query ] *)
Inductive query_text : bytes -> Prop :=
| qt_none : query_text []
| qt_some q : pct_text (fun b => pchar b \/ In b (str "/?")) q -> query_text (63 :: q).
Definition reg_name (h : bytes) : Prop := pct_text (fun b => unreserved b \/ sub_delim b) h.
(** IP-literal = "[" ( IPv6address / IPvFuture ) "]".  (Wider than the RFC: any
    text in these characters.) *)
Inductive ip_literal : bytes -> Prop :=
| ip_intro a : Forall (fun b => unreserved b \/ sub_delim b \/ b = 58) a -> ip_literal (91 :: a ++ [93]).
(** uri-host (an IPv4address is a reg-name). *)
Definition uri_host (h : bytes) : Prop := reg_name h \/ ip_literal h.
(** [ ":" port ], where port = *DIGIT. *)
Inductive port_opt : bytes -> Prop :=
| po_none : port_opt []
| po_some ds : Forall digit ds -> port_opt (58 :: ds).
Inductive scheme_name : bytes -> Prop :=
| sn_intro b s : alpha b -> Forall (fun c => alpha c \/ digit c \/ In c (str "+-.")) s -> scheme_name (b :: s).
(** The four forms.  (The absolute form of the schemes that have an authority, as http and https have, without user information, which RFC 9110 section 4.2.4 forbids to send.) *)
Inductive rfc_target (m : bytes) : bytes -> Prop :=
| rt_origin p q : abs_path p -> query_text q -> rfc_target m (p ++ q)
| rt_absolute s h po p q : scheme_name s -> uri_host h -> port_opt po -> p = [] \/ abs_path p -> query_text q ->
    rfc_target m (s ++ str "://" ++ h ++ po ++ p ++ q)
| rt_authority h ds : m = str "CONNECT" -> uri_host h -> Forall digit ds -> rfc_target m (h ++ 58 :: ds)
| rt_asterisk : m = str "OPTIONS" -> rfc_target m (str "*").

(** ** Heads *)
(** HTTP-version = "HTTP/" DIGIT "." DIGIT *)
Inductive rfc_version : bytes -> Prop :=
| rv_intro a b : digit a -> digit b -> rfc_version (str "HTTP/" ++ [a; 46; b]).
(** start-line CRLF *( field-line CRLF ) CRLF *)
Definition rfc_request (m t v : bytes) (ls : list line) : Prop :=
  name_ok m /\ rfc_target m t /\ rfc_version v /\ Forall line_ok ls.
Definition rfc_request_text (m t v : bytes) (ls : list line) : bytes :=
  m ++ SP :: t ++ SP :: v ++ CRLF ++ lines_text ls.
(** reason-phrase = 1*( HTAB / SP / VCHAR / obs-text ), and it may be missing. *)
Definition rfc_response (v c r : bytes) (ls : list line) : Prop :=
  rfc_version v /\ length c = 3%nat /\ Forall digit c /\ Forall (fun b => field_vchar b \/ blank b) r /\ Forall line_ok ls.
Definition rfc_response_text (v c r : bytes) (ls : list line) : bytes :=
  v ++ SP :: c ++ SP :: r ++ CRLF ++ lines_text ls.

(** What the crate asks of a line: only spaces behind the colon, and nothing behind the value. *)
Definition plain_line (l : line) : Prop := Forall (eq SP) (ln_lead l) /\ ln_trail l = [].
(** What the crate takes for the value: everything up to the line end but the first spaces. *)
Definition line_raw (l : line) (r : bytes) : Prop :=
  exists k, ln_lead l ++ ln_value l ++ ln_trail l = spaces k ++ r /\ hd_error r <> Some SP.

(** ** What a target means (RFC 9110 section 4.2, RFC 3986) *)
Definition query_meant (q : bytes) (s : option bytes) : Prop :=
  match q with [] => s = None | _ :: y => exists z, text_of y z /\ s = Some z end.
(** The port is the one of the scheme when there is none. *)
Definition port_meant (default : N) (po : bytes) (n : N) : Prop :=
  match po with [] | [_] => n = default | _ :: ds => n = num_of ds end.
Definition path_meant (p s : bytes) : Prop := if blen p =? 0 then s = str "/" else text_of p s.

(** ** Whole heads *)
Definition rfc_request_octets (w : bytes) : Prop := exists m t v ls, rfc_request m t v ls /\ w = rfc_request_text m t v ls.
Definition rfc_response_octets (w : bytes) : Prop := exists v c r ls, rfc_response v c r ls /\ w = rfc_response_text v c r ls.
Definition rfc_line (w : bytes) : Prop := exists l, line_ok l /\ w = line_text l.
Definition rfc_block (w : bytes) : Prop := exists ls, Forall line_ok ls /\ w = lines_text ls.
(** Octets that may stand in a value (RFC 9110 section 5.5: CR, LF, NUL and other controls may not). *)
Definition value_char (b : N) : Prop := field_vchar b \/ blank b.
