(** Model of the remaining text conversions: [str::parse] for methods and
    schemes (src/http/method.rs, src/url/scheme.rs), the small predicates of
    src/http/version.rs and src/url/scheme.rs, comparing a Url with text
    (src/url/url.rs), and the panicking form of Helper::to_hex.

    Here a [&str] is the list of its Unicode scalar values. *)
From Coq Require Import Ascii String NArith ZArith Bool List.
From Verif Require Import Base S_Utf8 M_Std M_Helper M_Url M_Http1.
Import ListNotations.
Local Open Scope N_scope.

(** src/helper.rs 78-80: to_hex; the index panics from 16 on.  [to_hex] of
    M_Helper is this function on the half octets it is used with. *)
Definition to_hex_res (b : N) : res N :=
  match nth_error HEX_MAP (N.to_nat b) with Some h => Ok h | None => Panic end.

(** ** std: str::to_uppercase
    ASCII letters, and the ten other scalar values whose upper-case form is
    plain ASCII (Unicode SpecialCasing.txt and UnicodeData.txt: sharp s, dotless
    i, long s and the Latin ligatures ff fi fl ffi ffl and the two st), are
    written out.  The rest of the Unicode table is the parameter [other]:
    nothing is assumed of it here. *)
Definition char_upper (other : N -> list N) (c : N) : list N :=
  if c <? 128 then [ascii_upper c]
  else if c =? 0xDF then str "SS"
  else if c =? 0x131 then str "I"
  else if c =? 0x17F then str "S"
  else if c =? 0xFB00 then str "FF"
  else if c =? 0xFB01 then str "FI"
  else if c =? 0xFB02 then str "FL"
  else if c =? 0xFB03 then str "FFI"
  else if c =? 0xFB04 then str "FFL"
  else if c =? 0xFB05 then str "ST"
  else if c =? 0xFB06 then str "ST"
  else other c.
Definition str_upper (other : N -> list N) (cs : list N) : list N := flat_map (char_upper other) cs.

(** src/http/method.rs 141-146: FromStr for Method. *)
Definition method_from_text (other : N -> list N) (cs : list N) : res method :=
  method_of_str (utf8_text (str_upper other cs)).
(** src/url/scheme.rs 153-158: FromStr for Scheme. *)
Definition scheme_from_text (other : N -> list N) (cs : list N) : res scheme :=
  scheme_of_str (utf8_text (str_upper other cs)).

(** src/http/version.rs 56-62: is_http1; 64-69: is_http2. *)
Definition version_is_http1 (v : version) : bool := match v with V10 | V11 => true | _ => false end.
Definition version_is_http2 (v : version) : bool := match v with V2 => true | _ => false end.
(** src/url/scheme.rs 90-95: is_http; 97-102: is_https; 105-110: is_ws;
    112-117: is_wss. *)
Definition scheme_is_http (s : scheme) : bool := match s with ScHttp => true | _ => false end.
Definition scheme_is_https (s : scheme) : bool := match s with ScHttps => true | _ => false end.
Definition scheme_is_ws (s : scheme) : bool := match s with ScWs => true | _ => false end.
Definition scheme_is_wss (s : scheme) : bool := match s with ScWss => true | _ => false end.

(** src/url/url.rs 404-408: PartialEq<str> for Url; 410-414: the converse. *)
Definition url_eq_text (u : url) (t : bytes) : bool := beq (url_print u) t.
Definition text_eq_url (t : bytes) (u : url) : bool := url_eq_text u t.
