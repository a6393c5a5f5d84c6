(** Specification for C94 and C95: what the character classes are called in the
    RFCs and in the crate's documentation, and how text spells a method. *)
From Coq Require Import Ascii String NArith ZArith Bool List.
From Verif Require Import Base S_Http1.
Import ListNotations.
Local Open Scope N_scope.

(** ** C94 *)
(** [f] recognises exactly the octets of the class [p]. *)
Definition recognises (f : N -> bool) (p : N -> Prop) : Prop :=
  forall b, byte_ok b -> (f b = true <-> p b).
(** Printable ASCII, with the space. *)
Definition printable (b : N) : Prop := 32 <= b <= 126.
(** RFC 3986 section 3.1: what a scheme is made of. *)
Definition scheme_char (b : N) : Prop := alpha b \/ digit b \/ In b (str "+-.").
(** The list in the documentation of the URI class (helper.rs 99-100). *)
Definition doc_uri_char (b : N) : Prop :=
  alpha b \/ digit b \/ In b (str "!#$%&'*+-._();:@=,/?[]~^").
(** The list in the documentation of the octets that are not escaped
    (helper.rs 134-135). *)
Definition doc_plain_char (b : N) : Prop := alpha b \/ digit b \/ In b (str "&:?/-._~").

(** ** C95 *)
(** [other] is the upper-case table of the scalar values beyond ASCII: each of
    their images shows at least one scalar value beyond ASCII.  In Unicode only
    ten values fail this; they are in [spells]. *)
Definition stays_foreign (other : N -> list N) : Prop :=
  forall c, 128 <= c -> exists d, In d (other c) /\ 128 <= d.
(** One character standing for capital letters. *)
Inductive stands_for : N -> string -> Prop :=
| sf_same c : c < 128 -> ~ lower c -> stands_for c (String (ascii_of_N c) EmptyString)
| sf_small c : lower c -> stands_for c (String (ascii_of_N (c - 32)) EmptyString)
| sf_sharp_s : stands_for 0xDF "SS"
| sf_dotless_i : stands_for 0x131 "I"
| sf_long_s : stands_for 0x17F "S"
| sf_ff : stands_for 0xFB00 "FF"
| sf_fi : stands_for 0xFB01 "FI"
| sf_fl : stands_for 0xFB02 "FL"
| sf_ffi : stands_for 0xFB03 "FFI"
| sf_ffl : stands_for 0xFB04 "FFL"
| sf_long_st : stands_for 0xFB05 "ST"
| sf_st : stands_for 0xFB06 "ST".
(** The text [cs] spells the word [w]. *)
Inductive spells : list N -> bytes -> Prop :=
| spells_nil : spells [] []
| spells_cons c s cs w : stands_for c s -> spells cs w -> spells (c :: cs) (str s ++ w).
(** The text [cs] is the ASCII word [w] in any case. *)
Definition same_letter (c b : N) : Prop := c = b \/ (lower c /\ b + 32 = c).
Definition any_case (cs : list N) (w : bytes) : Prop := Forall2 same_letter cs w.
