(** Specification of UTF-8 (RFC 3629 section 3), independent of the validator:
    a text is a sequence of Unicode scalar values, and its UTF-8 form is the
    concatenation of the 1-4 octet encodings of the scalar values. *)
From Coq Require Import NArith List.
From Verif Require Import Base.
Import ListNotations.
Local Open Scope N_scope.

(** Unicode scalar values: code points that are not surrogates. *)
Definition scalar (c : N) : Prop := c < 0xD800 \/ (0xE000 <= c /\ c < 0x110000).

Definition utf8_enc (c : N) : bytes :=
  if c <? 0x80 then [c]
  else if c <? 0x800 then [0xC0 + c / 64; 0x80 + c mod 64]
  else if c <? 0x10000 then [0xE0 + c / 4096; 0x80 + (c / 64) mod 64; 0x80 + c mod 64]
  else [0xF0 + c / 262144; 0x80 + (c / 4096) mod 64; 0x80 + (c / 64) mod 64; 0x80 + c mod 64].

Definition utf8_text (cs : list N) : bytes := flat_map utf8_enc cs.

(** A byte string is the UTF-8 form of some text. *)
Definition is_utf8 (l : bytes) : Prop := exists cs, Forall scalar cs /\ l = utf8_text cs.
