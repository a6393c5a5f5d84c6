(** What any octets mean to the HPACK decoder (C62): the language that it accepts, and where it departs from RFC 7541. *)
From Coq Require Import Ascii String NArith Bool List.
From Verif Require Import Base S_Utf8 S_Huffman S_Hpack.
Import ListNotations.
Local Open Scope N_scope.

(** ** Octets that are not UTF-8 (Unicode 15, 3.9, "U+FFFD substitution of maximal subparts"; String::from_utf8_lossy) *)
(** The octets [x] begin the encoding of a character. *)
Definition begins (x : bytes) : Prop := exists c y, scalar c /\ utf8_enc c = x ++ y.
(** [a] in front of [l] is no character: it is the longest beginning of one, or an octet that begins none. *)
Definition broken (a l : bytes) : Prop :=
  (forall c r, scalar c -> a ++ l <> utf8_enc c ++ r) /\
  (length a = 1%nat \/ (a <> [] /\ begins a)) /\ (forall b l', l = b :: l' -> ~ begins (a ++ [b])).
(** Every such piece becomes U+FFFD. *)
Inductive lossy : bytes -> bytes -> Prop :=
| lo_nil : lossy [] []
| lo_char c l s : scalar c -> lossy l s -> lossy (utf8_enc c ++ l) (utf8_enc c ++ s)
| lo_broken a l s : broken a l -> lossy l s -> lossy (a ++ l) (utf8_enc 0xFFFD ++ s).

(** ** Strings: the symbol 256 (EOS) is taken for the octet 0, where RFC 7541 5.2 asks for an error *)
Inductive str_read : bytes -> bytes -> Prop :=
| sr_raw h s : int_repr 7 0 h (blen s) -> (length h <= 5)%nat -> bytes_ok s -> str_read (h ++ s) s
| sr_huff h c syms : int_repr 7 128 h (blen c) -> (length h <= 5)%nat -> bytes_ok c -> Forall (fun x => x <= 256) syms -> huff_coded c syms ->
    str_read (h ++ c) (map (fun x => x mod 256) syms).

(** ** Tables: entry 15 is "accept-" instead of "accept-charset" *)
Definition read_lookup (dyn : list hfield) (i : N) : option hfield :=
  if i =? 15 then Some (str "accept-", []) else rfc_lookup dyn i.

(** ** Fields: the index of a whole field is one octet, even if its seven bits are all ones; a name is made a text.
    There are no size updates. *)
Inductive field_read (max : N) (dyn : list hfield) : bytes -> hfield -> list hfield -> Prop :=
| fr_indexed i f : i < 128 -> read_lookup dyn i = Some f -> field_read max dyn [128 + i] f dyn
| fr_inc_indexed i l e v lv : int_repr 6 64 l i -> (length l <= 5)%nat -> read_lookup dyn i = Some e -> str_read lv v ->
    field_read max dyn (l ++ lv) (fst e, v) (rfc_add max dyn (fst e, v))
| fr_inc_new n ln m v lv : str_read ln n -> lossy n m -> str_read lv v ->
    field_read max dyn (64 :: ln ++ lv) (m, v) (rfc_add max dyn (m, v))
| fr_lit_indexed fl i l e v lv : fl = 0 \/ fl = 16 -> int_repr 4 fl l i -> (length l <= 5)%nat -> read_lookup dyn i = Some e -> str_read lv v ->
    field_read max dyn (l ++ lv) (fst e, v) dyn
| fr_lit_new fl n ln m v lv : fl = 0 \/ fl = 16 -> str_read ln n -> lossy n m -> str_read lv v ->
    field_read max dyn (fl :: ln ++ lv) (m, v) dyn.
Inductive block_read (max : N) : list hfield -> bytes -> list hfield -> list hfield -> Prop :=
| br_nil dyn : block_read max dyn [] [] dyn
| br_cons dyn l f d1 ls fs d2 : field_read max dyn l f d1 -> block_read max d1 ls fs d2 -> block_read max dyn (l ++ ls) (f :: fs) d2.
