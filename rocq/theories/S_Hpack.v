(** Specification of HPACK (RFC 7541) used by C28-C33, C62 and C63. *)
From Coq Require Import Ascii String NArith Bool List.
From Verif Require Import Base S_Utf8 S_Huffman.
Import ListNotations.
Local Open Scope N_scope.

Definition hfield : Type := bytes * bytes.
Definition lower_field (f : hfield) : hfield := (map lower_ascii (fst f), snd f).

(** ** Integers (section 5.1) *)
(** Octets after the prefix: base 128, least significant first, high bit set on all but the last. *)
Inductive int_tail_repr : bytes -> N -> Prop :=
| tail_last : forall b, b < 128 -> int_tail_repr [b] b
| tail_more : forall b l w, b < 128 -> int_tail_repr l w -> int_tail_repr (b + 128 :: l) (b + 128 * w).
(** [int_repr p flags l v]: [l] represents [v] with a [p]-bit prefix below the bits [flags]. *)
Inductive int_repr (p flags : N) : bytes -> N -> Prop :=
| int_short : forall v, v < 2 ^ p - 1 -> int_repr p flags [flags + v] v
| int_long : forall l w, int_tail_repr l w -> int_repr p flags (flags + (2 ^ p - 1) :: l) (2 ^ p - 1 + w).
(** The bits above a [p]-bit prefix. *)
Definition flag_bits (p flags : N) : Prop := flags < 256 /\ exists k, flags = k * 2 ^ p.

(** ** String literals (section 5.2); integers of at most five octets (an implementation limit) *)
Inductive str_repr : bytes -> bytes -> Prop :=
| str_raw : forall h s, int_repr 7 0 h (blen s) -> (length h <= 5)%nat -> bytes_ok s -> str_repr (h ++ s) s
| str_huff : forall h c s, int_repr 7 128 h (blen c) -> (length h <= 5)%nat ->
    bytes_ok c -> bytes_ok s -> huff_coded c s -> str_repr (h ++ c) s.

(** ** Tables (sections 2.3, 4 and Appendix A) *)
Definition rfc_static : list (string * string) := [
  (":authority", ""); (":method", "GET"); (":method", "POST"); (":path", "/"); (":path", "/index.html");
  (":scheme", "http"); (":scheme", "https"); (":status", "200"); (":status", "204"); (":status", "206");
  (":status", "304"); (":status", "400"); (":status", "404"); (":status", "500"); ("accept-charset", "");
  ("accept-encoding", "gzip, deflate"); ("accept-language", ""); ("accept-ranges", ""); ("accept", "");
  ("access-control-allow-origin", ""); ("age", ""); ("allow", ""); ("authorization", "");
  ("cache-control", ""); ("content-disposition", ""); ("content-encoding", ""); ("content-language", "");
  ("content-length", ""); ("content-location", ""); ("content-range", ""); ("content-type", "");
  ("cookie", ""); ("date", ""); ("etag", ""); ("expect", ""); ("expires", ""); ("from", ""); ("host", "");
  ("if-match", ""); ("if-modified-since", ""); ("if-none-match", ""); ("if-range", "");
  ("if-unmodified-since", ""); ("last-modified", ""); ("link", ""); ("location", ""); ("max-forwards", "");
  ("proxy-authenticate", ""); ("proxy-authorization", ""); ("range", ""); ("referer", ""); ("refresh", "");
  ("retry-after", ""); ("server", ""); ("set-cookie", ""); ("strict-transport-security", "");
  ("transfer-encoding", ""); ("user-agent", ""); ("vary", ""); ("via", ""); ("www-authenticate", "")]%string.
Definition rfc_entry (e : string * string) : hfield := (str (fst e), str (snd e)).
(** Entry [i] (counted from 1) of the static table followed by the dynamic table. *)
Definition rfc_lookup (dyn : list hfield) (i : N) : option hfield :=
  if i =? 0 then None else nth_error (map rfc_entry rfc_static ++ dyn) (N.to_nat (i - 1)).

(** Section 4.1: size of an entry and of a table; 4.3 and 4.4: the newest entries that fit. *)
Definition size_of (f : hfield) : N := blen (fst f) + blen (snd f) + 32.
Definition total_size (l : list hfield) : N := fold_right (fun f n => size_of f + n) 0 l.
Fixpoint newest (max : N) (l : list hfield) : list hfield :=
  match l with
  | [] => []
  | f :: l' => if size_of f <=? max then f :: newest (max - size_of f) l' else []
  end.
Definition rfc_add (max : N) (dyn : list hfield) (f : hfield) : list hfield := newest max (f :: dyn).

(** ** Header blocks (section 6), without dynamic table size updates.  [look] reads the two tables by
    index; [iok] and [nok] restrict the indices used for whole fields and for names. *)
Section Blocks.
  Variables (look : list hfield -> N -> option hfield) (iok nok : N -> Prop) (max : N).
  (** [field_repr dyn l f dyn']: with dynamic table [dyn] the octets [l] stand for the field [f] and
      leave the table [dyn']. *)
  Inductive field_repr (dyn : list hfield) : bytes -> hfield -> list hfield -> Prop :=
  | f_indexed : forall i l f,
      iok i -> int_repr 7 128 l i -> look dyn i = Some f -> field_repr dyn l f dyn
  | f_inc_indexed : forall i l e v lv,
      nok i -> int_repr 6 64 l i -> (length l <= 5)%nat -> look dyn i = Some e -> str_repr lv v ->
      field_repr dyn (l ++ lv) (fst e, v) (rfc_add max dyn (fst e, v))
  | f_inc_new : forall n ln v lv,
      is_utf8 n -> str_repr ln n -> str_repr lv v ->
      field_repr dyn (64 :: ln ++ lv) (n, v) (rfc_add max dyn (n, v))
  | f_lit_indexed : forall fl i l e v lv,
      fl = 0 \/ fl = 16 ->
      nok i -> int_repr 4 fl l i -> (length l <= 5)%nat -> look dyn i = Some e -> str_repr lv v ->
      field_repr dyn (l ++ lv) (fst e, v) dyn
  | f_lit_new : forall fl n ln v lv,
      fl = 0 \/ fl = 16 ->
      is_utf8 n -> str_repr ln n -> str_repr lv v ->
      field_repr dyn (fl :: ln ++ lv) (n, v) dyn.

  (** [block_repr dyn l fs dyn']: a sequence of fields. *)
  Inductive block_repr : list hfield -> bytes -> list hfield -> list hfield -> Prop :=
  | b_nil : forall dyn, block_repr dyn [] [] dyn
  | b_cons : forall dyn l f d1 ls fs d2,
      field_repr dyn l f d1 -> block_repr d1 ls fs d2 -> block_repr dyn (l ++ ls) (f :: fs) d2.
End Blocks.

(** The format of the RFC: its table, no restriction on the indices. *)
Definition rfc_block : N -> list hfield -> bytes -> list hfield -> list hfield -> Prop :=
  block_repr rfc_lookup (fun _ => True) (fun _ => True).
