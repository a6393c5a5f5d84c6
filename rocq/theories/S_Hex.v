(** Specification of hexadecimal numerals and text (C12, C13, C58). *)
From Coq Require Import Ascii String NArith ZArith Bool List.
From Verif Require Import Base S_Http1.
Import ListNotations.
Local Open Scope N_scope.

(** [b] is a hexadecimal digit, of either case, of value [d]. *)
Definition hexv (b d : N) : Prop :=
  (nth_error (str "0123456789abcdef") (N.to_nat d) = Some b) \/
  (nth_error (str "0123456789ABCDEF") (N.to_nat d) = Some b).
(** [l] is a hexadecimal numeral of value [n]. *)
Inductive hex_num : bytes -> N -> Prop :=
| hn_nil : hex_num [] 0
| hn_snoc l n b d : hex_num l n -> hexv b d -> hex_num (l ++ [b]) (16 * n + d).
Definition hex_byte (b : N) : Prop := exists d, hexv b d.

(** Text made of pairs of digits with spaces anywhere; a digit left over at the
    end is ignored. *)
Inductive hex_text : bytes -> bytes -> Prop :=
| ht_end n : hex_text (spaces n) []
| ht_odd i a x n : hexv a x -> hex_text (spaces i ++ a :: spaces n) []
| ht_byte i a x j b y l out : hexv a x -> hexv b y -> hex_text l out ->
    hex_text (spaces i ++ a :: spaces j ++ b :: l) (16 * x + y :: out).
(** Two lower-case digits per byte, as format!("{:02x}") prints them. *)
Definition hex_pair (b : N) : bytes :=
  [nth (N.to_nat (b / 16)) (str "0123456789abcdef") 0; nth (N.to_nat (b mod 16)) (str "0123456789abcdef") 0].

(** A chunk-size line as the crate accepts it. *)
Inductive size_line : bytes -> N -> Prop :=
| size_line_intro ds n e : ds <> [] -> hex_num ds n -> eol e -> size_line (ds ++ e) n.
