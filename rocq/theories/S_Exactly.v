(** When exactly: the names that a request's URL takes its scheme from (C56), and the beginnings of a history of
    header blocks (C31). *)
From Coq Require Import Ascii String NArith Bool List.
From Verif Require Import Base M_Std M_Helper M_Header S_Http1Api S_Map S_Hpack S_HpackApi M_Hpack S_Http1.
Import ListNotations.
Local Open Scope N_scope.

(** The name ":scheme" cannot stand in an HTTP/1 head; "Z" and "scheme" in any letter case, but with a capital Z, can, and the comparison
    of names takes it for that one. *)
Definition names_scheme (n : bytes) : Prop := exists t, n = 90 :: t /\ fold_name t = str "scheme".
(** A value that leaves the scheme http: that word, or a text too long for a scheme. *)
Definition scheme_kept (w : bytes) : Prop := utf8_lossy w = str "http" \/ 64 < blen (utf8_lossy w).

(** A history cut somewhere: between two events, or inside a block. *)
Inductive beginning : list hevent -> list hevent -> Prop :=
| bg_between a b : beginning a (a ++ b)
| bg_inside a fs gs b : beginning (a ++ [EvBlock fs]) (a ++ EvBlock (fs ++ gs) :: b).
(** Everything that is sent arrives, names in lower case. *)
Definition arrives (m : N) (evs : list hevent) : Prop :=
  exists te td, exchange (hi_with_size m) (hi_with_size m) evs = Ok (te, td, map (map lower_field) (sent evs)).
