(** Header blocks that are received and sent on, with the fields that RFC 7541 forbids to put into tables (C127). *)
From Coq Require Import NArith Bool List.
From Verif Require Import Base M_Hpack S_Hpack S_HpackApi.
Import ListNotations.
Local Open Scope N_scope.

(** 6.2.3: a field whose octets start with the bits 0001 is never to be put into a table, at this hop or at a later one. *)
Definition never (l : bytes) : bool := match l with b :: _ => (16 <=? b) && (b <? 32) | [] => false end.
(** A block, its fields with this mark, and the table before and behind it. *)
Inductive marked (max : N) : list hfield -> bytes -> list (hfield * bool) -> list hfield -> Prop :=
| mk_nil dyn : marked max dyn [] [] dyn
| mk_cons dyn l f d1 ls ms d2 : field_repr rfc_lookup (fun _ => True) (fun _ => True) max dyn l f d1 -> marked max d1 ls ms d2 ->
    marked max dyn (l ++ ls) ((f, never l) :: ms) d2.
(** 7.1.3 and 6.2.3: an intermediary uses the same representation for what was marked. *)
Definition marks_kept (ms ms' : list (hfield * bool)) : Prop := Forall2 (fun m m' => snd m = true -> snd m' = true) ms ms'.
