(** Every octet belongs to one message (C139). *)
From Coq Require Import NArith List.
From Verif Require Import Base S_Packets.
Import ListNotations.
Local Open Scope N_scope.

(** [ws] are the octets of the items [got], one text for each: the reader, given this text alone, gives the item and leaves nothing. *)
Inductive cut {S A} (step : S -> bytes -> attempt S A) : S -> list bytes -> list A -> S -> Prop :=
| cut_none s : cut step s [] [] s
| cut_more s w s1 a ws got s2 : step s w = Give s1 a [] -> cut step s1 ws got s2 -> cut step s (w :: ws) (a :: got) s2.
