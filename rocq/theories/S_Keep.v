(** How much a receiver can be made to keep (C138). *)
From Coq Require Import NArith List.
From Verif Require Import Base S_Packets.
Import ListNotations.
Local Open Scope N_scope.

(** A peer can, with packets of any octets, bring the receiver to keep [n] octets that belong to nothing delivered. *)
Definition can_keep {S A} (step : S -> bytes -> attempt S A) (s : S) (n : N) : Prop :=
  exists ps got s' kept, bytes_ok (concat ps) /\ feed step (Open s []) ps = (got, Open s' kept) /\ blen kept = n.

(** The header of a masked WebSocket frame with [n] octets. *)
Definition header_size (n : N) : N := if n <? 126 then 6 else if n <? 65536 then 8 else 14.
(** The longest beginning of a frame that is not complete, if the payload is not longer than [n]; a header of 14 octets can be begun in any case. *)
Definition most (n : N) : N := N.max 13 (header_size n + n - 1).
Definition payload_limit (limit : option N) : N := match limit with Some n => N.min n (2 ^ 64 - 1) | None => 2 ^ 64 - 1 end.
