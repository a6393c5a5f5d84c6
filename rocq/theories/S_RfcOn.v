(** Frames of HTTP/2 that are received and sent on (C124). *)
From Coq Require Import Ascii String NArith ZArith Bool List.
From Verif Require Import Base S_Utf8 M_Header M_Url M_Http1 S_Http1 M_Hpack S_Hpack S_HpackApi S_Frame M_Frame M_H2 S_FrameAll S_Rfc9113 S_WriteAll S_RfcFrames.
Import ListNotations.
Local Open Scope N_scope.

(** The frame [f], written for a receiver that allows payloads of [room] octets and whose table has the entries [dyn], tells it [f], and its table
    stays that of the writer. *)
Definition sent_on (room max : N) (dyn : list hfield) (f : frame) : Prop :=
  exists t b, frame_encode room (table_of max dyn) f = Ok (t, b) /\ conforms room max (map lower_field dyn) f b (map lower_field (hi_to_vec t)).
(** 4.2: what a receiver can allow. *)
Definition room_ok (room : N) : Prop := 16384 <= room < 16777216.
