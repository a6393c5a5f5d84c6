(** Streams that are sent on in any order (C140). *)
From Coq Require Import NArith Bool List.
From Verif Require Import Base M_Header M_Url M_Http1 M_Hpack S_Hpack S_HpackApi M_Frame M_H2 S_H2Api S_Session.
Import ListNotations.
Local Open Scope N_scope.

(** The stream of an item (0: the connection). *)
Definition item_stream (i : item) : N :=
  match i with
  | IReset r => rs_id r
  | IWindow w => wu_id w
  | IData id _ _ | IRequest id _ _ _ _ _ _ | IResponse id _ _ _ => id
  | _ => 0
  end.
(** [l] is sent when, again and again, one of the streams [ps] is chosen and its next item sent, until all are done. *)
Inductive schedule : list (list item) -> list item -> Prop :=
| sch_done ps : Forall (fun p => p = []) ps -> schedule ps []
| sch_next a i p b l : schedule (a ++ p :: b) l -> schedule (a ++ (i :: p) :: b) (i :: l).
(** An item within the ranges of C82, with header fields of at least [k] octets each (as HPACK counts them: 32 more than name and value). *)
Definition item_fit (max L k : N) (i : item) : Prop :=
  item_legal max L i /\ Forall (fun f => sendable f /\ Forall h2_char (fst f) /\ k <= size_of f) (item_fields i).
(** What arrives on a stream. *)
Definition on_stream (id : N) (fs : list frame) : list frame := filter (fun f => frame_stream_id f =? id) fs.
