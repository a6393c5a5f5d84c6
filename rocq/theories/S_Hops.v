(** HTTP/2 connections through intermediaries (C129): what a relay makes of the frames that it has received, and any number of relays in a row. *)
From Coq Require Import Ascii String NArith Bool List.
From Verif Require Import Base S_Utf8 S_Http1 M_Header M_Url M_Http1 M_Hpack S_Hpack S_HpackApi S_Http1Api S_Url M_Frame M_H2 S_Frame S_H2Api S_Session.
Import ListNotations.
Local Open Scope N_scope.

(** What the relay sends for a frame that it has received: requests and responses are made anew from the pseudo header fields and the
    other fields that the frame shows (writing the frame itself loses the former, C124). *)
Definition item_of (f : frame) : list item :=
  match f with
  | FSettings s => if st_flags s =? 0 then [ISettings s] else [IAck]
  | FPing p => [IPing p]
  | FReset r => [IReset r]
  | FWindowUpdate w => [IWindow w]
  | FGoAway g => [IGoAway g]
  | FData d => [IData (da_id d) (da_data d) (frame_is_end_stream f)]
  | FHeaders h =>
    match hf_parts h with
    | mkParts (Some m) (Some s) (Some a) (Some p) None => [IRequest (hf_id h) m a s p (hf_fields h) (frame_is_end_stream f)]
    | mkParts None None None None (Some c) => [IResponse (hf_id h) c (hf_fields h) (frame_is_end_stream f)]
    | _ => []
    end
  | _ => []
  end.
Definition items_of (fs : list frame) : list item := concat (map item_of fs).

(** A connection: the largest frame of its sender, the largest header list of its receiver, and the tables of the two. *)
Record hop := mkHop { hp_max : N; hp_limit : N; hp_sender : hindex; hp_receiver : hindex }.
(** It can carry these items: each is legal, and the two tables are in step. *)
Definition hop_fit (l : list item) (h : hop) : Prop :=
  0 < hp_max h < 16777216 /\ Forall (item_legal (hp_max h) (hp_limit h)) l /\
  connection (hp_sender h) (hp_receiver h) (concat (map item_fields l)).
(** The frames that come out of one connection. *)
Definition crossed (h : hop) (l : list item) (fs : list frame) : Prop :=
  exists te td w, h2_send (hp_max h) (hp_sender h) l = Ok (te, w) /\ reads (hp_limit h) (hp_receiver h) w td fs [].
(** What comes out of the last of the connections, when at the end of each a relay sends on what it has received. *)
Inductive carried : list hop -> list item -> list frame -> Prop :=
| ca_last h l fs : crossed h l fs -> carried [h] l fs
| ca_relay h hs l mid fs : crossed h l mid -> carried hs (items_of mid) fs -> carried (h :: hs) l fs.
