(** An HTTP/2 connection as a whole (C82): what one side sends, in any order and on any streams, and what the other
    side has received. *)
From Coq Require Import Ascii String NArith Bool List.
From Verif Require Import Base S_Utf8 S_Http1 M_Header M_Url M_Http1 M_Hpack S_Hpack S_HpackApi S_Http1Api S_Url M_Frame M_H2 S_Frame S_H2Api.
Import ListNotations.
Local Open Scope N_scope.

(** What is sent. *)
Inductive item :=
| ISettings (s : settings)
| IAck
| IPing (p : ping)
| IReset (r : resetf)
| IWindow (w : winupd)
| IGoAway (g : goaway)
| IData (id : N) (b : bytes) (es : bool)
| IRequest (id : N) (m : method) (a : bytes) (s : scheme) (p : bytes) (fs : list hfield) (es : bool)
| IResponse (id : N) (code : N) (fs : list hfield) (es : bool).
(** The header list of an item. *)
Definition item_fields (i : item) : list hfield :=
  match i with
  | IRequest _ m a s p fs _ => request_fields m a s p fs
  | IResponse _ c fs _ => response_fields c fs
  | _ => []
  end.
(** The frame value that the application gives to Frame::encode. *)
Definition item_frame (i : item) : frame :=
  match i with
  | ISettings s => FSettings s
  | IAck => FSettings settings_ack
  | IPing p => FPing p
  | IReset r => FReset r
  | IWindow w => FWindowUpdate w
  | IGoAway g => FGoAway g
  | IData id b es => FData (mkData id b (flags_of es false false false))
  | IRequest id m a s p fs es => FHeaders (mkHeaders id None (request_fields m a s p fs) parts_default (flags_of es true false false))
  | IResponse id c fs es => FHeaders (mkHeaders id None (response_fields c fs) parts_default (flags_of es true false false))
  end.
(** Values within the ranges of RFC 9113; header lists that fit into one frame and the peer's limit. *)
Definition item_legal (max L : N) (i : item) : Prop :=
  5 * total_size (item_fields i) <= max /\ total_size (item_fields i) <= L /\
  match i with
  | ISettings s => legal_settings s
  | IAck => True
  | IPing p => blen (pg_payload p) = 8
  | IReset r => rs_id r < 2147483648 /\ rs_code r < 4294967296
  | IWindow w => wu_id w < 2147483648 /\ 1 <= wu_inc w < 2147483648
  | IGoAway g => ga_last g < 2147483648 /\ ga_code g < 4294967296 /\ blen (ga_debug g) + 8 < 16777216
  | IData id _ _ => 0 < id < 2147483648
  | IRequest id m a s p fs _ => id < 2147483648 /\ In m known_methods /\ legal_scheme s /\ is_utf8 a /\ is_utf8 p /\ regular fs
  | IResponse id c fs _ => id < 2147483648 /\ 100 <= c <= 999 /\ regular fs
  end.
(** The sender. *)
Fixpoint h2_send (max : N) (t : hindex) (l : list item) : res (hindex * bytes) :=
  match l with
  | [] => Ok (t, [])
  | i :: l' =>
    ' (t1, w) <- frame_encode max t (item_frame i) ;;
    ' (t2, w') <- h2_send max t1 l' ;;
    Ok (t2, w ++ w')
  end.

(** The frames that one item is to arrive as: DATA in pieces, everything else in one frame. *)
Inductive item_seen : item -> list frame -> Prop :=
| se_settings s : item_seen (ISettings s) [FSettings s]
| se_ack : item_seen IAck [FSettings settings_ack]
| se_ping p : item_seen (IPing p) [FPing p]
| se_reset r : item_seen (IReset r) [FReset r]
| se_window w : item_seen (IWindow w) [FWindowUpdate w]
| se_goaway g : item_seen (IGoAway g) [FGoAway g]
| se_data id b es cs last : concat cs ++ last = b ->
    item_seen (IData id b es) (map (fun c => FData (mkData id c (flags_of false false false false))) cs ++
                               [FData (mkData id last (flags_of es false false false))])
| se_request id m a s p fs es : item_seen (IRequest id m a s p fs es)
    [FHeaders (mkHeaders id None fs (mkParts (Some m) (Some s) (Some a) (Some p) None) (flags_of es true false false))]
| se_response id c fs es : item_seen (IResponse id c fs es)
    [FHeaders (mkHeaders id None fs (mkParts None None None None (Some c)) (flags_of es true false false))].

(** The receiver: some frames from the front of the input, and what is left. *)
Inductive reads (L : N) : hindex -> bytes -> hindex -> list frame -> bytes -> Prop :=
| rd_none t l : reads L t l t [] l
| rd_frame t l t1 f l1 t2 fs l2 : recv t L l = (t1, Ok (f, l1)) -> reads L t1 l1 t2 fs l2 -> reads L t l t2 (f :: fs) l2.

(** The view of one stream: its octets and whether it has been ended. *)
Fixpoint stream_octets (id : N) (fs : list frame) : bytes :=
  match fs with
  | [] => []
  | FData d :: r => if da_id d =? id then da_data d ++ stream_octets id r else stream_octets id r
  | _ :: r => stream_octets id r
  end.
Definition stream_ended (id : N) (fs : list frame) : bool := existsb (fun f => (frame_stream_id f =? id) && frame_is_end_stream f) fs.
Fixpoint sent_octets (id : N) (l : list item) : bytes :=
  match l with
  | [] => []
  | IData id' b _ :: r => if id' =? id then b ++ sent_octets id r else sent_octets id r
  | _ :: r => sent_octets id r
  end.
Definition item_ends (id : N) (i : item) : bool :=
  match i with
  | IData id' _ es | IRequest id' _ _ _ _ _ es | IResponse id' _ _ es => (id' =? id) && es
  | _ => false
  end.
