(** What an HTTP/2 endpoint has to write to send a frame, from RFC 9113 and RFC 7541, and when the crate writes that (C118). *)
From Coq Require Import Ascii String NArith ZArith Bool List Permutation.
From Verif Require Import Base S_Utf8 M_Header M_Url M_Http1 S_Http1 M_Hpack S_Hpack S_HpackApi S_Near S_Frame M_Frame M_H2 S_FrameAll S_Rfc9113 S_WriteAll.
Import ListNotations.
Local Open Scope N_scope.

(** 4.1: type, flags, stream and payload, and the octets that send them. *)
Definition sent : Type := N * N * N * bytes.
Definition sent_octets (s : sent) : bytes := let '(ty, fl, id, p) := s in header_octets (blen p) ty fl id ++ p.
(** The reserved bit of the stream is not set; 4.2: the payload is not longer than the receiver allows. *)
Definition sent_fine (room : N) (s : sent) : Prop := let '(ty, fl, id, p) := s in id < 2147483648 /\ blen p <= room.
(** The flag [n] stands on the last frame, if [on], and on no other. *)
Definition only_last (n : N) (on : Prop) (fls : list N) : Prop :=
  exists init l, fls = init ++ [l] /\ Forall (fun f => ~ flag_on f n) init /\ (flag_on l n <-> on).
(** The pseudo header fields of a message, in some order. *)
Definition pseudo_field (n : string) (o : option bytes) : list hfield := match o with Some v => [(str n, v)] | None => [] end.
Definition parts_fields (p : parts) : list hfield :=
  pseudo_field ":method" (option_map method_str (pt_method p)) ++ pseudo_field ":scheme" (option_map scheme_str (pt_scheme p)) ++
  pseudo_field ":authority" (pt_authority p) ++ pseudo_field ":path" (pt_path p) ++ pseudo_field ":status" (option_map status_str (pt_status p)).

(** [rfc_sent max peer f fs peer']: the frames [fs] tell a receiver whose dynamic table is [peer] the frame [f], and
    leave it the table [peer'].  Data can be in any number of frames; END_STREAM is on the last one of them, but on
    the HEADERS frame of a header block (6.1, 6.2).  Names are sent in lower case (8.2). *)
Inductive rfc_sent (max : N) (peer : list hfield) : frame -> list sent -> list hfield -> Prop :=
| rs_data d xs :
    Forall (fun x => let '(fl, p, l) := x in rfc_frame 0 fl (da_id d) p (FData (mkData (da_id d) l fl))) xs ->
    concat (map snd xs) = da_data d -> only_last 0 (flag_on (da_flags d) 0) (map (fun x => fst (fst x)) xs) ->
    rfc_sent max peer (FData d) (map (fun x => (0, fst (fst x), da_id d, snd (fst x))) xs) peer
| rs_headers h fl p b0 tails ps peer' : hf_id h <> 0 -> rfc_headers fl p (hf_dep h) b0 -> (flag_on fl 0 <-> flag_on (hf_flags h) 0) ->
    only_last 2 True (fl :: map fst tails) -> Permutation ps (parts_fields (hf_parts h)) ->
    rfc_block max peer (b0 ++ concat (map snd tails)) (ps ++ map lower_field (hf_fields h)) peer' ->
    rfc_sent max peer (FHeaders h) ((1, fl, hf_id h, p) :: map (fun t => (9, fst t, hf_id h, snd t)) tails) peer'
| rs_push h fl p b0 tails ps peer' : pp_id h <> 0 -> pp_promised h < 2147483648 -> rfc_padded fl p (octets4 (pp_promised h) ++ b0) ->
    only_last 2 True (fl :: map fst tails) -> Permutation ps (parts_fields (pp_parts h)) ->
    rfc_block max peer (b0 ++ concat (map snd tails)) (ps ++ map lower_field (pp_fields h)) peer' ->
    rfc_sent max peer (FPushPromise h) ((5, fl, pp_id h, p) :: map (fun t => (9, fst t, pp_id h, snd t)) tails) peer'
| rs_one ty fl id p f : (forall d, f <> FData d) -> rfc_frame ty fl id p f -> rfc_sent max peer f [(ty, fl, id, p)] peer.

(** The octets [b] do it. *)
Definition conforms (room max : N) (peer : list hfield) (f : frame) (b : bytes) (peer' : list hfield) : Prop :=
  exists fs, b = concat (map sent_octets fs) /\ Forall (sent_fine room) fs /\ rfc_sent max peer f fs peer'.

(** ** When the crate does it *)
(** A field: not the misspelt static entry; and what the table search takes for the field has its name. *)
Definition field_fine (dyn : list hfield) (f : hfield) : Prop :=
  lower_name (fst f) <> str "accept-" /\
  forall j e, (forall i v, ~ static_at i (lower_name (fst f)) v) -> nth_error dyn j = Some e -> held f e ->
    (forall e', In e' (firstn j dyn) -> ~ held f e') -> lower_name (fst e) = lower_name (fst f).
Inductive fields_sent_fine (max : N) : list hfield -> list hfield -> Prop :=
| fsf_nil dyn : fields_sent_fine max dyn []
| fsf_cons dyn f fs l d1 : field_fine dyn f -> field_written max dyn f l d1 -> fields_sent_fine max d1 fs -> fields_sent_fine max dyn (f :: fs).

Inductive frame_fine (room max : N) (dyn : list hfield) : frame -> Prop :=
| ff_data d : 1 <= da_id d < 2147483648 -> ~ flag_on (da_flags d) 3 -> frame_fine room max dyn (FData d)
(** no priority and no pseudo field but those among the fields; every frame short enough; END_STREAM only if one frame
    is enough *)
| ff_headers h cs dyn' : 1 <= hf_id h < 2147483648 -> hf_dep h = None -> parts_fields (hf_parts h) = [] ->
    fields_sent_fine max dyn (hf_fields h) -> pieces room max dyn (hf_fields h) [] cs dyn' -> Forall (fun c => blen c <= room) cs ->
    (flag_on (hf_flags h) 0 -> length cs = 1%nat) -> frame_fine room max dyn (FHeaders h)
| ff_settings s : st_flags s = 0 -> Forall entry_legal (entries_of s) -> blen (concat (map entry_octets (entries_of s))) <= room ->
    frame_fine room max dyn (FSettings s)
| ff_settings_ack : frame_fine room max dyn (FSettings settings_ack)
| ff_ping p : blen (pg_payload p) = 8 -> 8 <= room -> frame_fine room max dyn (FPing p)
| ff_goaway g : ga_last g < 2147483648 -> 8 + blen (ga_debug g) <= room -> frame_fine room max dyn (FGoAway g)
| ff_window w : wu_id w < 2147483648 -> 1 <= wu_inc w < 2147483648 -> 4 <= room -> frame_fine room max dyn (FWindowUpdate w)
| ff_reset r : 1 <= rs_id r < 2147483648 -> 4 <= room -> frame_fine room max dyn (FReset r).
(** A PRIORITY frame and a PUSH_PROMISE frame never. *)

(** The frames that this is about: fields that HPACK can carry; a HEADERS frame without the flags PADDED and PRIORITY,
    which no setter of that frame sets; and header blocks of less than 16 MiB. *)
Definition frame_plain (f : frame) (b : bytes) : Prop :=
  match f with
  | FHeaders h => Forall sendable (hf_fields h) /\ ~ flag_on (hf_flags h) 3 /\ ~ flag_on (hf_flags h) 5 /\ blen b < 16777216
  | FPushPromise _ => blen b < 16777216
  | _ => True
  end.
