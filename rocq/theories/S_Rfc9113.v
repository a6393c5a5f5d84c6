(** Frames and header lists as RFC 9113 has them, and what they mean (C110). *)
From Coq Require Import Ascii String NArith ZArith Bool List.
From Verif Require Import Base S_Utf8 M_Header M_Url M_Http1 S_Http1 S_Http1Api M_Hpack S_Hpack S_HpackAll S_Frame M_Frame M_H2 S_Build S_FrameAll.
Import ListNotations.
Local Open Scope N_scope.

(** 6.1: with the flag PADDED (8) an octet with the number of the zeros behind the data comes first. *)
Inductive rfc_padded (fl : N) : bytes -> bytes -> Prop :=
| rp_plain p : ~ flag_on fl 3 -> rfc_padded fl p p
| rp_pad n d : flag_on fl 3 -> n < 256 -> rfc_padded fl (n :: d ++ repeat 0 (N.to_nat n)) d.

(** Section 6 without the frames that carry header blocks: type, flags, stream, payload, and the frame that is meant.
    Other flags than those named are to be ignored.  That no stream depends on itself is RFC 7540 5.3.1, to which
    RFC 9113 5.3 leaves priorities. *)
Inductive rfc_frame : N -> N -> N -> bytes -> frame -> Prop :=
| rf_data fl id p l : id <> 0 -> rfc_padded fl p l -> rfc_frame 0 fl id p (FData (mkData id l fl))
| rf_priority fl id d : id <> 0 -> dep_range d -> dp_id d <> id -> rfc_frame 2 fl id (dep_octets d) (FPriority (mkPriority id d))
| rf_reset fl id code : id <> 0 -> code < 4294967296 -> rfc_frame 3 fl id (octets4 code) (FReset (mkReset id code))
| rf_settings fl es : ~ flag_on fl 0 -> Forall entry_range es -> Forall entry_legal es ->
    rfc_frame 4 fl 0 (concat (map entry_octets es)) (FSettings (settings_of es))
| rf_settings_ack fl : flag_on fl 0 -> rfc_frame 4 fl 0 [] (FSettings settings_ack)
| rf_ping fl l : blen l = 8 -> rfc_frame 6 fl 0 l (FPing (mkPing (N.testbit fl 0) l))
| rf_goaway fl r last code debug : r <= 1 -> last < 2147483648 -> code < 4294967296 ->
    rfc_frame 7 fl 0 (octets4 (r * 2147483648 + last) ++ octets4 code ++ debug) (FGoAway (mkGoAway last code debug))
| rf_window fl id r inc : r <= 1 -> 1 <= inc < 2147483648 ->
    rfc_frame 8 fl id (octets4 (r * 2147483648 + inc)) (FWindowUpdate (mkWin id inc)).

(** When it is read as that: no flag but the four of the crate, and no octet of padding.  The flag PADDED is taken to
    mean padding in every kind of frame. *)
Definition pad_free (ty fl : N) (p : bytes) : Prop := flag_on fl 3 -> p = [] \/ (ty = 0 /\ hd_error p = Some 0).

(** What an accepted frame of these kinds still has to fulfil to be one of RFC 9113. *)
Definition strict_frame (ty fl id : N) (p : bytes) : Prop :=
  match ty with
  | 0 => flag_on fl 3 -> exists n d, n < 256 /\ p = n :: d ++ repeat 0 (N.to_nat n)
  | 2 => id <> 0 /\ blen p = 5
  | 3 => id <> 0 /\ blen p = 4
  | 4 => flag_on fl 3 -> p = []
  | 6 => blen p = 8
  | 7 => id = 0
  | 8 => blen p = 4
  | _ => False
  end.

(** 6.2: the payload of HEADERS with the priority and the whole block in it. *)
Inductive rfc_headers (fl : N) : bytes -> option stream_dep -> bytes -> Prop :=
| rh_plain p block : ~ flag_on fl 5 -> rfc_padded fl p block -> rfc_headers fl p None block
| rh_prio p d block : flag_on fl 5 -> dep_range d -> rfc_padded fl p (dep_octets d ++ block) -> rfc_headers fl p (Some d) block.

(** 8.3: the pseudo header fields come first, each at most once, then the others, with lower case tokens as names. *)
Definition lower_token (n : bytes) : Prop := n <> [] /\ Forall (fun b => tchar b /\ ~ upper b) n.
Definition value_of (n : string) (fs : list hfield) : option bytes :=
  option_map snd (find (fun f => beq (fst f) (str n)) fs).
Definition part_meant {A} (P : bytes -> A -> Prop) (n : string) (fs : list hfield) (o : option A) : Prop :=
  match value_of n fs with None => o = None | Some v => exists a, P v a /\ o = Some a end.
(** The values mean themselves. *)
Definition method_meant (v : bytes) (m : method) : Prop :=
  method_value v m \/ ((forall m', ~ method_value v m') /\ m = MExt v).
Definition rfc_header_list (ps hs : list hfield) (p : parts) : Prop :=
  Forall (fun f => In (fst f) pseudo_names) ps /\ NoDup (map fst ps) /\ Forall (fun f => lower_token (fst f)) hs /\
  part_meant eq ":authority" ps (pt_authority p) /\ part_meant method_meant ":method" ps (pt_method p) /\
  part_meant eq ":path" ps (pt_path p) /\ part_meant (fun v c => c = scheme_named v) ":scheme" ps (pt_scheme p) /\
  part_meant (fun v c => c < 1000 /\ v = three_digits c) ":status" ps (pt_status p).
(** What the crate asks of such a list. *)
Definition plain_list (ps hs : list hfield) : Prop :=
  (forall v, value_of ":authority" ps = Some v -> is_utf8 v) /\
  (forall v, value_of ":method" ps = Some v -> exists m, method_value v m) /\
  (forall v, value_of ":path" ps = Some v -> is_utf8 v) /\
  (forall v, value_of ":scheme" ps = Some v -> is_utf8 v /\ blen v <= 64) /\
  (forall v, value_of ":status" ps = Some v -> hd_error v <> Some 48) /\
  distinct_names hs.
