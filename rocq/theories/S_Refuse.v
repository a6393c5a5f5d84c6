(** What the frame reader of the crate refuses, and with which error (C102): together with the grammar of S_FrameAll
    (what it accepts) and C42 (when it panics or does not return) this covers every octet string. *)
From Coq Require Import Ascii String NArith ZArith Bool List.
From Verif Require Import Base M_Header M_Url M_Http1 S_Http1 S_Http1Api S_Huffman M_Hpack S_Hpack S_HpackAll S_Frame M_Frame M_H2 S_Build S_FrameAll.
Import ListNotations.
Local Open Scope N_scope.

(** ** HPACK *)
Definition continues (b : N) : Prop := 128 <= b < 256.
(** An integer with all ones in its prefix that does not end: in the input, or in five octets. *)
Inductive int_bad (p fl : N) : bytes -> werr -> Prop :=
| ib_end c : Forall continues c -> (length c <= 3)%nat ->
    int_bad p fl (fl + (2 ^ p - 1) :: c) (EHttp2 (DecoderErr (IntegerDecodingError NotEnoughOctetsI)))
| ib_long c rest : Forall continues c -> length c = 4%nat ->
    int_bad p fl (fl + (2 ^ p - 1) :: c ++ rest) (EHttp2 (DecoderErr (IntegerDecodingError TooManyOctets))).
(** A string: none at all, a length that cannot be read, one that exceeds the input, or Huffman code that is none. *)
Inductive str_bad : bytes -> werr -> Prop :=
| sb_none : str_bad [] (EHttp2 (DecoderErr (IntegerDecodingError NotEnoughOctetsI)))
| sb_length fl l e : fl = 0 \/ fl = 128 -> int_bad 7 fl l e -> str_bad l e
| sb_short fl h n s : fl = 0 \/ fl = 128 -> int_repr 7 fl h n -> (length h <= 5)%nat -> blen s < n ->
    str_bad (h ++ s) (EHttp2 (DecoderErr (StringDecodingError NotEnoughOctetsS)))
| sb_code h c rest : int_repr 7 128 h (blen c) -> (length h <= 5)%nat ->
    (forall syms, Forall (fun x => x <= 256) syms -> ~ huff_coded c syms) ->
    str_bad (h ++ c ++ rest) (EHttp2 (HuffmanErr PaddingTooLarge)).
(** Literal fields: the size of the prefix and the bits above it. *)
Inductive literal : N -> N -> Prop := lit_add : literal 6 64 | lit_without : literal 4 0 | lit_never : literal 4 16.
Definition out_of_bounds : werr := EHttp2 (DecoderErr HeaderIndexOutOfBounds).
(** The first field of these octets cannot be read. *)
Inductive field_bad (dyn : list hfield) : bytes -> werr -> Prop :=
| fb_indexed i rest : i < 128 -> read_lookup dyn i = None -> field_bad dyn (128 + i :: rest) out_of_bounds
| fb_number p fl l e : literal p fl -> int_bad p fl l e -> field_bad dyn l e
| fb_unknown p fl i l rest : literal p fl -> int_repr p fl l i -> (length l <= 5)%nat -> i <> 0 -> read_lookup dyn i = None ->
    field_bad dyn (l ++ rest) out_of_bounds
| fb_name p fl l e : literal p fl -> str_bad l e -> field_bad dyn (fl :: l) e
| fb_value_indexed p fl i l f r e : literal p fl -> int_repr p fl l i -> (length l <= 5)%nat -> read_lookup dyn i = Some f ->
    str_bad r e -> field_bad dyn (l ++ r) e
| fb_value p fl ln n r e : literal p fl -> str_read ln n -> str_bad r e -> field_bad dyn (fl :: ln ++ r) e.
(** A block: some fields that are read, and enter the table, then one that is not. *)
Inductive block_bad (max : N) : list hfield -> bytes -> werr -> list hfield -> Prop :=
| bb_here dyn l e : field_bad dyn l e -> block_bad max dyn l e dyn
| bb_later dyn l f d1 ls e d2 : field_read max dyn l f d1 -> block_bad max d1 ls e d2 -> block_bad max dyn (l ++ ls) e d2.

(** ** Header lists: the first field that exceeds the limit or cannot be read *)
(** Values of pseudo headers that cannot be read. *)
Inductive value_bad : hfield -> werr -> Prop :=
| vb_method v : (forall m, ~ method_value v m) -> value_bad (str ":method", v) (EHttp MethodErr)
| vb_scheme v : (forall c, ~ scheme_value v c) -> value_bad (str ":scheme", v) (EUrl UrlInvalid)
| vb_status v : (forall c, ~ status_value v c) -> value_bad (str ":status", v) (EHttp InvalidStatusCode).
Inductive list_bad (L : N) (fs : list hfield) : werr -> Prop :=
| lb_limit a f b : fs = a ++ f :: b -> Forall field_fine a -> total_size a <= L -> L < total_size (a ++ [f]) ->
    list_bad L fs out_of_bounds
| lb_value a f b e : fs = a ++ f :: b -> Forall field_fine a -> total_size (a ++ [f]) <= L -> value_bad f e -> list_bad L fs e.
(** The octets of a header block, and the table afterwards. *)
Inductive headers_bad (L : N) (t : hindex) (l : bytes) : werr -> hindex -> Prop :=
| hb_block e dyn : block_bad (hi_max t) (hi_table t) l e dyn -> headers_bad L t l e (mkIdx dyn (total_size dyn) (hi_max t))
| hb_list fs dyn e : block_read (hi_max t) (hi_table t) l fs dyn -> list_bad L fs e ->
    headers_bad L t l e (mkIdx dyn (total_size dyn) (hi_max t)).

(** ** Payloads, without padding; [frame_bad L t ty fl id l e t'] *)
Inductive frame_bad (L : N) (t : hindex) : N -> N -> N -> bytes -> werr -> hindex -> Prop :=
| xb_headers fl id l e t' : ~ flag_on fl 5 -> headers_bad L t l e t' -> frame_bad L t 1 fl id l e t'
| xb_headers_prio fl id d l e t' : flag_on fl 5 -> dep_range d -> headers_bad L t l e t' ->
    frame_bad L t 1 fl id (dep_octets d ++ l) e t'
| xb_headers_dep fl id l : flag_on fl 5 -> blen l < 5 -> frame_bad L t 1 fl id l (EHttp2 InvalidPayloadLength) t
| xb_priority fl id l : blen l < 5 -> frame_bad L t 2 fl id l (EHttp2 InvalidPayloadLength) t
| xb_priority_self fl id d junk : dep_range d -> dp_id d = id ->
    frame_bad L t 2 fl id (dep_octets d ++ junk) (EHttp2 InvalidDependencyId) t
| xb_reset fl id l : blen l <> 4 -> frame_bad L t 3 fl id l (EHttp2 InvalidPayloadLength) t
| xb_settings_stream fl id l : id <> 0 -> frame_bad L t 4 fl id l (EHttp2 InvalidStreamId) t
| xb_settings_ack fl l : flag_on fl 0 -> l <> [] -> frame_bad L t 4 fl 0 l (EHttp2 InvalidPayloadLength) t
| xb_settings_length fl l : ~ flag_on fl 0 -> blen l mod 6 <> 0 -> frame_bad L t 4 fl 0 l (EHttp2 InvalidPayloadLength) t
| xb_settings_value fl es : ~ flag_on fl 0 -> Forall entry_range es -> ~ Forall entry_legal es ->
    frame_bad L t 4 fl 0 (concat (map entry_octets es)) (EHttp2 InvalidSettingValue) t
| xb_ping_stream fl id l : id <> 0 -> frame_bad L t 6 fl id l (EHttp2 InvalidStreamId) t
| xb_ping fl l : blen l <> 8 -> frame_bad L t 6 fl 0 l (EHttp2 BadFrameSize) t
| xb_goaway fl id l : blen l < 8 -> frame_bad L t 7 fl id l (EHttp2 BadFrameSize) t
| xb_window fl id l : blen l <> 4 -> frame_bad L t 8 fl id l (EHttp2 BadFrameSize) t
| xb_window_zero fl id r : r <= 1 -> frame_bad L t 8 fl id (octets4 (r * 2147483648)) (EHttp2 InvalidWindowUpdateValue) t
| xb_continuation ty fl id l : 9 <= ty < 256 -> frame_bad L t ty fl id l (EExtension "") t.

(** ** The input *)
Inductive refused (L : N) (t : hindex) : bytes -> werr -> hindex -> Prop :=
| rf_header l : blen l < 9 -> refused L t l (EHttp2 Short) t
| rf_flags n ty fl id l : n < 16777216 -> ty < 256 -> fl < 256 -> id < 4294967296 -> ~ defined_flags fl ->
    refused L t (header_octets n ty fl id ++ l) (EHttp2 (BadFlag fl)) t
| rf_payload n ty fl id l : n < 16777216 -> ty < 256 -> id < 4294967296 -> defined_flags fl -> blen l < n ->
    refused L t (header_octets n ty fl id ++ l) (EHttp2 Short) t
| rf_padding ty fl id n p rest : blen (n :: p) < 16777216 -> ty < 256 -> id < 4294967296 -> defined_flags fl ->
    flag_on fl 3 -> blen (n :: p) < n -> refused L t (frame_octets ty fl id (n :: p) ++ rest) (EHttp2 (TooMuchPadding n)) t
| rf_frame ty fl r id p l e t' rest : blen p < 16777216 -> ty < 256 -> defined_flags fl -> r <= 1 -> id < 2147483648 ->
    unpadded fl p l -> frame_bad L t ty fl id l e t' ->
    refused L t (frame_octets ty fl (r * 2147483648 + id) p ++ rest) e t'.

(** ** What is neither accepted nor refused *)
(** A block on which the decoder does not stop: some fields, then a size update (RFC 7541 6.3). *)
Inductive block_hangs (max : N) : list hfield -> bytes -> Prop :=
| bh_here dyn b rest : 32 <= b < 64 -> block_hangs max dyn (b :: rest)
| bh_later dyn l f d1 ls : field_read max dyn l f d1 -> block_hangs max d1 ls -> block_hangs max dyn (l ++ ls).
Inductive hangs (t : hindex) : bytes -> Prop :=
| hg_headers fl r id p l rest : blen p < 16777216 -> defined_flags fl -> r <= 1 -> id < 2147483648 -> unpadded fl p l -> ~ flag_on fl 5 ->
    block_hangs (hi_max t) (hi_table t) l -> hangs t (frame_octets 1 fl (r * 2147483648 + id) p ++ rest)
| hg_headers_prio fl r id p d l rest : blen p < 16777216 -> defined_flags fl -> r <= 1 -> id < 2147483648 -> unpadded fl p (dep_octets d ++ l) ->
    flag_on fl 5 -> dep_range d -> block_hangs (hi_max t) (hi_table t) l -> hangs t (frame_octets 1 fl (r * 2147483648 + id) p ++ rest).
(** DATA on stream 0 *)
Inductive crashes : bytes -> Prop :=
| cr_data fl r p l rest : blen p < 16777216 -> defined_flags fl -> r <= 1 -> unpadded fl p l ->
    crashes (frame_octets 0 fl (r * 2147483648) p ++ rest).
