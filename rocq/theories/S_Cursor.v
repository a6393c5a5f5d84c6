(** What a reader leaves in the buffer of its caller when it fails (C105): the inputs of [S_Reject.v],
    [S_WsAll.v] and [S_Refuse.v], with the octets that remain. *)
From Coq Require Import Ascii String NArith ZArith Bool List.
From Verif Require Import Base S_Utf8 M_Header M_Url M_Http1 S_Http1Api S_Url S_Wait M_Ws S_Ws S_WsApi M_Hpack S_Hpack S_HpackAll M_Frame S_Frame S_Refuse S_WsAll S_Http1 S_Reject.
Import ListNotations.
Local Open Scope N_scope.

(** [l] ends with [r]. *)
Definition tail_of (l r : bytes) : Prop := exists a, l = a ++ r.

(** ** HTTP/1 *)
(** No end of line: the octets looked at are gone, also the one that was wrong. *)
Inductive eol_left : bytes -> werr -> bytes -> Prop :=
| el_none : eol_left [] unfinished []
| el_cr : eol_left [CR] unfinished []
| el_half b r : b <> LF -> eol_left (CR :: b :: r) (EHttp NewLine) r
| el_other b r : no_eol b -> eol_left (b :: r) unfinished r.
Inductive line_left : bytes -> werr -> bytes -> Prop :=
| ll_none : line_left [] unfinished []
| ll_cr : line_left [CR] unfinished []
| ll_half b r : b <> LF -> line_left (CR :: b :: r) (EHttp NewLine) r.
(** A word that is not finished or missing stays; an unknown one is gone. *)
Inductive named_left (known : bytes -> Prop) (e0 : werr) : bytes -> werr -> bytes -> Prop :=
| nl_word l e : word_bad vchar (EHttp Token) l e -> named_left known e0 l e l
| nl_unknown w b r : word w -> ~ vchar b -> ~ known w -> named_left known e0 (w ++ b :: r) e0 (b :: r).
Inductive field_left : bytes -> werr -> bytes -> Prop :=
| fl_open n : name_ok n -> field_left n unfinished n
| fl_no_name b r : ~ tchar b -> field_left (b :: r) (EHttp HeaderNameErr) (b :: r)
| fl_open_spaces n i : name_ok n -> field_left (n ++ spaces (S i)) unfinished []
| fl_no_colon n i b r : name_ok n -> b <> SP -> b <> COLON -> (i = O -> ~ tchar b) ->
    field_left (n ++ spaces i ++ b :: r) (EHttp HeaderNameErr) r
| fl_open_value n i j v : name_ok n -> ~ In CR v -> hd_error v <> Some SP ->
    field_left (n ++ spaces i ++ COLON :: spaces j ++ v) unfinished v
| fl_value_end n i j v x e y : name_ok n -> value_ok v -> v <> [] -> line_left (CR :: x) e y ->
    field_left (n ++ spaces i ++ COLON :: spaces j ++ v ++ CR :: x) e y
| fl_empty_end n i j x e y : name_ok n -> eol_left x e y ->
    field_left (n ++ spaces i ++ COLON :: spaces j ++ CR :: x) e y.
Inductive fields_left : bytes -> list (bytes * bytes) -> werr -> bytes -> Prop :=
| fsl_end x e y : line_left x e y -> fields_left x [] e y
| fsl_line b r e y : b <> CR -> b <> LF -> field_left (b :: r) e y -> fields_left (b :: r) [] e y
| fsl_later w n v l hs e y : field w n v -> fields_left l hs e y -> fields_left (w ++ l) ((n, v) :: hs) e y.

(** [q] is the request before, [q'] the one after, the last list what remains. *)
Inductive request_left (q : request) : bytes -> request -> werr -> bytes -> Prop :=
| rl_blank bl x e z : blanks bl -> line_left x e z ->
    request_left q (bl ++ x) (mkReq (q_method q) (q_version q) (q_url q) (q_header q) true) e z
| rl_method bl b r e z : blanks bl -> b <> CR -> b <> LF -> named_left a_method (EHttp MethodErr) (b :: r) e z ->
    request_left q (bl ++ b :: r) (mkReq (q_method q) (q_version q) (q_url q) (q_header q) true) e z
| rl_target bl m x y e : blanks bl -> In m known_methods -> ended x -> spaced x y -> word_bad vchar (EHttp Token) y e ->
    request_left q (bl ++ method_str m ++ x) (mkReq m (q_version q) (q_url q) (q_header q) true) e y
| rl_version bl m i t x y e z : blanks bl -> In m known_methods -> word t -> ended x -> spaced x y -> named_left a_version (EHttp VersionErr) y e z ->
    request_left q (bl ++ method_str m ++ spaces (S i) ++ t ++ x) (mkReq m (q_version q) (q_url q) (q_header q) true) e z
| rl_line bl m i t j v x e z : blanks bl -> In m known_methods -> word t -> In v known_versions -> ended x -> eol_left x e z ->
    request_left q (bl ++ method_str m ++ spaces (S i) ++ t ++ spaces (S j) ++ version_str v ++ x) (mkReq m v (q_url q) (q_header q) true) e z
| rl_fields bl m i t j v eo x hs e z : blanks bl -> In m known_methods -> word t -> In v known_versions -> eol eo -> fields_left x hs e z ->
    request_left q (bl ++ method_str m ++ spaces (S i) ++ t ++ spaces (S j) ++ version_str v ++ eo ++ x) (mkReq m v (q_url q) (add_fields [] hs) true) e z
| rl_url wire m t v hs r e : request_head wire (method_str m) t (version_str v) hs -> In m known_methods -> In v known_versions ->
    target_bad m t (add_fields [] hs) e ->
    request_left q (wire ++ r) (mkReq m v (q_url q) (add_fields [] hs) false) e r.
Inductive response_left (p : response) : bytes -> response -> werr -> bytes -> Prop :=
| pl_blank bl x e z : blanks bl -> line_left x e z ->
    response_left p (bl ++ x) (mkResp (p_status p) (p_version p) (p_header p) true) e z
| pl_version bl b r e z : blanks bl -> b <> CR -> b <> LF -> named_left a_version (EHttp VersionErr) (b :: r) e z ->
    response_left p (bl ++ b :: r) (mkResp (p_status p) (p_version p) (p_header p) true) e z
| pl_status bl v x y e z : blanks bl -> In v known_versions -> ended x -> spaced x y -> named_left a_status (EHttp InvalidStatusCode) y e z ->
    response_left p (bl ++ version_str v ++ x) (mkResp (p_status p) v (p_header p) true) e z
| pl_reason bl v i c x y e : blanks bl -> In v known_versions -> 100 <= c <= 999 -> ended x -> spaced x y -> word_bad reason_char (EHttp Token) y e ->
    response_left p (bl ++ version_str v ++ spaces (S i) ++ three_digits c ++ x) (mkResp c v (p_header p) true) e y
| pl_line bl v i c j rs b r e z : blanks bl -> In v known_versions -> 100 <= c <= 999 -> reason_ok rs -> ~ reason_char b -> eol_left (b :: r) e z ->
    response_left p (bl ++ version_str v ++ spaces (S i) ++ three_digits c ++ spaces (S j) ++ rs ++ b :: r) (mkResp c v (p_header p) true) e z
| pl_fields bl v i c j rs eo x hs e z : blanks bl -> In v known_versions -> 100 <= c <= 999 -> reason_ok rs -> eo = [CR; LF] \/ eo = [LF] -> fields_left x hs e z ->
    response_left p (bl ++ version_str v ++ spaces (S i) ++ three_digits c ++ spaces (S j) ++ rs ++ eo ++ x) (mkResp c v (add_fields [] hs) true) e z.

(** Some header lines, without the blank line behind them. *)
Inductive header_lines : bytes -> list (bytes * bytes) -> Prop :=
| hs_none : header_lines [] []
| hs_more w n v ws hs : field w n v -> header_lines ws hs -> header_lines (w ++ ws) ((n, v) :: hs).
(** The outcome of a call without the count of octets: what is left, the object, and success or error. *)
Definition outcome {S} (x : bytes * (S * res N)) : bytes * S * res unit :=
  let '(r, (q, o)) := x in (r, q, match o with Ok _ => Ok tt | Err e => Err e | Panic => Panic | Diverge => Diverge end).

(** ** WebSocket *)
(** A header whose length is cut off keeps the octets of the length; a cut-off masking key is gone. *)
Inductive head_left : bytes -> werr -> bytes -> Prop :=
| hl_nothing : head_left [] more_data []
| hl_one b : head_left [b] more_data []
| hl_len2 b0 m x : (length x < 2)%nat -> head_left (b0 :: bit m 128 + 126 :: x) more_data x
| hl_len8 b0 m x : (length x < 8)%nat -> head_left (b0 :: bit m 128 + 127 :: x) more_data x
| hl_long2 b0 m n r : n < 126 -> head_left (b0 :: bit m 128 + 126 :: [0; n] ++ r) (EWs (DataFrameError "Invalid data frame length")) r
| hl_long8 b0 m n r : n < 65536 ->
    head_left (b0 :: bit m 128 + 127 :: [0; 0; 0; 0; 0; 0; n / 256; n mod 256] ++ r) (EWs (DataFrameError "Invalid data frame length")) r
| hl_control_length fin r1 r2 r3 op m n r : 8 <= op < 16 -> 126 <= n < 2 ^ 64 ->
    head_left (lead fin r1 r2 r3 op m n ++ r) (EWs (DataFrameError "Control frame length too long")) r
| hl_control_part r1 r2 r3 op m n r : 8 <= op < 16 -> n < 126 ->
    head_left (lead false r1 r2 r3 op m n ++ r) (EWs (ProtocolError "Illegal fragmented control frame")) r
| hl_key fin r1 r2 r3 op n x : op < 16 -> n < 2 ^ 64 -> control_ok fin op n -> (length x < 4)%nat ->
    head_left (lead fin r1 r2 r3 op true n ++ x) more_data [].
Inductive frame_left (limit : option N) : bytes -> werr -> bytes -> Prop :=
| wl_head l e r : head_left l e r -> frame_left limit l e r
| wl_limit lim fin r1 r2 r3 op key n r : limit = Some lim -> lim < n < 2 ^ 64 -> op < 16 -> control_ok fin op n -> key_ok key ->
    frame_left limit (spec_header fin r1 r2 r3 op key n ++ r) (EIo InvalidData) r
| wl_data fin r1 r2 r3 op key n x : (forall lim, limit = Some lim -> n <= lim) -> n < 2 ^ 64 -> op < 16 -> control_ok fin op n -> key_ok key ->
    blen x < n -> frame_left limit (spec_header fin r1 r2 r3 op key n ++ x) more_data x.

(** ** The scheme of a URL *)
Inductive scheme_left : bytes -> werr -> bytes -> Prop :=
| sl_word l e : word_bad scheme_char (EHttp HeaderValueErr) l e -> scheme_left l e l
| sl_long t b r : Forall scheme_char t -> 64 < blen t -> ~ scheme_char b -> scheme_left (t ++ b :: r) (EHttp SchemeTooLong) (b :: r).

(** ** HTTP/2 frame headers: undefined flags stop the reader behind the flags *)
Inductive prefix_left : bytes -> werr -> bytes -> Prop :=
| pl_short l : blen l < 9 -> prefix_left l (EHttp2 Short) l
| pl_flags n ty f id r : n < 16777216 -> ty < 256 -> f < 256 -> id < 4294967296 -> ~ defined_flags f ->
    prefix_left (octets3 n ++ [ty; f] ++ octets4 id ++ r) (EHttp2 (BadFlag f)) (octets4 id ++ r).

(** ** Header blocks: the fields in front of the bad one are gone, it stays as a whole *)
Inductive block_left (max : N) (dyn : list hfield) : bytes -> list hfield -> werr -> list hfield -> bytes -> Prop :=
| bl_intro a r fs e dyn' : block_read max dyn a fs dyn' -> S_Refuse.field_bad dyn' r e -> block_left max dyn (a ++ r) fs e dyn' r.
