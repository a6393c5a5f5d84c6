(** The text that Request::parse, Response::parse, Url::parse and the chunk reader refuse,
    with the error for each of them and with what is left in the object (C103). *)
From Coq Require Import Ascii String NArith ZArith Bool List.
From Verif Require Import Base S_Utf8 M_Header M_Url M_Http1 S_Http1 S_Http1Api S_Hex S_Url S_UrlAll S_Wait.
Import ListNotations.
Local Open Scope N_scope.

Definition unfinished : werr := EHttp Partial.

(** ** Lines and words *)
(** What cannot be an end of line. *)
Inductive eol_bad : bytes -> werr -> Prop :=
| eb_none : eol_bad [] unfinished
| eb_cr : eol_bad [CR] unfinished
| eb_half b r : b <> LF -> eol_bad (CR :: b :: r) (EHttp NewLine)
| eb_other b r : no_eol b -> eol_bad (b :: r) unfinished.
(** The same where only CR LF or LF ends a line: nothing, or a CR without LF. *)
Inductive line_bad : bytes -> werr -> Prop :=
| lb_none : line_bad [] unfinished
| lb_cr : line_bad [CR] unfinished
| lb_half b r : b <> LF -> line_bad (CR :: b :: r) (EHttp NewLine).
(** A place where a word of the characters [P] is expected: it goes on to the end of the input, or there is none. *)
Inductive word_bad (P : N -> Prop) (e0 : werr) : bytes -> werr -> Prop :=
| wb_open w : Forall P w -> word_bad P e0 w unfinished
| wb_none b r : ~ P b -> word_bad P e0 (b :: r) e0.
(** A place where one of the words [known] is expected. *)
Inductive named_bad (known : bytes -> Prop) (e0 : werr) : bytes -> werr -> Prop :=
| nb_word l e : word_bad vchar (EHttp Token) l e -> named_bad known e0 l e
| nb_unknown w b r : word w -> ~ vchar b -> ~ known w -> named_bad known e0 (w ++ b :: r) e0.
(** A finished word is followed by something else. *)
Definition ended (x : bytes) : Prop := exists b r, x = b :: r /\ ~ vchar b.
(** [x] is spaces, as many as there are, and [y]. *)
Definition spaced (x y : bytes) : Prop := exists i, x = spaces i ++ y /\ hd_error y <> Some SP.

(** ** Header lines *)
Inductive field_bad : bytes -> werr -> Prop :=
| fb_open n : name_ok n -> field_bad n unfinished
| fb_no_name b r : ~ tchar b -> field_bad (b :: r) (EHttp HeaderNameErr)
| fb_open_spaces n i : name_ok n -> field_bad (n ++ spaces (S i)) unfinished
| fb_no_colon n i b r : name_ok n -> b <> SP -> b <> COLON -> (i = O -> ~ tchar b) ->
    field_bad (n ++ spaces i ++ b :: r) (EHttp HeaderNameErr)
| fb_open_value n i j v : name_ok n -> ~ In CR v -> hd_error v <> Some SP ->
    field_bad (n ++ spaces i ++ COLON :: spaces j ++ v) unfinished
| fb_value_end n i j v x e : name_ok n -> value_ok v -> v <> [] -> line_bad (CR :: x) e ->
    field_bad (n ++ spaces i ++ COLON :: spaces j ++ v ++ CR :: x) e
| fb_empty_end n i j x e : name_ok n -> eol_bad x e ->
    field_bad (n ++ spaces i ++ COLON :: spaces j ++ CR :: x) e.
(** A header block with the fields in front of the bad place. *)
Inductive fields_bad : bytes -> list (bytes * bytes) -> werr -> Prop :=
| fsb_end x e : line_bad x e -> fields_bad x [] e
| fsb_line b r e : b <> CR -> b <> LF -> field_bad (b :: r) e -> fields_bad (b :: r) [] e
| fsb_later w n v l hs e : field w n v -> fields_bad l hs e -> fields_bad (w ++ l) ((n, v) :: hs) e.

(** ** URLs *)
(** The raw texts of the components of a URL in the order in which they are decoded. *)
Inductive part := Text (raw : bytes) | Port (raw : bytes).
Definition raw_of (p : part) : bytes := match p with Text r | Port r => r end.
Definition no_marks (t : bytes) : bytes := filter (fun b => negb (b =? 63)) t.
Definition fine (p : part) : Prop :=
  match p with
  | Text r => exists s, text_of r s
  | Port r => exists s n, text_of r s /\ port_text s n
  end.
Inductive login_parts : bytes -> list part -> Prop :=
| lp_none : login_parts [] []
| lp_last k a c t : logins k -> Forall part_char a -> c = 58 \/ c = 63 -> Forall secret_char t ->
    login_parts (k ++ a ++ c :: t ++ [64]) [Text a; Text (no_marks t)].
Inductive port_parts : bytes -> list part -> Prop :=
| op_none : port_parts [] []
| op_some c t : c = 58 \/ c = 63 -> Forall secret_char t -> port_parts (c :: t) [Port (no_marks t)].
Inductive tail_parts : bytes -> list part -> Prop :=
| tp_none : tail_parts [] []
| tp_path t : Forall path_char t -> tail_parts (47 :: t) [Text (47 :: t)]
| tp_query t y : Forall path_char t -> Forall query_char y -> tail_parts (47 :: t ++ 63 :: y) [Text (47 :: t); Text y].
Inductive url_parts : bytes -> list part -> Prop :=
| ur_origin l ps : tail_parts l ps -> l <> [] -> url_parts l ps
| ur_absolute s k lg h pp po r ps : legal_scheme s -> login_parts k lg -> Forall part_char h -> port_parts pp po -> tail_parts r ps ->
    url_parts (scheme_str s ++ str "://" ++ k ++ h ++ pp ++ r) (lg ++ Text h :: po ++ ps)
| ur_at_path s k h pp po t r : legal_scheme s -> logins k -> Forall part_char h -> port_parts pp po -> Forall path_char t -> Forall path_char r ->
    url_parts (scheme_str s ++ str "://" ++ k ++ h ++ pp ++ 47 :: t ++ 64 :: r) ([Text h; Text (47 :: t); Text r] ++ po)
| ur_at_path_query s k h pp po t r y : legal_scheme s -> logins k -> Forall part_char h -> port_parts pp po -> Forall path_char t -> Forall path_char r -> Forall query_char y ->
    url_parts (scheme_str s ++ str "://" ++ k ++ h ++ pp ++ 47 :: t ++ 64 :: r ++ 63 :: y) ([Text h; Text (47 :: t)] ++ po ++ [Text r; Text y])
| ur_at_query s k h pp po t y z : legal_scheme s -> logins k -> Forall part_char h -> port_parts pp po -> Forall path_char t -> Forall query_char y -> Forall query_char z ->
    url_parts (scheme_str s ++ str "://" ++ k ++ h ++ pp ++ 47 :: t ++ 63 :: y ++ 64 :: z) ([Text h; Text y] ++ po ++ [Text (47 :: t); Text z]).
(** The components in front are fine and the next one ends inside an escape. *)
Definition first_cut (ps : list part) : Prop :=
  exists a p b, ps = a ++ p :: b /\ Forall fine a /\ cut_escape (raw_of p).
(** The texts that are taken for the beginning of a URL. *)
Inductive url_open : bytes -> Prop :=
| uo_nothing : url_open []
| uo_scheme b t : alpha b -> Forall scheme_char t -> url_open (b :: t)
| uo_slashes s x : legal_scheme s -> x = [58] \/ x = [58; 47] -> url_open (scheme_str s ++ x)
| uo_escape l ps : url_parts l ps -> first_cut ps -> url_open l.
(** A scheme of more than 64 characters. *)
Definition long_scheme (l : bytes) : Prop :=
  exists b t c r, l = b :: t ++ c :: r /\ alpha b /\ Forall scheme_char t /\ (64 <= length t)%nat /\ ~ scheme_char c.
Inductive url_bad (l : bytes) : werr -> Prop :=
| ub_open : url_open l -> url_bad l unfinished
| ub_long : long_scheme l -> url_bad l (EHttp SchemeTooLong)
| ub_else : ~ url_open l -> ~ long_scheme l -> (forall u, ~ url_means l u) -> url_bad l (EUrl UrlInvalid).

(** ** Requests *)
(** A text that is not [name] or [name:port]. *)
Inductive host_bad : bytes -> werr -> Prop :=
| hb_colons a b c : host_bad (a ++ COLON :: b ++ COLON :: c) EInto
| hb_port d p : ~ In COLON d -> ~ In COLON p -> (forall n, ~ port_text p n) ->
    host_bad (d ++ COLON :: p) (EExtension "parse int error").
(** A target that does not give a URL. *)
Inductive target_bad (m : method) (t : bytes) (h : headers) : werr -> Prop :=
| tb_connect e : m = MConnect -> host_bad t e -> target_bad m t h e
| tb_url e : m <> MConnect -> url_bad t e -> target_bad m t h e
| tb_host u hst e : m <> MConnect -> url_means t u -> u_domain u = None -> hm_get_host h = Some hst -> host_bad hst e ->
    target_bad m t h e.
Definition a_method (w : bytes) : Prop := exists m, In m known_methods /\ w = method_str m.
Definition a_version (w : bytes) : Prop := exists v, In v known_versions /\ w = version_str v.
Definition a_status (w : bytes) : Prop := exists c, 100 <= c <= 999 /\ w = three_digits c.

(** The refused requests: [q] is the request before, [q'] the one after. *)
Inductive request_bad (q : request) : bytes -> request -> werr -> Prop :=
| rb_blank bl x e : blanks bl -> line_bad x e ->
    request_bad q (bl ++ x) (mkReq (q_method q) (q_version q) (q_url q) (q_header q) true) e
| rb_method bl b r e : blanks bl -> b <> CR -> b <> LF -> named_bad a_method (EHttp MethodErr) (b :: r) e ->
    request_bad q (bl ++ b :: r) (mkReq (q_method q) (q_version q) (q_url q) (q_header q) true) e
| rb_target bl m x y e : blanks bl -> In m known_methods -> ended x -> spaced x y -> word_bad vchar (EHttp Token) y e ->
    request_bad q (bl ++ method_str m ++ x) (mkReq m (q_version q) (q_url q) (q_header q) true) e
| rb_version bl m i t x y e : blanks bl -> In m known_methods -> word t -> ended x -> spaced x y -> named_bad a_version (EHttp VersionErr) y e ->
    request_bad q (bl ++ method_str m ++ spaces (S i) ++ t ++ x) (mkReq m (q_version q) (q_url q) (q_header q) true) e
| rb_line bl m i t j v x e : blanks bl -> In m known_methods -> word t -> In v known_versions -> ended x -> eol_bad x e ->
    request_bad q (bl ++ method_str m ++ spaces (S i) ++ t ++ spaces (S j) ++ version_str v ++ x) (mkReq m v (q_url q) (q_header q) true) e
| rb_fields bl m i t j v eo x hs e : blanks bl -> In m known_methods -> word t -> In v known_versions -> eol eo -> fields_bad x hs e ->
    request_bad q (bl ++ method_str m ++ spaces (S i) ++ t ++ spaces (S j) ++ version_str v ++ eo ++ x) (mkReq m v (q_url q) (add_fields [] hs) true) e
| rb_url wire m t v hs r e : request_head wire (method_str m) t (version_str v) hs -> In m known_methods -> In v known_versions ->
    target_bad m t (add_fields [] hs) e ->
    request_bad q (wire ++ r) (mkReq m v (q_url q) (add_fields [] hs) false) e.

(** ** Responses *)
Definition reason_char (b : N) : Prop := 32 <= b <= 126.
Inductive response_bad (p : response) : bytes -> response -> werr -> Prop :=
| sb_blank bl x e : blanks bl -> line_bad x e ->
    response_bad p (bl ++ x) (mkResp (p_status p) (p_version p) (p_header p) true) e
| sb_version bl b r e : blanks bl -> b <> CR -> b <> LF -> named_bad a_version (EHttp VersionErr) (b :: r) e ->
    response_bad p (bl ++ b :: r) (mkResp (p_status p) (p_version p) (p_header p) true) e
| sb_status bl v x y e : blanks bl -> In v known_versions -> ended x -> spaced x y -> named_bad a_status (EHttp InvalidStatusCode) y e ->
    response_bad p (bl ++ version_str v ++ x) (mkResp (p_status p) v (p_header p) true) e
| sb_reason bl v i c x y e : blanks bl -> In v known_versions -> 100 <= c <= 999 -> ended x -> spaced x y -> word_bad reason_char (EHttp Token) y e ->
    response_bad p (bl ++ version_str v ++ spaces (S i) ++ three_digits c ++ x) (mkResp c v (p_header p) true) e
| sb_line bl v i c j rs b r e : blanks bl -> In v known_versions -> 100 <= c <= 999 -> reason_ok rs -> ~ reason_char b -> eol_bad (b :: r) e ->
    response_bad p (bl ++ version_str v ++ spaces (S i) ++ three_digits c ++ spaces (S j) ++ rs ++ b :: r) (mkResp c v (p_header p) true) e
| sb_fields bl v i c j rs eo x hs e : blanks bl -> In v known_versions -> 100 <= c <= 999 -> reason_ok rs -> eo = [CR; LF] \/ eo = [LF] -> fields_bad x hs e ->
    response_bad p (bl ++ version_str v ++ spaces (S i) ++ three_digits c ++ spaces (S j) ++ rs ++ eo ++ x) (mkResp c v (add_fields [] hs) true) e.

(** ** Chunks *)
(** [off] octets of size line and [n] octets of data are announced by C13; these are the refused chunks. *)
Inductive chunk_bad : bytes -> werr -> Prop :=
| cb_size l e : word_bad hex_byte (EHttp Token) l e -> chunk_bad l e
| cb_line ds n b r e : ds <> [] -> hex_num ds n -> n < 2 ^ 64 -> ~ hex_byte b -> eol_bad (b :: r) e -> chunk_bad (ds ++ b :: r) e
| cb_short line n r : size_line line n -> n + 2 < 2 ^ 64 -> blen r < n + 2 -> chunk_bad (line ++ r) unfinished.
(** And those that stop the process: a size that does not fit, or one to which the two octets behind the data cannot be added. *)
Inductive chunk_crash : bytes -> Prop :=
| cc_size ds n b r : ds <> [] -> hex_num ds n -> ~ hex_byte b -> 2 ^ 64 <= n -> chunk_crash (ds ++ b :: r)
| cc_sum line n r : size_line line n -> 2 ^ 64 <= n + 2 -> chunk_crash (line ++ r).
