(** When waiting for more bytes is useless (C08): the inputs that the head
    parsers report as Partial whatever follows. *)
From Coq Require Import Ascii String NArith ZArith Bool List.
From Verif Require Import Base M_Url M_Http1 S_Http1 S_Http1Api S_Hex S_Url.
Import ListNotations.
Local Open Scope N_scope.

(** An octet that can neither be nor begin an end of line. *)
Definition no_eol (b : N) : Prop := b <> CR /\ b <> LF /\ b <> SP.

(** A header block in which a line "name:" is followed by CR and such an octet.
    (The CR is taken as an empty value, and an end of line is looked for behind it.) *)
Inductive hopeless_fields : bytes -> Prop :=
| hf_line n i j b r : name_ok n -> no_eol b ->
    hopeless_fields (n ++ spaces i ++ COLON :: spaces j ++ CR :: b :: r)
| hf_later w n v l : field w n v -> hopeless_fields l -> hopeless_fields (w ++ l).

(** A request head: such an octet behind the version or in the header block, or
    a complete head (with anything behind it) whose target is itself an
    unfinished URL. *)
Inductive hopeless_request : bytes -> Prop :=
| hq_line bl m i t j v b r : blanks bl -> In m known_methods -> word t -> In v known_versions -> ~ vchar b -> no_eol b ->
    hopeless_request (bl ++ method_str m ++ spaces (S i) ++ t ++ spaces (S j) ++ version_str v ++ b :: r)
| hq_fields bl m i t j v e fs : blanks bl -> In m known_methods -> word t -> In v known_versions -> eol e -> hopeless_fields fs ->
    hopeless_request (bl ++ method_str m ++ spaces (S i) ++ t ++ spaces (S j) ++ version_str v ++ e ++ fs)
| hq_target wire m t v hs r : request_head wire (method_str m) t (version_str v) hs -> In m known_methods -> In v known_versions ->
    m <> MConnect -> url_parse t = partial -> hopeless_request (wire ++ r).

(** A response head: such an octet behind the reason or in the header block. *)
Inductive hopeless_response : bytes -> Prop :=
| hp_line bl v i c j rs b r : blanks bl -> In v known_versions -> 100 <= c <= 999 -> reason_ok rs -> ~ 32 <= b <= 126 -> no_eol b ->
    hopeless_response (bl ++ version_str v ++ spaces (S i) ++ status_str c ++ spaces (S j) ++ rs ++ b :: r)
| hp_fields bl v i c j rs e fs : blanks bl -> In v known_versions -> 100 <= c <= 999 -> reason_ok rs -> e = [CR; LF] \/ e = [LF] -> hopeless_fields fs ->
    hopeless_response (bl ++ version_str v ++ spaces (S i) ++ status_str c ++ spaces (S j) ++ rs ++ e ++ fs).

(** A percent escape cut off at the end of a text that was fine so far. *)
Definition cut_escape (l : bytes) : Prop :=
  exists a s x, pct_form a s /\ (x = [37] \/ exists c, x = [37; c]) /\ l = a ++ x.
(** A target in origin form that is an unfinished URL: its path, or else its
    query, ends in the middle of a percent escape. *)
Inductive unfinished_origin : bytes -> Prop :=
| uo_path t qq : Forall path_char t -> cut_escape (47 :: t) -> (qq = [] \/ exists y, qq = 63 :: y /\ Forall query_char y) ->
    unfinished_origin (47 :: t ++ qq)
| uo_query t p y : Forall path_char t -> text_of (47 :: t) p -> Forall query_char y -> cut_escape y ->
    unfinished_origin (47 :: t ++ 63 :: y).
