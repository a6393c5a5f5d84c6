(** Specification vocabulary for the HTTP/1 properties, independent of the
    parsers: character classes, the text of a message head, and the exact
    language of heads the crate accepts. *)
From Coq Require Import Ascii String NArith ZArith Bool List.
From Verif Require Import Base.
Import ListNotations.
Local Open Scope N_scope.

Definition CR : N := 13.
Definition LF : N := 10.
Definition SP : N := 32.
Definition COLON : N := 58.
Definition CRLF : bytes := [CR; LF].
Definition spaces (n : nat) : bytes := repeat SP n.

(** ** Characters *)
Definition upper (b : N) : Prop := 65 <= b <= 90.
Definition lower (b : N) : Prop := 97 <= b <= 122.
Definition alpha (b : N) : Prop := upper b \/ lower b.
Definition digit (b : N) : Prop := 48 <= b <= 57.
(** RFC 7230 section 3.2.6: tchar. *)
Definition tchar (b : N) : Prop := alpha b \/ digit b \/ In b (str "!#$%&'*+-.^_`|~").
(** Visible ASCII characters. *)
Definition vchar (b : N) : Prop := 33 <= b <= 126.

(** A header name: a non-empty token. *)
Definition name_ok (n : bytes) : Prop := n <> [] /\ Forall tchar n.
(** A header value that survives on the wire: no CR, and not starting with a
    space (the parser skips spaces after the colon). *)
Definition value_ok (v : bytes) : Prop := bytes_ok v /\ ~ In CR v /\ hd_error v <> Some SP.

(** ** The text of a head, as the RFC writes it *)
Definition field_text (nv : bytes * bytes) : bytes := fst nv ++ [COLON; SP] ++ snd nv ++ CRLF.
Definition fields_text (hs : list (bytes * bytes)) : bytes := concat (map field_text hs) ++ CRLF.
Definition request_text (m target v : bytes) (hs : list (bytes * bytes)) : bytes :=
  m ++ [SP] ++ target ++ [SP] ++ v ++ CRLF ++ fields_text hs.
Definition response_text (v code reason : bytes) (hs : list (bytes * bytes)) : bytes :=
  v ++ [SP] ++ code ++ [SP] ++ reason ++ CRLF ++ fields_text hs.

(** ** Exactly what is accepted
    The crate is laxer than the RFC: LF or a single space may stand for CRLF,
    several spaces may separate, blank lines may precede. *)
Inductive eol : bytes -> Prop :=
| eol_crlf : eol [CR; LF]
| eol_lf : eol [LF]
| eol_sp : eol [SP].
Inductive blanks : bytes -> Prop :=
| bl_nil : blanks []
| bl_crlf l : blanks l -> blanks (CR :: LF :: l)
| bl_lf l : blanks l -> blanks (LF :: l).
(** One header line with its name and value. *)
Inductive field : bytes -> bytes -> bytes -> Prop :=
| field_value n i j v : name_ok n -> value_ok v -> v <> [] ->
    field (n ++ spaces i ++ COLON :: spaces j ++ v ++ CRLF) n v
| field_empty n i j e : name_ok n -> eol e ->
    field (n ++ spaces i ++ COLON :: spaces j ++ CR :: e) n [].
(** A header block up to and including the blank line. *)
Inductive fields : bytes -> list (bytes * bytes) -> Prop :=
| fs_crlf : fields [CR; LF] []
| fs_lf : fields [LF] []
| fs_cons w n v ws hs : field w n v -> fields ws hs -> fields (w ++ ws) ((n, v) :: hs).

Definition word (w : bytes) : Prop := w <> [] /\ Forall vchar w.
(** A request head: method, target and version words, and header lines. *)
Inductive request_head : bytes -> bytes -> bytes -> bytes -> list (bytes * bytes) -> Prop :=
| request_head_intro bl m i t j v e fs hs :
    blanks bl -> word m -> word t -> word v -> eol e -> fields fs hs ->
    request_head (bl ++ m ++ spaces (S i) ++ t ++ spaces (S j) ++ v ++ e ++ fs) m t v hs.
(** A response head: the reason may contain spaces but does not start with one. *)
Definition reason_ok (r : bytes) : Prop :=
  r <> [] /\ Forall (fun b => 32 <= b <= 126) r /\ hd_error r <> Some SP.
Inductive response_head : bytes -> bytes -> bytes -> list (bytes * bytes) -> Prop :=
| response_head_intro bl v i c j r e fs hs :
    blanks bl -> word v -> word c -> reason_ok r ->
    (e = [CR; LF] \/ e = [LF]) -> fields fs hs ->
    response_head (bl ++ v ++ spaces (S i) ++ c ++ spaces (S j) ++ r ++ e ++ fs) v c hs.
