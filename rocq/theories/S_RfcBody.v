(** The chunked transfer coding of RFC 9112 section 7.1 (C112).  Nothing here
    comes from the crate, except the last definition, which describes the
    bodies that its reader takes. *)
From Coq Require Import Ascii String NArith ZArith Bool List.
From Verif Require Import Base S_Hex S_Http1 S_Http1Api S_Url S_Rfc9112.
Import ListNotations.
Local Open Scope N_scope.

(** chunk-ext, in the form that senders may generate: nothing, or text on the
    line that starts with ";" (a blank before the ";" is "bad whitespace",
    which RFC 9110 section 5.6.3 forbids to senders). *)
Definition chunk_ext (e : bytes) : Prop :=
  e = [] \/ exists t, e = 59 :: t /\ Forall (fun b => field_vchar b \/ blank b) t.
(** chunk = chunk-size [ chunk-ext ] CRLF chunk-data CRLF. *)
Record chunk := mkChunk { ck_size : bytes; ck_ext : bytes; ck_data : bytes }.
Definition chunk_ok (c : chunk) : Prop :=
  ck_size c <> [] /\ hex_num (ck_size c) (blen (ck_data c)) /\ chunk_ext (ck_ext c) /\ ck_data c <> [].
Definition chunk_text (c : chunk) : bytes := ck_size c ++ ck_ext c ++ CRLF ++ ck_data c ++ CRLF.
(** chunked-body = *chunk last-chunk trailer-section CRLF, where
    last-chunk = 1*("0") [ chunk-ext ] CRLF. *)
Record chunked := mkChunked { cd_chunks : list chunk; cd_zeros : nat; cd_ext : bytes; cd_trailer : list line }.
Definition chunked_ok (b : chunked) : Prop :=
  Forall chunk_ok (cd_chunks b) /\ chunk_ext (cd_ext b) /\ Forall line_ok (cd_trailer b).
Definition chunked_text (b : chunked) : bytes :=
  concat (map chunk_text (cd_chunks b)) ++ 48 :: repeat 48 (cd_zeros b) ++ cd_ext b ++ CRLF ++ lines_text (cd_trailer b).
(** The blocks of the content. *)
Definition chunked_data (b : chunked) : list bytes := map ck_data (cd_chunks b).
(** No extension and no trailer field. *)
Definition plain (b : chunked) : Prop :=
  Forall (fun c => ck_ext c = []) (cd_chunks b) /\ cd_ext b = [] /\ cd_trailer b = [].
(** Every block can be counted by the reader, which adds 2 to its size. *)
Definition counted (b : chunked) : Prop := Forall (fun c => blen (ck_data c) + 2 < 2 ^ 64) (cd_chunks b).

(** A body as the crate takes it: the size line may end with CRLF, a line feed
    or a space, and any two octets follow the data. *)
Inductive lax_body : bytes -> list bytes -> bytes -> Prop :=
| lax_end line x y rest : size_line line 0 -> lax_body (line ++ x :: y :: rest) [] rest
| lax_more line d x y l ds rest :
    size_line line (blen d) -> d <> [] -> blen d + 2 < 2 ^ 64 -> lax_body l ds rest ->
    lax_body (line ++ d ++ x :: y :: l) (d :: ds) rest.
