(** Where the requests of RFC 9112 end (sections 6 and 7; C113). *)
From Coq Require Import Ascii String NArith ZArith Bool List.
From Verif Require Import Base M_Std M_Header M_Http1 S_Map S_Hex S_Http1 S_Http1Api S_Url S_Build S_Rfc9112 S_RfcBody.
Import ListNotations.
Local Open Scope N_scope.

(** The value of a field, letter case in names aside. *)
Definition rfc_get (fs : list (bytes * bytes)) (n : bytes) : option bytes :=
  option_map snd (find (fun nv => beq (fold_name (fst nv)) n) fs).
Definition te_of (fs : list (bytes * bytes)) : option bytes := rfc_get fs (str "transfer-encoding").
Definition cl_of (fs : list (bytes * bytes)) : option bytes := rfc_get fs (str "content-length").
(** The codings of a Transfer-Encoding value; empty list elements do not count. *)
Definition codings (v : bytes) : list bytes := filter (fun e => negb (beq e [])) (map strip (split_on 44 v)).
(** The final coding is chunked, letter case aside. *)
Definition finally_chunked (v : bytes) : Prop := fold_name (last (codings v) []) = str "chunked".

(** Bodies.  The content of a chunked body is what the chunked coding carries. *)
Inductive rfc_body := BNone | BSized (b : bytes) | BChunked (c : chunked).
Definition body_wire (x : rfc_body) : bytes := match x with BNone => [] | BSized b => b | BChunked c => chunked_text c end.
Definition body_meant (x : rfc_body) : bytes := match x with BNone => [] | BSized b => b | BChunked c => concat (chunked_data c) end.
(** Section 6.3: Transfer-Encoding overrides Content-Length; without both there
    is no body.  (In a request another final coding than chunked is an error.) *)
Inductive rfc_framed (fs : list (bytes * bytes)) : rfc_body -> Prop :=
| rf_chunked v c : te_of fs = Some v -> finally_chunked v -> chunked_ok c -> counted c -> rfc_framed fs (BChunked c)
| rf_length v b : te_of fs = None -> cl_of fs = Some v -> decimal v (blen b) -> rfc_framed fs (BSized b)
| rf_none : te_of fs = None -> cl_of fs = None -> rfc_framed fs BNone.
(** No name that opposes to one of these two names octets at distance 32 that
    are not the two cases of a letter (C15). *)
Definition unconfused_names (fs : list (bytes * bytes)) : Prop :=
  Forall (fun nv => clash_free (fst nv) (str "transfer-encoding") /\ clash_free (fst nv) (str "content-length")) fs.

(** What the crate asks of the body: the word chunked in small letters, no
    extensions and no trailer; a length below 2^63. *)
Definition body_readable (fs : list (bytes * bytes)) (x : rfc_body) : Prop :=
  match x with
  | BNone => True
  | BSized b => blen b < 2 ^ 63
  | BChunked c => (exists v, te_of fs = Some v /\ substring (str "chunked") v) /\ plain c
  end.

(** A whole request. *)
Record rfc_message := mkRfcMessage { rm_method : bytes; rm_target : bytes; rm_version : bytes; rm_lines : list line; rm_body : rfc_body }.
Definition rm_fields (m : rfc_message) : list (bytes * bytes) := map line_field (rm_lines m).
Definition message_ok (m : rfc_message) : Prop :=
  rfc_request (rm_method m) (rm_target m) (rm_version m) (rm_lines m) /\ rfc_framed (rm_fields m) (rm_body m) /\ unconfused_names (rm_fields m).
Definition message_text (m : rfc_message) : bytes :=
  rfc_request_text (rm_method m) (rm_target m) (rm_version m) (rm_lines m) ++ body_wire (rm_body m).
(** What the crate asks of a whole request (the first part is that of C108). *)
Definition head_readable (m : rfc_message) : Prop :=
  (exists k s u, In (k, s) method_names /\ rm_method m = str s /\ wire_url k (rm_target m) (rm_fields m) u) /\
  (rm_version m = str "HTTP/1.0" \/ rm_version m = str "HTTP/1.1") /\ Forall plain_line (rm_lines m) /\ distinct_names (rm_fields m).
Definition message_readable (m : rfc_message) : Prop := head_readable m /\ body_readable (rm_fields m) (rm_body m).
(** The receiver gets the request that is meant. *)
Definition received_as (m : rfc_message) (q : request) : Prop :=
  method_str (q_method q) = rm_method m /\ version_str (q_version q) = rm_version m /\ q_header q = rm_fields m.
