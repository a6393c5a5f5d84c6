(** Where the responses of RFC 9112 end (section 6.3; C114). *)
From Coq Require Import Ascii String NArith ZArith Bool List.
From Verif Require Import Base M_Std M_Header M_Url M_Http1 S_Map S_Hex S_Http1 S_Http1Api S_Url S_Build S_Stream S_Rfc9112 S_RfcBody S_RfcMessage.
Import ListNotations.
Local Open Scope N_scope.

(** Responses without a body: to HEAD, with the codes 1xx, 204 and 304, and
    successful ones to CONNECT. *)
Definition bodiless (k : method) (code : N) : Prop :=
  k = MHead \/ 100 <= code < 200 \/ code = 204 \/ code = 304 \/ (k = MConnect /\ 200 <= code < 300).
(** Bodies; the last ends with the connection. *)
Inductive reply_body := RNone | RSized (b : bytes) | RChunked (c : chunked) | RClose (b : bytes).
Definition reply_wire (x : reply_body) : bytes :=
  match x with RNone => [] | RSized b => b | RChunked c => chunked_text c | RClose b => b end.
Definition reply_meant (x : reply_body) : bytes :=
  match x with RNone => [] | RSized b => b | RChunked c => concat (chunked_data c) | RClose b => b end.
(** What may follow. *)
Definition follows (x : reply_body) (rest : bytes) : Prop := match x with RClose _ => rest = [] | _ => True end.
(** The response to a request with the method [k]. *)
Inductive reply_framed (k : method) (code : N) (fs : list (bytes * bytes)) : reply_body -> Prop :=
| pf_none : bodiless k code -> reply_framed k code fs RNone
| pf_chunked v c : ~ bodiless k code -> te_of fs = Some v -> finally_chunked v -> chunked_ok c -> counted c -> reply_framed k code fs (RChunked c)
| pf_coded v b : ~ bodiless k code -> te_of fs = Some v -> ~ finally_chunked v -> reply_framed k code fs (RClose b)
| pf_length v b : ~ bodiless k code -> te_of fs = None -> cl_of fs = Some v -> decimal v (blen b) -> reply_framed k code fs (RSized b)
| pf_close b : ~ bodiless k code -> te_of fs = None -> cl_of fs = None -> reply_framed k code fs (RClose b).
(** A Content-Length is a numeral (below 2^63), even where it does not count. *)
Definition sane_length (fs : list (bytes * bytes)) : Prop := forall v, cl_of fs = Some v -> exists n, decimal v n /\ n < 2 ^ 63.
Definition length_of (fs : list (bytes * bytes)) : N := match cl_of fs with Some v => num_of v | None => 0 end.
(** The word chunked, in small letters, anywhere in the codings. *)
Definition chunk_word (fs : list (bytes * bytes)) : Prop := exists v, te_of fs = Some v /\ substring (str "chunked") v.

(** The receiver: res_nobody tells that there is no body, else it is taken as
    the fields say. *)
Definition reply_body_of (k : method) (h : headers) (l : bytes) : res (bytes * bytes) :=
  if res_nobody k then Ok ([], l) else read_body h l.
(** What the crate asks: HEAD, OPTIONS and CONNECT are taken to have no body in
    the response, whatever its code, and all others to have one. *)
Definition mute (k : method) : Prop := k = MHead \/ k = MOptions \/ k = MConnect.
Definition reply_readable (k : method) (fs : list (bytes * bytes)) (x : reply_body) : Prop :=
  match x with
  | RNone => mute k \/ (~ chunk_word fs /\ length_of fs = 0)
  | RSized b => mute k -> b = []
  | RChunked c => ~ mute k /\ chunk_word fs /\ plain c
  | RClose b => (mute k /\ b = []) \/ (~ mute k /\ ~ chunk_word fs /\ blen b = length_of fs)
  end.

(** A whole response, to a request with the method [rr_to]. *)
Record rfc_reply := mkRfcReply { rr_to : method; rr_version : bytes; rr_code : bytes; rr_reason : bytes; rr_lines : list line; rr_body : reply_body }.
Definition rr_fields (m : rfc_reply) : list (bytes * bytes) := map line_field (rr_lines m).
Definition reply_ok (m : rfc_reply) : Prop :=
  rfc_response (rr_version m) (rr_code m) (rr_reason m) (rr_lines m) /\ reply_framed (rr_to m) (num_of (rr_code m)) (rr_fields m) (rr_body m) /\
  unconfused_names (rr_fields m) /\ sane_length (rr_fields m).
Definition reply_text (m : rfc_reply) : bytes :=
  rfc_response_text (rr_version m) (rr_code m) (rr_reason m) (rr_lines m) ++ reply_wire (rr_body m).
(** What the crate asks of the head (C108) and of the body. *)
Definition answer_readable (m : rfc_reply) : Prop :=
  (rr_version m = str "HTTP/1.0" \/ rr_version m = str "HTTP/1.1") /\ hd_error (rr_code m) <> Some 48 /\
  (exists i x, rr_reason m = spaces i ++ x /\ reason_ok x) /\ Forall plain_line (rr_lines m) /\ distinct_names (rr_fields m) /\
  reply_readable (rr_to m) (rr_fields m) (rr_body m).
(** The client knows the methods of its requests. *)
Definition read_reply (k : method) (l : bytes) : res (response * bytes * bytes) :=
  ' (p, n) <- parse_response l ;;
  ' (b, r) <- reply_body_of k (p_header p) (skipn (N.to_nat n) l) ;;
  Ok (p, b, r).
Fixpoint read_replies (ks : list method) (l : bytes) : res (list (response * bytes) * bytes) :=
  match ks with
  | [] => Ok ([], l)
  | k :: ks =>
    ' (p, b, r) <- read_reply k l ;;
    ' (ms, r') <- read_replies ks r ;;
    Ok ((p, b) :: ms, r')
  end.
Definition answered_as (m : rfc_reply) (p : response) : Prop :=
  version_str (p_version p) = rr_version m /\ three_digits (p_status p) = rr_code m /\ p_header p = rr_fields m.
(** A body that ends with the connection is the last thing on it. *)
Fixpoint in_order (ms : list rfc_reply) (rest : bytes) : Prop :=
  match ms with
  | [] => True
  | m :: ms => follows (rr_body m) (concat (map reply_text ms) ++ rest) /\ in_order ms rest
  end.
