(** Connections that carry many messages (C81-C84): what a sender writes and how a receiver that uses the crate's
    parsers reads it. *)
From Coq Require Import Ascii String NArith ZArith Bool List.
From Verif Require Import Base M_Std M_Helper M_Header M_Url M_Http1 S_Http1 S_Http1Api S_Map.
Import ListNotations.
Local Open Scope N_scope.

(** ** HTTP/1: a body and its framing (RFC 9112 6) *)
Inductive body_form := Sized (b : bytes) | Chunked (cs : list bytes).
Definition body_content (f : body_form) : bytes := match f with Sized b => b | Chunked cs => concat cs end.
Definition body_octets (f : body_form) : bytes :=
  match f with
  | Sized b => b
  | Chunked cs => concat (map encode_chunk_data cs) ++ encode_chunk_data []
  end.
(** The header announces the framing. *)
Inductive framed (h : headers) : body_form -> Prop :=
| fr_none : hm_get h (str "transfer-encoding") = None -> hm_get h (str "content-length") = None -> framed h (Sized [])
| fr_length b v : hm_get h (str "transfer-encoding") = None -> hm_get h (str "content-length") = Some v ->
    decimal v (blen b) -> blen b < 2 ^ 63 -> framed h (Sized b)
| fr_chunked cs : hm_get h (str "transfer-encoding") = Some (str "chunked") ->
    Forall (fun d => d <> [] /\ blen d + 2 < 2 ^ 64) cs -> framed h (Chunked cs).

(** The receiver: parse the head, then take the body as the header says; Partial when octets are missing. *)
Definition read_body (h : headers) (l : bytes) : res (bytes * bytes) :=
  if hm_is_chunked h then ' (cs, r) <- read_chunks (S (length l)) l ;; Ok (concat cs, r)
  else
    n <- hm_body_len h ;;
    if (n <? 0)%Z then Err EInto
    else match take_N (Z.to_N n) l with Some (b, r) => Ok (b, r) | None => partial end.
Definition read_message {A} (parse : bytes -> res (A * N)) (header : A -> headers) (l : bytes) : res (A * bytes * bytes) :=
  ' (a, n) <- parse l ;;
  ' (b, r) <- read_body (header a) (skipn (N.to_nat n) l) ;;
  Ok (a, b, r).
Fixpoint read_messages {A} (parse : bytes -> res (A * N)) (header : A -> headers) (k : nat) (l : bytes) : res (list (A * bytes) * bytes) :=
  match k with
  | O => Ok ([], l)
  | S k' =>
    ' (a, b, r) <- read_message parse header l ;;
    ' (ms, r') <- read_messages parse header k' r ;;
    Ok ((a, b) :: ms, r')
  end.
Definition parse_request (l : bytes) : res (request * N) := let '(q, r) := req_parse req_default l in n <- r ;; Ok (q, n).
Definition parse_response (l : bytes) : res (response * N) := let '(p, r) := resp_parse resp_default l in n <- r ;; Ok (p, n).

(** The sender: every message with http1_data or httpdata, one after the other. *)
Fixpoint send_all {M} (write : M -> res bytes) (ms : list M) : res bytes :=
  match ms with
  | [] => Ok []
  | m :: ms' => w <- write m ;; w' <- send_all write ms' ;; Ok (w ++ w')
  end.
Definition send_request (m : request * body_form) : res bytes := req_http1_data (fst m) (body_octets (snd m)).
Definition send_response (m : response * body_form) : res bytes := resp_httpdata (fst m) (body_octets (snd m)).

(** Messages of a persistent connection. *)
Definition request_ok (m : request * body_form) : Prop :=
  let q := fst m in
  In (q_method q) known_methods /\ In (q_version q) known_versions /\ word (u_path (q_url q)) /\
  (exists u, wire_url (q_method q) (u_path (q_url q)) (q_header q) u) /\
  fields_ok (q_header q) /\ distinct_names (q_header q) /\ framed (q_header q) (snd m).
Definition response_ok (m : response * body_form) : Prop :=
  let p := fst m in
  In (p_version p) known_versions /\ (exists rs, canonical_reason (p_status p) = Some rs) /\
  fields_ok (p_header p) /\ distinct_names (p_header p) /\ framed (p_header p) (snd m).
(** What the receiver is to get. *)
Definition same_request (m : request * body_form) (g : request * bytes) : Prop :=
  q_method (fst g) = q_method (fst m) /\ q_version (fst g) = q_version (fst m) /\ q_header (fst g) = q_header (fst m) /\
  q_partial (fst g) = false /\ wire_url (q_method (fst m)) (u_path (q_url (fst m))) (q_header (fst m)) (q_url (fst g)) /\
  snd g = body_content (snd m).
Definition same_response (m : response * body_form) (g : response * bytes) : Prop :=
  fst g = mkResp (p_status (fst m)) (p_version (fst m)) (p_header (fst m)) false /\ snd g = body_content (snd m).
