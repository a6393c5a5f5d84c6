(** HTTP/1 connections through intermediaries (C130). *)
From Coq Require Import Ascii String NArith ZArith Bool List.
From Verif Require Import Base M_Std M_Helper M_Header M_Url M_Http1 S_Http1 S_Http1Api S_Map S_Stream.
Import ListNotations.
Local Open Scope N_scope.

(** A relay has read the head and the content of a message, and sends them on with the framing that the header announces: chunked content
    in one chunk. *)
Definition form_again (h : headers) (b : bytes) : body_form :=
  if hm_is_chunked h then Chunked (match b with [] => [] | _ => [b] end) else Sized b.
Definition request_again (g : request * bytes) : request * body_form := (fst g, form_again (q_header (fst g)) (snd g)).
Definition response_again (g : response * bytes) : response * body_form := (fst g, form_again (p_header (fst g)) (snd g)).
(** One connection: all messages are written, and as many are read; nothing may be left over. *)
Definition over_requests (ms : list (request * body_form)) : res (list (request * bytes)) :=
  w <- send_all send_request ms ;; ' (got, r) <- read_messages parse_request q_header (length ms) w ;;
  match r with [] => Ok got | _ => partial end.
Definition over_responses (ms : list (response * body_form)) : res (list (response * bytes)) :=
  w <- send_all send_response ms ;; ' (got, r) <- read_messages parse_response p_header (length ms) w ;;
  match r with [] => Ok got | _ => partial end.
(** What the last receiver gets when there are [n] relays in between. *)
Fixpoint via_requests (n : nat) (ms : list (request * body_form)) : res (list (request * bytes)) :=
  got <- over_requests ms ;; match n with O => Ok got | S n' => via_requests n' (map request_again got) end.
Fixpoint via_responses (n : nat) (ms : list (response * body_form)) : res (list (response * bytes)) :=
  got <- over_responses ms ;; match n with O => Ok got | S n' => via_responses n' (map response_again got) end.
(** A path of visible characters that needs no escapes, no query and no tunnel. *)
Definition plain_target (m : request * body_form) : Prop := q_method (fst m) <> MConnect /\ plain_path (u_path (q_url (fst m))).
(** The content is not larger than a block can be. *)
Definition content_fits (f : body_form) : Prop := blen (body_content f) + 2 < 2 ^ 64.
