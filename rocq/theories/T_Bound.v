(** C106: how many octets the readers make of the octets that they are given. *)
From Coq Require Import Ascii String NArith ZArith Lia Bool List.
From Verif Require Import Base M_Std M_Helper M_Header M_Url M_Http1 M_Huffman M_Hpack S_HpackApi M_Ws S_WsApi M_Frame S_Frame M_H2 S_H2Api S_Bound P_Bound.
Import ListNotations.
Local Open Scope N_scope.

(** Eight octets out of five, and texts with replacement characters at most three times as long. *)
Theorem C106_huffman : forall c s, huff_decode c = Ok s -> 5 * blen s <= 8 * blen c.
Proof. exact huff_bound. Qed.
Print Assumptions C106_huffman.
Theorem C106_huffman_reached : forall k, exists c s, huff_decode c = Ok s /\ blen c = 5 * N.of_nat k /\ 5 * blen s = 8 * blen c.
Proof.
  intros k. exists (repeat 0 (5 * k)), (repeat 48 (8 * k)). split; [apply huff_zeros|]. unfold blen. rewrite !repeat_length. lia.
Qed.
Print Assumptions C106_huffman_reached.
Theorem C106_lossy : forall l, blen (utf8_lossy l) <= 3 * blen l.
Proof. exact utf8_bound. Qed.
Print Assumptions C106_lossy.
Theorem C106_lossy_reached : forall n, blen (utf8_lossy (repeat 255 n)) = 3 * N.of_nat n.
Proof.
  intros n. rewrite utf8_lossy_ff. induction n as [|n IH]; [reflexivity|]. cbn [repeat concat]. unfold blen in *. rewrite app_length. cbn [length]. lia.
Qed.
Print Assumptions C106_lossy_reached.

(** Header blocks: at most one field per octet, and for every octet at most the largest field that a table can hold. *)
Theorem C106_fields : forall t l t' fs, decoder_reach t -> bytes_ok l -> decode_headers t l = (t', Ok fs) ->
  N.of_nat (length fs) <= blen l /\ list_octets fs <= blen l * field_max (hi_max t).
Proof. exact decode_bound. Qed.
Print Assumptions C106_fields.
(** With the usual table of 4096 octets each octet after the first 4069 is worth 4064. *)
Theorem C106_fields_reached : forall n, exists t' fs, decode_headers hi_new (blow_up n) = (t', Ok fs) /\
  blen (blow_up n) = 4069 + N.of_nat n /\ N.of_nat (length fs) = N.of_nat n + 1 /\ list_octets fs = 4064 * (N.of_nat n + 1).
Proof.
  intros n. exists (mkIdx [large] 4096 4096), (repeat large (S n)). split; [apply blow_up_decoded|]. destruct (blow_up_octets n) as [A B].
  split; [exact A|]. split; [rewrite repeat_length; lia|exact B].
Qed.
Print Assumptions C106_fields_reached.
(** A limit on header lists does not bound what is made: the list is complete before the limit refuses it. *)
Theorem C106_limit_refuted : forall L h, is_priority (hf_flags h) = false -> exists n t' fs hf e,
  decode_headers hi_new (blow_up n) = (t', Ok fs) /\ headers_parse hi_new h (blow_up n) L = (t', hf, Err e) /\ L < list_octets fs.
Proof.
  intros L h P. exists (N.to_nat L), (mkIdx [large] 4096 4096), (repeat large (S (N.to_nat L))). destruct (blow_up_octets (N.to_nat L)) as [_ B].
  destruct (blow_up_refused h (N.to_nat L) L P) as (hf & E); [lia|]. exists hf, (EHttp2 (DecoderErr HeaderIndexOutOfBounds)).
  split; [apply blow_up_decoded|]. split; [exact E|]. rewrite B. lia.
Qed.
Print Assumptions C106_limit_refuted.
(** What is kept of an accepted frame: no more than its octets, and for a header list three times the limit. *)
Theorem C106_frame : forall t L l t' f rest, decoder_reach t -> bytes_ok l -> recv t L l = (t', Ok (f, rest)) ->
  kept f + 9 + blen rest <= blen l /\ forall h, f = FHeaders h -> headers_octets h <= 3 * L.
Proof. exact frame_bound. Qed.
Print Assumptions C106_frame.

(** URLs are never longer than their text. *)
Theorem C106_url : forall l u, bytes_ok l -> url_parse l = Ok u -> url_octets u <= blen l.
Proof. exact url_parse_bound. Qed.
Print Assumptions C106_url.
(** HTTP/1: header fields are no longer than the head, with three octets less for each field; the URL may take its host
    from a header. *)
Theorem C106_request : forall q l q' n, bytes_ok l -> req_parse q l = (q', Ok n) ->
  list_octets (q_header q') + 3 * N.of_nat (length (q_header q')) + 14 <= n /\ url_octets (q_url q') <= 3 * n + 64 /\ n <= blen l.
Proof. exact request_bound. Qed.
Print Assumptions C106_request.
Theorem C106_response : forall p l p' n, bytes_ok l -> resp_parse p l = (p', Ok n) ->
  list_octets (p_header p') + 3 * N.of_nat (length (p_header p')) + 14 <= n /\ n <= blen l.
Proof. exact response_bound. Qed.
Print Assumptions C106_response.
(** A chunk is only reported when all of it is there. *)
Theorem C106_chunk : forall l off n, parse_chunk_data l = Ok (off, n) -> off + n + 2 <= blen l.
Proof. exact chunk_bound. Qed.
Print Assumptions C106_chunk.
(** WebSocket: payloads are no longer than what was read, messages no longer than the payloads. *)
Theorem C106_ws : forall l d r, bytes_ok l -> read_dataframe l = Ok (d, r) -> blen (d_data d) + 2 + blen r <= blen l.
Proof. exact ws_bound. Qed.
Print Assumptions C106_ws.
Theorem C106_message : forall frames m, msg_from_dataframes frames = Ok m ->
  blen (m_payload m) <= fold_right (fun d n => blen (df_take d) + n) 0 frames.
Proof. exact message_bound. Qed.
Print Assumptions C106_message.

(** The bounds of HTTP/1, WebSocket and chunks are reached; a URL longer than its request; the static table. *)
Example C106_reached :
  (exists q', req_parse req_default (str "GET / HTTP/2" ++ [10; 97; 58; 98; 13; 10; 10]) = (q', Ok 19) /\ q_header q' = [(str "a", str "b")]) /\
  (exists p', resp_parse resp_default (str "HTTP/2 200 O" ++ [10; 10]) = (p', Ok 14) /\ p_header p' = []) /\
  (exists d, read_dataframe [130; 3; 7; 8; 9; 1] = Ok (d, [1]) /\ d_data d = [7; 8; 9]) /\
  parse_chunk_data ([50; 10] ++ str "ab" ++ [13; 10]) = Ok (2, 2) /\
  (exists u, url_parse (str "/a%20b?c") = Ok u /\ url_octets u = 5) /\
  (exists q', req_parse req_default (str "GET / HTTP/2" ++ [10] ++ str "host:" ++ repeat 255 9 ++ [13; 10; 10]) = (q', Ok 30) /\ url_octets (q_url q') = 32) /\
  snd (decode_headers hi_new [144]) = Ok [(str "accept-encoding", str "gzip, deflate")] /\ field_octets (str "accept-encoding", str "gzip, deflate") = 28 /\
  field_max 4096 = 4064.
Proof.
  repeat match goal with |- _ /\ _ => split end; try (vm_compute; reflexivity).
  1, 2, 3, 4, 5 : eexists; split; vm_compute; reflexivity.
Qed.
(** A header frame, and the limit of [C106_frame] in force. *)
Example C106_frames : exists t' f, recv hi_new 42 (frame_octets 1 4 1 [130] ++ [9]) = (t', Ok (FHeaders f, [9])) /\ headers_octets f = 0 /\
  (exists e, snd (recv hi_new 41 (frame_octets 1 4 1 [130] ++ [9])) = Err e) /\
  (exists t2 f2, recv hi_new 42 (frame_octets 0 0 1 [1; 2; 3] ++ [9]) = (t2, Ok (f2, [9])) /\ kept f2 = 3).
Proof. do 2 eexists. split; [vm_compute; reflexivity|]. split; [vm_compute; reflexivity|]. split; [eexists; vm_compute; reflexivity|]. do 2 eexists. split; vm_compute; reflexivity. Qed.
