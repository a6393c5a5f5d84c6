(** C137: what can stop a receiver (a panic or a loop without end), on whole connections. *)
From Coq Require Import Ascii String NArith ZArith Lia Bool List ZifyBool ZifyNat ZifyN.
From Verif Require Import Base P_Base M_Std M_Helper M_Header M_Url M_Http1 S_Http1 S_Http1Api S_Map S_Hex S_Stream P_Stream S_Reject M_Ws S_Ws S_WsApi S_WsTalk M_Hpack S_Hpack S_HpackApi S_HpackAll
  M_Frame M_H2 S_Frame S_H2Api S_Build S_Refuse S_Packets P_Packets S_Net P_Net S_Crash P_Crash.
Import ListNotations.
Local Open Scope N_scope.

(** A receiver of requests panics, in whichever packets the octets arrive, exactly if after some delivered requests comes a request
    whose head is good and whose body is one of the two kinds of [body_crash]. It never loops without end. *)
Theorem C137_requests : forall ps, bytes_ok (concat ps) ->
  ((exists got, feed request_step (Open tt []) ps = (got, Closed Panic)) <->
   exists got r q n, delivers request_step tt (concat ps) got tt r /\ parse_request r = Ok (q, n) /\ body_crash (q_header q) (skipn (N.to_nat n) r)) /\
  ~ exists got, feed request_step (Open tt []) ps = (got, Closed Diverge).
Proof.
  intros ps B. pose proof (message_steady parse_request q_header request_head) as ST. split.
  - rewrite (fed_iff request_step ST tt ps Panic B). split.
    + intros (got & [] & r & D & K). apply (message_panic parse_request q_header tt r request_total) in K as (q & n & P & C). exists got, r, q, n. auto.
    + intros (got & r & q & n & D & P & C). exists got, tt, r. split; [exact D|]. apply (message_panic parse_request q_header tt r request_total). exists q, n. auto.
  - rewrite (fed_iff request_step ST tt ps Diverge B). intros (got & [] & r & D & K). exact (proj2 (message_panic parse_request q_header tt r request_total) K).
Qed.
Print Assumptions C137_requests.
Theorem C137_responses : forall ps, bytes_ok (concat ps) ->
  ((exists got, feed response_step (Open tt []) ps = (got, Closed Panic)) <->
   exists got r p n, delivers response_step tt (concat ps) got tt r /\ parse_response r = Ok (p, n) /\ body_crash (p_header p) (skipn (N.to_nat n) r)) /\
  ~ exists got, feed response_step (Open tt []) ps = (got, Closed Diverge).
Proof.
  intros ps B. pose proof (message_steady parse_response p_header response_head) as ST. split.
  - rewrite (fed_iff response_step ST tt ps Panic B). split.
    + intros (got & [] & r & D & K). apply (message_panic parse_response p_header tt r response_total) in K as (q & n & P & C). exists got, r, q, n. auto.
    + intros (got & r & q & n & D & P & C). exists got, tt, r. split; [exact D|]. apply (message_panic parse_response p_header tt r response_total). exists q, n. auto.
  - rewrite (fed_iff response_step ST tt ps Diverge B). intros (got & [] & r & D & K). exact (proj2 (message_panic parse_response p_header tt r response_total) K).
Qed.
Print Assumptions C137_responses.
(** No octets stop a receiver of WebSocket frames or messages. *)
Theorem C137_websocket : forall limit ps, bytes_ok (concat ps) ->
  (forall got e, feed (frame_step limit) (Open tt []) ps = (got, Closed e) -> e <> Panic /\ e <> Diverge) /\
  (forall got e, feed (talk_step limit) (Open [] []) ps = (got, Closed e) -> e <> Panic /\ e <> Diverge).
Proof.
  intros limit ps B. split; intros got e F.
  - destruct (proj1 (fed_iff (frame_step limit) (frame_steady limit) tt ps e B) (ex_intro _ got F)) as (g & s & r & D & K). destruct (frame_calm limit s r). split; congruence.
  - destruct (proj1 (fed_iff (talk_step limit) (talk_steady limit) [] ps e B) (ex_intro _ got F)) as (g & s & r & D & K). destruct (talk_calm limit s r). split; congruence.
Qed.
Print Assumptions C137_websocket.
(** An HTTP/2 receiver whose decoder has any history panics exactly if after some delivered frames comes a DATA frame on stream 0,
    and loops without end exactly if the next frame is a HEADERS frame with a block that hangs at that state of the table. *)
Theorem C137_http2 : forall L t ps, decoder_reach t -> bytes_ok (concat ps) ->
  ((exists got, feed (h2_step L) (Open t []) ps = (got, Closed Panic)) <->
   exists got t' r, delivers (h2_step L) t (concat ps) got t' r /\ crashes r) /\
  ((exists got, feed (h2_step L) (Open t []) ps = (got, Closed Diverge)) <->
   exists got t' r, delivers (h2_step L) t (concat ps) got t' r /\ hangs t' r).
Proof.
  intros L t ps R B.
  assert (K : forall e (P : hindex -> bytes -> Prop), (forall t' r, decoder_reach t' -> bytes_ok r -> (h2_step L t' r = Stop e <-> P t' r)) ->
    (exists got, feed (h2_step L) (Open t []) ps = (got, Closed e)) <-> exists got t' r, delivers (h2_step L) t (concat ps) got t' r /\ P t' r).
  { intros e P H. rewrite (fed_iff (h2_step L) (h2_steady L) t ps e B). split; intros (got & t' & r & D & K); exists got, t', r; (split; [exact D|]);
      apply (H t' r (h2_reached L t _ _ _ _ D R) (delivers_bytes (h2_step L) (h2_steady L) _ _ _ _ _ D B)); exact K. }
  split; [apply (K Panic (fun _ r => crashes r))|apply (K Diverge hangs)]; intros t' r R' B'; apply h2_panic; assumption.
Qed.
Print Assumptions C137_http2.

(** ** Concrete cases: after a good request, one with content-length 9223372036854775808; one whose second chunk has size ffffffffffffffff;
    each in packets. A good PING, then DATA on stream 0; a HEADERS frame whose block ends in an update of the table to size 0. *)
Definition crlf2 : bytes := [13; 10; 13; 10].
Example C137_length : exists a, feed request_step (Open tt []) [str "GET /a HTTP/1.1" ++ crlf2 ++ str "GET"; str " /b HTTP/1.1" ++ [13; 10] ++ str "Content-Length: 9223372036854775808" ++ crlf2]
  = ([a], Closed Panic).
Proof. eexists. vm_compute. reflexivity. Qed.
Example C137_chunk : feed response_step (Open tt []) [str "HTTP/1.1 200 OK" ++ [13; 10] ++ str "Transfer-Encoding: chunked" ++ crlf2; str "3" ++ [13; 10] ++ str "abc" ++ [13; 10]; str "ffffffffffffffff" ++ [13; 10]]
  = ([], Closed Panic).
Proof. vm_compute. reflexivity. Qed.
Example C137_data : exists a, feed (h2_step 16384) (Open hi_new []) [[0; 0; 8; 6]; [0; 0; 0; 0; 0; 1; 2; 3]; [4; 5; 6; 7; 8; 0; 0]; [1; 0; 0; 0; 0; 0; 0; 7; 1]] = ([a], Closed Panic).
Proof. eexists. vm_compute. reflexivity. Qed.
Example C137_hang : feed (h2_step 16384) (Open hi_new []) [[0; 0; 2; 1; 4; 0; 0]; [0; 1; 130]; [32]] = ([], Closed Diverge).
Proof. vm_compute. reflexivity. Qed.
