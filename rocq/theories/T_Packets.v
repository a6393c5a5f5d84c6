(** C134: what is received does not depend on how the octets are divided into packets. *)
From Coq Require Import Ascii String NArith ZArith Lia Bool List ZifyBool ZifyNat ZifyN.
From Verif Require Import Base P_Base M_Header M_Url M_Http1 S_Http1 S_Http1Api S_Stream M_Ws M_Hpack S_Hpack S_HpackApi S_HpackAll M_Frame M_H2 S_H2Api S_Frame P_Frame S_Refuse T_Refuse S_Packets P_Packets.
Import ListNotations.
Local Open Scope N_scope.

(** The same octets in any packets: the same messages, or frames, are delivered, in the same order; the connection is closed with the same error
    (or panic) or stays open in the same state with the same octets kept. It is as if all octets had arrived at once. *)
Theorem C134_requests : forall ps qs, bytes_ok (concat ps) -> concat ps = concat qs ->
  feed request_step (Open tt []) ps = feed request_step (Open tt []) qs /\ feed request_step (Open tt []) ps = all request_step tt (concat ps).
Proof.
  intros ps qs B E. split; [apply packets_any; [apply message_steady, request_head|exact B|exact E]|].
  apply (feed_all request_step (message_steady _ _ request_head) ps tt []); [reflexivity|exact B].
Qed.
Print Assumptions C134_requests.
Theorem C134_responses : forall ps qs, bytes_ok (concat ps) -> concat ps = concat qs ->
  feed response_step (Open tt []) ps = feed response_step (Open tt []) qs /\ feed response_step (Open tt []) ps = all response_step tt (concat ps).
Proof.
  intros ps qs B E. split; [apply packets_any; [apply message_steady, response_head|exact B|exact E]|].
  apply (feed_all response_step (message_steady _ _ response_head) ps tt []); [reflexivity|exact B].
Qed.
Print Assumptions C134_responses.
Theorem C134_websocket : forall limit ps qs, bytes_ok (concat ps) -> concat ps = concat qs ->
  feed (frame_step limit) (Open tt []) ps = feed (frame_step limit) (Open tt []) qs /\ feed (frame_step limit) (Open tt []) ps = all (frame_step limit) tt (concat ps).
Proof.
  intros limit ps qs B E. split; [apply packets_any; [apply frame_steady|exact B|exact E]|].
  apply (feed_all (frame_step limit) (frame_steady limit) ps tt []); [destruct limit; reflexivity|exact B].
Qed.
Print Assumptions C134_websocket.
Theorem C134_http2 : forall L t ps qs, bytes_ok (concat ps) -> concat ps = concat qs ->
  feed (h2_step L) (Open t []) ps = feed (h2_step L) (Open t []) qs /\ feed (h2_step L) (Open t []) ps = all (h2_step L) t (concat ps).
Proof.
  intros L t ps qs B E. split; [apply packets_any; [apply h2_steady|exact B|exact E]|].
  apply (feed_all (h2_step L) (h2_steady L) ps t []); [reflexivity|exact B].
Qed.
Print Assumptions C134_http2.
(** For HTTP/2 the answer Short is the sign that a frame is not complete. *)
Theorem C134_short : forall L t l, decoder_reach t -> bytes_ok l -> (snd (recv t L l) = Err (EHttp2 Short) <-> complete_frame l = false).
Proof.
  intros L t l R B. rewrite (C102_short t L l R B). unfold complete_frame. split.
  - intros [S|(n & ty & fl & id & p & -> & Hn & Ht & Hi & D & S)]; [destruct (N.ltb_spec (blen l) 9); [reflexivity|lia]|].
    destruct (_ <? 9); [reflexivity|]. destruct D as (a & b & c & d & ->).
    rewrite fh_parse_octets by (try assumption; destruct a, b, c, d; reflexivity).
    replace (flag_new (flags_of a b c d)) with (Some (flags_of a b c d)) by (destruct a, b, c, d; reflexivity).
    cbn [fh_length]. destruct (take_N n p) as [[u v]|] eqn:T; [|reflexivity]. apply take_N_some in T as [E1 E2]. subst p. rewrite blen_app in S. lia.
  - intros C. apply (C102_short t L l R B). unfold recv. destruct (blen l <? 9) eqn:S.
    + unfold fh_parse. change FRAME_HEADER_BYTES with 9. rewrite S. reflexivity.
    + destruct (fh_parse l) as [[h r]| | |]; try discriminate. destruct (take_N (fh_length h) r); [discriminate|reflexivity].
Qed.
Print Assumptions C134_short.
(** What has been delivered is never taken back: it is the beginning of what is delivered when more packets have arrived. *)
Theorem C134_delivered : forall ps qs, bytes_ok (concat (ps ++ qs)) ->
  (exists more, fst (feed request_step (Open tt []) (ps ++ qs)) = fst (feed request_step (Open tt []) ps) ++ more) /\
  (exists more, fst (feed response_step (Open tt []) (ps ++ qs)) = fst (feed response_step (Open tt []) ps) ++ more) /\
  (forall limit, exists more, fst (feed (frame_step limit) (Open tt []) (ps ++ qs)) = fst (feed (frame_step limit) (Open tt []) ps) ++ more) /\
  (forall L t, exists more, fst (feed (h2_step L) (Open t []) (ps ++ qs)) = fst (feed (h2_step L) (Open t []) ps) ++ more).
Proof.
  intros ps qs B. split; [|split; [|split]].
  - apply feed_prefix; [apply message_steady, request_head|exact B].
  - apply feed_prefix; [apply message_steady, response_head|exact B].
  - intros limit. apply feed_prefix; [apply frame_steady|exact B].
  - intros L t. apply feed_prefix; [apply h2_steady|exact B].
Qed.
Print Assumptions C134_delivered.

(** Non-trivial cases: a request with a body of known length and one with chunks, octet by octet: two messages, and the beginning of a third is kept; *)
Definition two_requests : bytes :=
  str "POST /a HTTP/1.1" ++ [13; 10] ++ str "Host: x" ++ [13; 10] ++ str "Content-Length: 3" ++ [13; 10; 13; 10] ++ str "abc" ++
  str "POST /b HTTP/1.1" ++ [13; 10] ++ str "Host: x" ++ [13; 10] ++ str "Transfer-Encoding: chunked" ++ [13; 10; 13; 10] ++
  str "2" ++ [13; 10] ++ str "hi" ++ [13; 10] ++ str "0" ++ [13; 10; 13; 10] ++ str "GET /c".
Definition one_by_one (l : bytes) : list bytes := map (fun b => [b]) l.
Lemma one_by_one_concat l : concat (one_by_one l) = l. Proof. induction l as [|b l IH]; [reflexivity|]. cbn [one_by_one map concat app]. f_equal. exact IH. Qed.
Example C134_two : map snd (fst (feed request_step (Open tt []) (one_by_one two_requests))) = [str "abc"; str "hi"] /\
  snd (feed request_step (Open tt []) (one_by_one two_requests)) = Open tt (str "GET /c").
Proof.
  assert (B : bytes_ok (concat (one_by_one two_requests))).
  { rewrite one_by_one_concat. unfold two_requests. vm_compute (str _). cbn [app]. repeat (apply Forall_cons; [reflexivity|]). apply Forall_nil. }
  rewrite (proj2 (C134_requests (one_by_one two_requests) [two_requests] B ltac:(rewrite one_by_one_concat; cbn [concat]; now rewrite app_nil_r))).
  rewrite one_by_one_concat. split; vm_compute; reflexivity.
Qed.
(** a text frame and a ping in three packets, and an HTTP/2 PING cut within its header and within its payload; the next octets are not a frame. *)
Example C134_frames :
  map d_data (fst (feed (frame_step None) (Open tt []) [[129]; [2; 72]; [105; 137; 0; 130]])) = [str "Hi"; []] /\
  snd (feed (frame_step None) (Open tt []) [[129]; [2; 72]; [105; 137; 0; 130]]) = Open tt [130].
Proof. split; vm_compute; reflexivity. Qed.
Example C134_ping : length (fst (feed (h2_step 16384) (Open hi_new []) [[0; 0; 8; 6]; [0; 0; 0; 0; 0; 1; 2; 3]; [4; 5; 6; 7; 8; 0; 0]])) = 1%nat /\
  snd (feed (h2_step 16384) (Open hi_new []) [[0; 0; 8; 6]; [0; 0; 0; 0; 0; 1; 2; 3]; [4; 5; 6; 7; 8; 0; 0]]) = Open hi_new [0; 0].
Proof. split; vm_compute; reflexivity. Qed.
(** A line that is no request closes the connection as soon as it is seen to be none, and what was delivered before stays. *)
Example C134_closed : exists e, snd (feed request_step (Open tt []) [str "GET / HTTP/1.1"; [13; 10; 13]; [10; 1]; str "more"]) = Closed (Err e) /\
  length (fst (feed request_step (Open tt []) [str "GET / HTTP/1.1"; [13; 10; 13]; [10; 1]; str "more"])) = 1%nat.
Proof. eexists; split; vm_compute; reflexivity. Qed.
