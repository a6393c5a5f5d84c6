(** C139: every octet that arrives belongs to one message, and each message is what its own octets say. *)
From Coq Require Import Ascii String NArith ZArith Lia Bool List ZifyBool ZifyNat ZifyN.
From Verif Require Import Base P_Base M_Std M_Helper M_Header M_Url M_Http1 S_Http1 S_Http1Api S_Stream M_Ws S_Ws S_WsApi S_WsTalk M_Hpack M_Frame M_H2 S_H2Api S_Packets P_Packets S_Net P_Net S_Own P_Own.
Import ListNotations.
Local Open Scope N_scope.

(** The items delivered and the octets kept are exactly a division of what arrived, in order, into texts each of which alone, given to the reader,
    gives its item and leaves nothing, and a rest on which the reader waits. *)
Theorem C139_requests : forall ps got kept, bytes_ok (concat ps) ->
  (feed request_step (Open tt []) ps = (got, Open tt kept) <-> exists ws, concat ps = concat ws ++ kept /\ cut request_step tt ws got tt /\ request_step tt kept = Wait).
Proof. intros ps got kept B. apply (own_open request_step (message_steady _ _ request_head) request_enough); exact B. Qed.
Print Assumptions C139_requests.
Theorem C139_responses : forall ps got kept, bytes_ok (concat ps) ->
  (feed response_step (Open tt []) ps = (got, Open tt kept) <-> exists ws, concat ps = concat ws ++ kept /\ cut response_step tt ws got tt /\ response_step tt kept = Wait).
Proof. intros ps got kept B. apply (own_open response_step (message_steady _ _ response_head) response_enough); exact B. Qed.
Print Assumptions C139_responses.
Theorem C139_frames : forall limit ps got kept, bytes_ok (concat ps) ->
  (feed (frame_step limit) (Open tt []) ps = (got, Open tt kept) <-> exists ws, concat ps = concat ws ++ kept /\ cut (frame_step limit) tt ws got tt /\ frame_step limit tt kept = Wait).
Proof. intros limit ps got kept B. apply (own_open (frame_step limit) (frame_steady limit) (frame_enough limit)); exact B. Qed.
Print Assumptions C139_frames.
Theorem C139_messages : forall limit ps got pending kept, bytes_ok (concat ps) ->
  (feed (talk_step limit) (Open [] []) ps = (got, Open pending kept) <->
   exists ws, concat ps = concat ws ++ kept /\ cut (talk_step limit) [] ws got pending /\ talk_step limit pending kept = Wait).
Proof. intros limit ps got pending kept B. apply (own_open (talk_step limit) (talk_steady limit) (talk_enough limit)); exact B. Qed.
Print Assumptions C139_messages.
Theorem C139_http2 : forall L t ps got t' kept, bytes_ok (concat ps) ->
  (feed (h2_step L) (Open t []) ps = (got, Open t' kept) <-> exists ws, concat ps = concat ws ++ kept /\ cut (h2_step L) t ws got t' /\ h2_step L t' kept = Wait).
Proof. intros L t ps got t' kept B. apply (own_open (h2_step L) (h2_steady L) (h2_enough L)); exact B. Qed.
Print Assumptions C139_http2.
(** The same when the connection is closed, with a rest that is refused. *)
Theorem C139_closed : forall ps e, bytes_ok (concat ps) ->
  (forall got, feed request_step (Open tt []) ps = (got, Closed e) <-> exists ws s r, concat ps = concat ws ++ r /\ cut request_step tt ws got s /\ request_step s r = Stop e) /\
  (forall got, feed response_step (Open tt []) ps = (got, Closed e) <-> exists ws s r, concat ps = concat ws ++ r /\ cut response_step tt ws got s /\ response_step s r = Stop e) /\
  (forall limit got, feed (frame_step limit) (Open tt []) ps = (got, Closed e) <-> exists ws s r, concat ps = concat ws ++ r /\ cut (frame_step limit) tt ws got s /\ frame_step limit s r = Stop e) /\
  (forall L t got, feed (h2_step L) (Open t []) ps = (got, Closed e) <-> exists ws s r, concat ps = concat ws ++ r /\ cut (h2_step L) t ws got s /\ h2_step L s r = Stop e).
Proof.
  intros ps e B. split; [|split; [|split]]; intros.
  - apply (own_closed request_step (message_steady _ _ request_head) request_enough); exact B.
  - apply (own_closed response_step (message_steady _ _ response_head) response_enough); exact B.
  - apply (own_closed (frame_step limit) (frame_steady limit) (frame_enough limit)); exact B.
  - apply (own_closed (h2_step L) (h2_steady L) (h2_enough L)); exact B.
Qed.
Print Assumptions C139_closed.
(** There is one such division only: no octets can be read as the same number of messages in two ways. *)
Theorem C139_unique : forall l r r2 ws ws2, bytes_ok l -> l = concat ws ++ r -> l = concat ws2 ++ r2 -> length ws = length ws2 ->
  (forall got got2, cut request_step tt ws got tt -> cut request_step tt ws2 got2 tt -> ws = ws2 /\ got = got2 /\ r = r2) /\
  (forall got got2, cut response_step tt ws got tt -> cut response_step tt ws2 got2 tt -> ws = ws2 /\ got = got2 /\ r = r2) /\
  (forall limit got got2, cut (frame_step limit) tt ws got tt -> cut (frame_step limit) tt ws2 got2 tt -> ws = ws2 /\ got = got2 /\ r = r2) /\
  (forall L t got got2 t1 t2, cut (h2_step L) t ws got t1 -> cut (h2_step L) t ws2 got2 t2 -> ws = ws2 /\ got = got2 /\ t1 = t2 /\ r = r2).
Proof.
  intros l r r2 ws ws2 B E E2 Len. rewrite E in B, E2. split; [|split; [|split]].
  - intros got got2 C C2. destruct (cut_one request_step (message_steady _ _ request_head) _ _ _ _ C _ _ _ _ _ C2 B E2 Len) as (? & ? & _ & ?). auto.
  - intros got got2 C C2. destruct (cut_one response_step (message_steady _ _ response_head) _ _ _ _ C _ _ _ _ _ C2 B E2 Len) as (? & ? & _ & ?). auto.
  - intros limit got got2 C C2. destruct (cut_one (frame_step limit) (frame_steady limit) _ _ _ _ C _ _ _ _ _ C2 B E2 Len) as (? & ? & _ & ?). auto.
  - intros L t got got2 t1 t2 C C2. destruct (cut_one (h2_step L) (h2_steady L) _ _ _ _ C _ _ _ _ _ C2 B E2 Len) as (? & ? & ? & ?). auto.
Qed.
Print Assumptions C139_unique.

(** ** A request with a body and one without; two frames of HTTP/2. *)
Definition with_body : bytes := str "POST /a HTTP/1.1" ++ [13; 10] ++ str "Content-Length: 3" ++ [13; 10; 13; 10] ++ str "GET".
Definition without_body : bytes := str "GET /b HTTP/1.1" ++ [13; 10; 13; 10].
Example C139_two : exists a b, cut request_step tt [with_body; without_body] [a; b] tt /\ snd a = str "GET" /\ snd b = [].
Proof. eexists _, _. split; [eapply cut_more; [vm_compute; reflexivity|eapply cut_more; [vm_compute; reflexivity|constructor]]|split; reflexivity]. Qed.
Example C139_table : exists a b t, cut (h2_step 16384) hi_new [[0; 0; 4; 1; 4; 0; 0; 0; 1; 64; 1; 97; 0]; [0; 0; 1; 1; 4; 0; 0; 0; 3; 190]] [a; b] t /\ t <> hi_new.
Proof. eexists _, _, _. split; [eapply cut_more; [vm_compute; reflexivity|eapply cut_more; [vm_compute; reflexivity|constructor]]|discriminate]. Qed.
