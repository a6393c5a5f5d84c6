(** C135: what one side sends is what the other side receives, over a network that divides it into packets and may fail. *)
From Coq Require Import Ascii String NArith ZArith Lia Bool List ZifyBool ZifyNat ZifyN.
From Verif Require Import Base P_Base S_Utf8 M_Std M_Helper M_Header M_Url M_Http1 M_Hpack M_Frame M_H2 M_Build S_Http1 S_Http1Api S_Map S_Hex S_Url S_Hpack S_HpackApi
  S_Frame S_H2Api S_Build S_Stream S_Session P_Stream P_Session M_Ws S_Ws S_WsApi S_WsTalk P_Ws P_WsTalk T_Stream S_Packets P_Packets S_Net P_Net.
Import ListNotations.
Local Open Scope N_scope.

(** HTTP/1: requests and responses with their bodies, on a persistent connection. *)
Theorem C135_requests : forall ms, Forall request_ok ms ->
  exists w got, send_all send_request ms = Ok w /\ Forall2 same_request ms got /\ (bytes_ok w -> carries request_step tt w got tt).
Proof.
  intros ms F. destruct (C81_requests ms F) as (w & got & E & V & R & _). exists w, got. split; [exact E|]. split; [exact V|]. intros B.
  apply (net request_step (message_steady _ _ request_head)); [exact B|]. apply (message_all _ _ request_head (length ms)); [exact B|].
  pose proof (R []) as K. rewrite app_nil_r in K. exact K.
Qed.
Print Assumptions C135_requests.
Theorem C135_responses : forall ms, Forall response_ok ms ->
  exists w got, send_all send_response ms = Ok w /\ Forall2 same_response ms got /\ (bytes_ok w -> carries response_step tt w got tt).
Proof.
  intros ms F. destruct (C81_responses ms F) as (w & got & E & V & R & _). exists w, got. split; [exact E|]. split; [exact V|]. intros B.
  apply (net response_step (message_steady _ _ response_head)); [exact B|]. apply (message_all _ _ response_head (length ms)); [exact B|].
  pose proof (R []) as K. rewrite app_nil_r in K. exact K.
Qed.
Print Assumptions C135_responses.
(** HTTP/2: items on any streams, with encoder and decoder in step before and after. *)
Theorem C135_http2 : forall max L l te td more, 0 < max < 16777216 -> Forall (item_legal max L) l ->
  connection te td (concat (map item_fields l) ++ more) ->
  exists te' td' w got, h2_send max te l = Ok (te', w) /\ Forall2 item_seen l got /\ connection te' td' more /\
    (bytes_ok w -> carries (h2_step L) td w (concat got) td').
Proof.
  intros max L l te td more M G C. destruct (C82_session max L l te td more M G C) as (te' & td' & w & got & E & V & R & C').
  exists te', td', w, got. split; [exact E|]. split; [exact V|]. split; [exact C'|]. intros B. apply (net (h2_step L) (h2_steady L)); [exact B|].
  pose proof (R []) as K. rewrite app_nil_r in K. exact (reads_all _ _ _ _ _ _ K B eq_refl).
Qed.
Print Assumptions C135_http2.
(** WebSocket: messages in fragments, masked with any keys or not, within the limit of the receiver if it has one. *)
Theorem C135_websocket : forall limit ds keys ms, talk None ds ms -> Forall frame_ok ds -> length keys = length ds ->
  match limit with Some n => Forall (fun d => blen (d_data d) <= n) ds | None => True end ->
  exists w, write_frames (combine ds keys) = Ok w /\ (bytes_ok w -> exists got, concat got = ms /\ carries (talk_step limit) [] w got []).
Proof.
  intros limit ds keys ms T F K Lm. destruct (frames_roundtrip (combine ds keys) []) as (w & W & R).
  { apply Forall_forall. intros [d k] I. cbn [fst]. apply in_combine_l in I. rewrite Forall_forall in F. exact (F d I). }
  rewrite app_nil_r in R. replace (map fst (combine ds keys)) with ds in R by (clear -K; revert keys K; induction ds as [|d ds IH]; intros [|k keys] K; cbn in *; [reflexivity|lia|lia|f_equal; apply IH; lia]).
  exists w. split; [exact W|]. intros B. destruct (talk_all limit _ w ds [] ms [] B Lm R (talk_receive ds None ms [] T eq_refl)) as (got & A & C).
  exists got. split; [exact C|]. apply (net (talk_step limit) (talk_steady limit)); assumption.
Qed.
Print Assumptions C135_websocket.
(** On any octets at all the messages of a WebSocket connection do not depend on the packets either. *)
Theorem C135_talk : forall limit ps qs, bytes_ok (concat ps) -> concat ps = concat qs ->
  feed (talk_step limit) (Open [] []) ps = feed (talk_step limit) (Open [] []) qs.
Proof. intros limit ps qs. apply packets_any, talk_steady. Qed.
Print Assumptions C135_talk.

(** The samples of C81-C83 are octets when written, so they are carried; cut after 100 octets, two requests were delivered. *)
Definition octetsb (l : bytes) : bool := forallb (fun b => b <? 256) l.
Lemma octetsb_ok l : octetsb l = true -> bytes_ok l.
Proof. intros H. apply Forall_forall. intros b I. unfold octetsb in H. rewrite forallb_forall in H. apply N.ltb_lt, H, I. Qed.
Example C135_sample_requests : exists w got, send_all send_request [sample_get; sample_post; sample_chunked] = Ok w /\ length got = 3%nat /\ carries request_step tt w got tt /\
  length (fst (feed request_step (Open tt []) [firstn 10 w; firstn 90 (skipn 10 w)])) = 2%nat.
Proof.
  destruct (C135_requests _ (proj1 C81_nonvacuous)) as (w & got & E & V & C). exists w, got. split; [exact E|]. split; [clear -V; inversion V as [|? ? ? ? _ V1]; subst; inversion V1 as [|? ? ? ? _ V2]; subst; inversion V2 as [|? ? ? ? _ V3]; subst; inversion V3; subst; reflexivity|].
  vm_compute in E. injection E as <-. split; [apply C, octetsb_ok; vm_compute; reflexivity|vm_compute; reflexivity].
Qed.
Example C135_sample_session : exists te' td' w got, h2_send 16384 hi_new sample_session = Ok (te', w) /\ carries (h2_step 4096) hi_new w got td' /\
  stream_octets 1 got = str "abcdef" /\ stream_ended 1 got = true.
Proof.
  destruct C82_nonvacuous as (G & C & _ & O & D). destruct (C135_http2 16384 4096 _ _ _ _ ltac:(lia) G C) as (te' & td' & w & got & E & V & _ & K).
  exists te', td', w, (concat got). split; [exact E|]. vm_compute in E. injection E as _ <-. split; [apply K, octetsb_ok; vm_compute; reflexivity|].
  destruct (C82_streams _ _ 1 V) as [S1 S2]. rewrite S1, S2. auto.
Qed.
Example C135_sample_talk : exists w got, write_frames (combine sample_talk (repeat (Some (1, 2, 3, 4)) 6)) = Ok w /\ carries (talk_step (Some 5)) [] w got [] /\
  concat got = [OwPing (str "p"); OwClose (Some {| cd_code := 1000; cd_reason := str "b" |}); OwText (str "hello"); OwBinary [255]].
Proof.
  destruct C83_nonvacuous as [T F]. destruct (C135_websocket (Some 5) _ (repeat (Some (1, 2, 3, 4)) 6) _ T F eq_refl) as (w & E & K).
  { unfold sample_talk. repeat apply Forall_cons; try apply Forall_nil; vm_compute; discriminate. }
  vm_compute in E. injection E as <-. destruct K as (got & C & K); [apply octetsb_ok; vm_compute; reflexivity|]. eexists. exists got. split; [vm_compute; reflexivity|]. auto.
Qed.
