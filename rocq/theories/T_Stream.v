(** C81-C83: whole connections. *)
From Coq Require Import Ascii String NArith ZArith Lia Bool List.
From Verif Require Import Base P_Base S_Utf8 M_Std M_Helper M_Header M_Url M_Http1 M_Hpack M_Frame M_H2 M_Build S_Http1 S_Http1Api S_Map S_Hex S_Url S_Hpack S_HpackApi
  S_Frame S_H2Api S_Build S_Stream S_Session
  P_Msg P_Map P_Url P_UrlForm P_HpackSync P_H2Req P_Build3 P_Build4 P_Stream T_Frame T_H2 P_Session M_Ws S_Ws S_WsApi S_WsTalk P_Ws P_WsTalk.
Import ListNotations.
Local Open Scope N_scope.

(** ** C81: persistent HTTP/1 connections.
    Any number of requests written one after the other, each with no body, with a Content-Length body or with a
    chunked body, are read back one by one, in order, each with its own body, and nothing of what follows is touched. *)
Theorem C81_requests : forall ms, Forall request_ok ms ->
  exists w got, send_all send_request ms = Ok w /\ Forall2 same_request ms got /\
    (forall rest, read_messages parse_request q_header (length ms) (w ++ rest) = Ok (got, rest)) /\
    (forall p s, w = p ++ s -> s <> [] -> exists k r, (k < length ms)%nat /\
       read_messages parse_request q_header k p = Ok (firstn k got, r) /\ read_message parse_request q_header r = partial).
Proof. exact requests_stream. Qed.
Print Assumptions C81_requests.
Theorem C81_responses : forall ms, Forall response_ok ms ->
  exists w got, send_all send_response ms = Ok w /\ Forall2 same_response ms got /\
    (forall rest, read_messages parse_response p_header (length ms) (w ++ rest) = Ok (got, rest)) /\
    (forall p s, w = p ++ s -> s <> [] -> exists k r, (k < length ms)%nat /\
       read_messages parse_response p_header k p = Ok (firstn k got, r) /\ read_message parse_response p_header r = partial).
Proof. exact responses_stream. Qed.
Print Assumptions C81_responses.
Definition sample_get : request * body_form :=
  (mkReq MGet V11 (mkUrl ScNone (str "/a") None None None None None) [(str "Host", str "h")] false, Sized []).
Definition sample_post : request * body_form :=
  (mkReq MPost V11 (mkUrl ScNone (str "/b?x=1") None None None None None) [(str "Host", str "h"); (str "Content-Length", str "5")] false, Sized (str "hello")).
Definition sample_chunked : request * body_form :=
  (mkReq MPost V11 (mkUrl ScNone (str "/c") None None None None None) [(str "Host", str "h"); (str "Transfer-Encoding", str "chunked")] false,
   Chunked [str "GET / "; str "HTTP/1.1"]).
Example C81_nonvacuous : Forall request_ok [sample_get; sample_post; sample_chunked] /\
  (exists w, send_all send_request [sample_get; sample_post; sample_chunked] = Ok w /\ blen w = 171) /\
  Forall response_ok [(mkResp 204 V11 [(str "Server", str "x")] false, Sized []); (mkResp 200 V11 [(str "Content-Length", str "3")] false, Sized (str "abc"))].
Proof.
  split; [|split].
  - apply Forall_cons; [|apply Forall_cons; [|apply Forall_cons; [|constructor]]].
    all: split; [vm_compute; tauto|split; [vm_compute; tauto|split; [split; [discriminate|repeat constructor; discriminate]|]]].
    all: split; [eexists; apply wire_url_spec; vm_compute; reflexivity|split; [apply fields_okb_ok; vm_compute; reflexivity|split; [cbn; repeat split; repeat constructor|]]].
    + apply fr_none; vm_compute; reflexivity.
    + apply (fr_length _ _ (str "5")); [vm_compute; reflexivity|vm_compute; reflexivity| |vm_compute; reflexivity].
      split; [discriminate|]. split; [|reflexivity]. repeat constructor; discriminate.
    + apply fr_chunked; [vm_compute; reflexivity|]. repeat constructor; try discriminate.
  - eexists. split; [vm_compute; reflexivity|]. vm_compute. reflexivity.
  - apply Forall_cons; [|apply Forall_cons; [|constructor]].
    all: split; [vm_compute; tauto|split; [eexists; vm_compute; reflexivity|]].
    all: split; [apply fields_okb_ok; vm_compute; reflexivity|split; [cbn; repeat split; repeat constructor|]].
    + apply fr_none; vm_compute; reflexivity.
    + apply (fr_length _ _ (str "3")); [vm_compute; reflexivity|vm_compute; reflexivity| |vm_compute; reflexivity].
      split; [discriminate|]. split; [|reflexivity]. repeat constructor; discriminate.
Qed.

(** ** C82: an HTTP/2 connection.
    One side sends any sequence of SETTINGS, PING, RST_STREAM, WINDOW_UPDATE, GOAWAY, DATA, request and response
    items on any streams, in any order.  The other side, starting from a decoder in step with the sender's encoder,
    receives every item, in order; whatever follows is left alone; the two sides are in step again. *)
Theorem C82_session : forall max L l te td more, 0 < max < 16777216 -> Forall (item_legal max L) l ->
  connection te td (concat (map item_fields l) ++ more) ->
  exists te' td' w got, h2_send max te l = Ok (te', w) /\ Forall2 item_seen l got /\
    (forall rest, reads L td (w ++ rest) td' (concat got) rest) /\ connection te' td' more.
Proof.
  intros max L l te td more M G C. destruct (session max L l M G te td more C) as (te' & td' & w & got & E & R & V & C').
  exists te', td', w, got. split; [exact E|]. split; [exact V|]. split; [|exact C']. intros rest. apply (reads_more _ _ _ _ _ _ R rest).
Qed.
Print Assumptions C82_session.
(** While octets are missing the receiver has the frames that are complete and is told that the next one is short. *)
Theorem C82_truncated : forall max L l te td more, 0 < max < 16777216 -> Forall (item_legal max L) l ->
  connection te td (concat (map item_fields l) ++ more) ->
  exists te' w got, h2_send max te l = Ok (te', w) /\ Forall2 item_seen l got /\
    forall p s, w = p ++ s -> s <> [] -> exists t fs r missing, reads L td p t fs r /\ recv t L r = (t, Err (EHttp2 Short)) /\
      concat got = fs ++ missing /\ missing <> [].
Proof.
  intros max L l te td more M G C. destruct (session max L l M G te td more C) as (te' & td' & w & got & E & R & V & _).
  exists te', w, got. split; [exact E|]. split; [exact V|]. intros p s. apply (reads_short L td w td' _ R).
Qed.
Print Assumptions C82_truncated.
(** Stream by stream: the octets of the DATA frames received on a stream are those sent on it, however the streams
    were interleaved, and a stream has been ended exactly if that was sent. *)
Theorem C82_streams : forall l got id, Forall2 item_seen l got ->
  stream_octets id (concat got) = sent_octets id l /\ stream_ended id (concat got) = existsb (item_ends id) l.
Proof. intros l got id V. split; [apply session_octets, V|apply session_ended, V]. Qed.
Print Assumptions C82_streams.
Definition sample_session : list item :=
  [ISettings some_settings; IAck; IRequest 1 MGet (str "example.com") ScHttps (str "/a/b") sample_fields false; IData 1 (str "abc") false;
   IResponse 2 200 [(str "x-a", str "1")] true; IPing (mkPing false [1;2;3;4;5;6;7;8]); IData 1 (str "def") true; IWindow (mkWin 1 100);
   IReset (mkReset 1 8); IGoAway (mkGoAway 7 2 (str "bye"))].
Example C82_nonvacuous : Forall (item_legal 16384 4096) sample_session /\ connection hi_new hi_new (concat (map item_fields sample_session) ++ []) /\
  (exists te w, h2_send 16384 hi_new sample_session = Ok (te, w)) /\ sent_octets 1 sample_session = str "abcdef" /\ existsb (item_ends 1) sample_session = true.
Proof.
  split; [|split; [|split; [|split]]].
  - unfold sample_session. repeat apply Forall_cons; try apply Forall_nil; (split; [vm_compute; discriminate|]; split; [vm_compute; discriminate|]).
    + exact (proj1 C35_nonvacuous).
    + exact I.
    + destruct C64_nonvacuous as (H1 & H2 & H3 & H4 & H5 & _). split; [reflexivity|]. auto.
    + split; reflexivity.
    + split; [reflexivity|]. split; [split; discriminate|]. split; [apply h2_charb_ok; vm_compute; reflexivity|].
      split; [repeat constructor; intros []|]. repeat constructor. discriminate.
    + reflexivity.
    + split; reflexivity.
    + split; [reflexivity|]. split; [discriminate|reflexivity].
    + split; reflexivity.
    + split; [reflexivity|]. split; reflexivity.
  - apply fresh_connection; [vm_compute; reflexivity|vm_compute; reflexivity|cbn; lia].
  - eexists. eexists. vm_compute. reflexivity.
  - reflexivity.
  - reflexivity.
Qed.

(** ** C83: a WebSocket connection.
    A receiver that assembles frames with OwnedMessage::from_dataframes gets the messages that the sender sent, in order,
    however they were fragmented, masked, and interrupted by control messages. *)
Theorem C83_delivered : forall ds keys ms rest, talk None ds ms -> Forall frame_ok ds -> length keys = length ds ->
  exists w, write_frames (combine ds keys) = Ok w /\ ws_receive (length ds) [] (w ++ rest) = Ok (ms, [], rest).
Proof. exact talk_written. Qed.
Print Assumptions C83_delivered.
(** On any octets whatever: messages are delivered without an error, and none is left incomplete, exactly if the octets
    are frames that follow RFC 6455 5.4. *)
Theorem C83_exact : forall k l ms r, bytes_ok l ->
  (ws_receive k [] l = Ok (ms, [], r) <-> exists ds, read_frames k l = Ok (ds, r) /\ talk None ds ms).
Proof. exact receive_exact. Qed.
Print Assumptions C83_exact.
(** While octets are missing the complete messages have been delivered and the read reports the end of the input. *)
Theorem C83_truncated : forall ds keys ms w p s, talk None ds ms -> Forall frame_ok ds -> length keys = length ds ->
  write_frames (combine ds keys) = Ok w -> w = p ++ s -> s <> [] ->
  exists k ms1 ms2 pending r, (k < length ds)%nat /\ ws_receive k [] p = Ok (ms1, pending, r) /\ ms = ms1 ++ ms2 /\
    read_dataframe r = Err (EIo UnexpectedEof).
Proof. exact talk_truncated. Qed.
Print Assumptions C83_truncated.
Definition sample_talk : list dataframe :=
  [plain_frame false OText (str "he"); plain_frame true OPing (str "p"); plain_frame false Continuation []; plain_frame true OClose [3; 232; 98];
   plain_frame true Continuation (str "llo"); plain_frame true OBinary [255]].
Example C83_nonvacuous : talk None sample_talk
    [OwPing (str "p"); OwClose (Some {| cd_code := 1000; cd_reason := str "b" |}); OwText (str "hello"); OwBinary [255]] /\ Forall frame_ok sample_talk.
Proof.
  split.
  - apply tk_first; [intros K; vm_compute in K; exact (K eq_refl)|]. apply tk_control; [vm_compute; discriminate|constructor|].
    apply tk_middle. apply tk_control; [vm_compute; discriminate|apply (sy_because 3 232), utf8_valid_iff; vm_compute; reflexivity|].
    apply (tk_last OText _ _ (OwText (str "hello"))); [apply (sy_text (str "hello")), utf8_valid_iff; vm_compute; reflexivity|].
    apply tk_whole; [intros K; vm_compute in K; exact (K eq_refl)|constructor|constructor].
  - unfold sample_talk. repeat apply Forall_cons; try apply Forall_nil; (split; [intros K; split; [vm_compute; discriminate|reflexivity || exfalso; vm_compute in K; exact (K eq_refl)]|vm_compute; reflexivity]).
Qed.
