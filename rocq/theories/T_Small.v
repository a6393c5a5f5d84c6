(** Theorems C99-C101: WebSocket messages in their two forms, status codes, small HTTP/2 frames and constants. *)
From Coq Require Import Ascii String NArith ZArith Lia Bool List.
From Verif Require Import Base S_Utf8 P_Base M_Ws S_Ws S_WsApi P_Ws M_Std M_Helper M_Header M_Url M_Http1 S_Http1 S_Http1Api P_Http1 P_Msg
  M_Huffman M_Hpack M_Frame M_H2 S_Frame S_H2Api P_Frame P_Ctl M_Build M_Small S_Small P_Small.
Import ListNotations.
Local Open Scope N_scope.

(** ** C99 *)
(** What is sent for a message: one final frame with the opcode and payload of RFC 6455, of the size announced;
    a control message with more than 125 octets is refused. *)
Theorem C99_on_the_wire : forall m key, typed_owned m -> blen (wire_payload m) < 2 ^ 64 ->
  (8 <= wire_opcode m -> blen (wire_payload m) <= 125) ->
  let w := spec_frame true false false false (wire_opcode m) key (wire_payload m) in
  write_to (owned_df m) key = Ok w /\ owned_size m (match key with Some _ => true | None => false end) = blen w.
Proof.
  intros m key T L C w. assert (E : write_to (owned_df m) key = Ok w).
  { apply owned_wire; [exact T|exact L|]. intros G. apply C. destruct m; try discriminate G; cbn; lia. }
  split; [exact E|]. symmetry. exact (proj2 (owned_octets m key w T L E)).
Qed.
Print Assumptions C99_on_the_wire.
Theorem C99_long_control_refused : forall m key, typed_owned m -> 8 <= wire_opcode m -> 125 < blen (wire_payload m) ->
  exists s, write_to (owned_df m) key = Err (EWs (DataFrameError s)).
Proof.
  intros m key T G L. apply owned_refused; [exact T| |exact L]. destruct m; try reflexivity; cbn in G; lia.
Qed.
Print Assumptions C99_long_control_refused.
(** The predicates on a message tell its opcode. *)
Theorem C99_kinds : forall m,
  (ow_is_close m = true <-> wire_opcode m = 8) /\ (ow_is_ping m = true <-> wire_opcode m = 9) /\
  (ow_is_pong m = true <-> wire_opcode m = 10) /\ (ow_is_control m = true <-> 8 <= wire_opcode m) /\
  (ow_is_data m = true <-> wire_opcode m = 1 \/ wire_opcode m = 2).
Proof.
  intros m. destruct m; cbn [ow_is_close ow_is_ping ow_is_pong ow_is_control ow_is_data wire_opcode negb]; repeat split; intros; try discriminate; try reflexivity; try lia;
    auto.
Qed.
Print Assumptions C99_kinds.
(** The borrowed and the owned form of a message are sent alike, ... *)
Theorem C99_same_octets : forall m key masked,
  write_to (message_df (message_of_owned m)) key = write_to (owned_df m) key /\
  frame_size (message_df (message_of_owned m)) masked = owned_size m masked.
Proof. intros m key masked. split; [apply two_forms_write|apply two_forms_size]. Qed.
Print Assumptions C99_same_octets.
(** ... the owned form survives the conversion, ... *)
Theorem C99_there_and_back : forall m, typed_owned m -> owned_of_message (message_of_owned m) = m.
Proof. exact owned_back_typed. Qed.
Print Assumptions C99_there_and_back.
(** ... and the borrowed form does exactly if it looks like one made by a constructor. *)
Theorem C99_back_and_there : forall m, message_of_owned (owned_of_message m) = m <-> regular_message m.
Proof. exact message_back. Qed.
Print Assumptions C99_back_and_there.
(** Strings become text, vectors binary messages; close data is the payload of a close message. *)
Theorem C99_conversions : forall s, wire_opcode (owned_of_string s) = 1 /\ wire_payload (owned_of_string s) = s /\
  wire_opcode (owned_of_vec s) = 2 /\ wire_payload (owned_of_vec s) = s.
Proof. intros s. repeat split. Qed.
Print Assumptions C99_conversions.
Theorem C99_close_data : forall c, cd_code c < 65536 -> close_data_bytes c = wire_payload (OwClose (Some c)).
Proof. intros c H. unfold close_data_bytes. rewrite be_enc_2 by exact H. reflexivity. Qed.
Print Assumptions C99_close_data.
Theorem C99_close_new : forall c reason, close_data_bytes (close_normal) = [3; 232] /\
  cd_code (close_new c reason) = close_u16 c /\ cd_reason (close_new c reason) = reason /\ close_normal = close_new CNormal [].
Proof. intros c reason. repeat split. Qed.
Print Assumptions C99_close_new.
(** The whole way: a string given to the peer as a message arrives as that string. *)
Theorem C99_string_arrives : forall s key rest, is_utf8 s -> blen s < 2 ^ 64 ->
  exists w d, write_to (owned_df (owned_of_string s)) key = Ok w /\ read_dataframe (w ++ rest) = Ok (d, rest) /\
    owned_from_dataframes [dataframe_df d] = Ok (OwText s).
Proof. intros s key rest U L. apply owned_roundtrip. split; assumption. Qed.
Print Assumptions C99_string_arrives.
Example C99_nonvacuous :
  write_to (owned_df (OwClose (Some (close_new CAway (str "bye"))))) None = Ok [136; 5; 3; 233; 98; 121; 101] /\
  write_to (owned_df (owned_of_string (str "hi"))) (Some (1, 2, 3, 4)) = Ok [129; 130; 1; 2; 3; 4; 105; 107] /\
  write_to (owned_df (OwClose None)) (Some (1, 2, 3, 4)) = Ok [136; 128; 1; 2; 3; 4] /\
  ~ regular_message {| m_op := TPing; m_code := Some 1000; m_payload := [] |} /\ regular_message (msg_close_because 1000 (str "ok")).
Proof.
  split; [vm_compute; reflexivity|]. split; [vm_compute; reflexivity|]. split; [vm_compute; reflexivity|]. split; [intros H; exact H|].
  cbn [regular_message m_op m_code m_payload msg_close_because]. apply utf8_valid_iff. reflexivity.
Qed.

(** ** C100 *)
(** Every constant is named after the phrase of its code; every code with a phrase has one; no two coincide. *)
Theorem C100_constants : (forall c n, In (c, n) status_consts -> 100 <= n <= 999 /\ exists t, canonical_reason n = Some t /\ str c = spelled t) /\
  (forall n t, canonical_reason n = Some t -> exists c, In (c, n) status_consts) /\
  NoDup (map fst status_consts) /\ NoDup (map snd status_consts).
Proof.
  split; [|split; [exact consts_all|split; apply consts_table]].
  intros c n H. split; [|apply consts_spell, H].
  assert (A : forallb (fun c => (100 <=? snd c) && (snd c <=? 999)) status_consts = true) by (vm_compute; reflexivity).
  rewrite forallb_forall in A. specialize (A _ H). cbn [snd] in A. lia.
Qed.
Print Assumptions C100_constants.
(** The text of a code, and the status line written for it. *)
Theorem C100_display : forall s, 100 <= s <= 999 ->
  (forall t, canonical_reason s = Some t -> status_display s = three_digits s ++ 32 :: t /\ status_encode s = Ok (status_display s ++ crlf)) /\
  (canonical_reason s = None -> status_display s = three_digits s ++ 32 :: str "<unknown status code>" /\ status_encode s = Err (EHttp InvalidStatusCode)).
Proof. exact status_line. Qed.
Print Assumptions C100_display.
(** The pseudo-header of a code carries it, and whoever reads the value gets the code back. *)
Theorem C100_header : forall s, 100 <= s <= 999 ->
  status_build_header s = (str ":status", three_digits s) /\ status_from_bytes (snd (status_build_header s)) = Ok s.
Proof.
  intros s R. unfold status_build_header. cbn [snd]. split; [rewrite status_str_three by exact R; reflexivity|apply status_str_from, R].
Qed.
Print Assumptions C100_header.
(** Comparing with a number compares the number, on either side, and agrees with converting the number. *)
Theorem C100_equality : forall s n, 100 <= s <= 999 ->
  (status_eq_u16 s n = true <-> status_from_u16 n = Ok s) /\ u16_eq_status n s = status_eq_u16 s n /\ status_from_u16 (status_u16 s) = Ok s.
Proof.
  intros s n R. unfold status_eq_u16, u16_eq_status, status_u16. rewrite !from_u16_spec, N.eqb_eq. split; [|split].
  - split; [intros <-; auto|intros [-> _]; reflexivity].
  - apply N.eqb_sym.
  - auto.
Qed.
Print Assumptions C100_equality.
Theorem C100_default : In ("OK"%string, status_default) status_consts.
Proof. vm_compute. tauto. Qed.
Print Assumptions C100_default.
Example C100_nonvacuous : In ("IM_A_TEAPOT"%string, 418) status_consts /\ spelled (str "I'm a teapot") = str "IM_A_TEAPOT" /\
  status_display 404 = str "404 Not Found" /\ status_display 299 = str "299 <unknown status code>".
Proof. split; [vm_compute; tauto|]. repeat split. Qed.

(** ** C101 *)
(** The connection preface is that of RFC 9113, and neither the HTTP/1 parser nor the frame reader takes it for
    a message, whatever follows. *)
Theorem C101_preface : HTTP2_MAGIC = rfc_preface /\ MAIGC_LEN = 24 /\
  forall q l, snd (req_parse q (HTTP2_MAGIC ++ l)) = Err (EHttp MethodErr) /\ fh_parse (HTTP2_MAGIC ++ l) = Err (EHttp2 (BadFlag 42)).
Proof. split; [reflexivity|]. split; [reflexivity|]. intros q l. split; [apply preface_request|apply preface_frame]. Qed.
Print Assumptions C101_preface.
(** The type octets: the registered ones, and 255 for a frame of no registered type. *)
Theorem C101_types : forall k ty, type_means ty k -> (k <> KUnregistered -> kind_encode k = ty) /\ (k = KUnregistered -> kind_encode k = 255).
Proof.
  intros k ty [H|[H ->]].
  - split; [|intros ->]; cbn in H; repeat (destruct H as [H|H]; [injection H as <- E; try discriminate E; subst; reflexivity|]); destruct H.
  - split; [intros C; destruct C; reflexivity|reflexivity].
Qed.
Print Assumptions C101_types.
(** Frames made by the constructors are the octets of RFC 9113 and are received as made. *)
Theorem C101_ping : forall p t max rest, blen p = 8 ->
  ping_encode (ping_new p) = frame_octets 6 0 0 p /\ ping_encode (ping_pong p) = frame_octets 6 1 0 p /\
  recv t max (ping_encode (ping_new p) ++ rest) = (t, Ok (FPing (ping_new p), rest)) /\
  recv t max (ping_encode (ping_pong p) ++ rest) = (t, Ok (FPing (ping_pong p), rest)) /\
  ping_is_ack (ping_new p) = false /\ ping_is_ack (ping_pong p) = true /\ ping_payload (ping_new p) = p /\ ping_payload (ping_pong p) = p.
Proof.
  intros p t max rest L. split; [exact (ping_octets false p L)|]. split; [exact (ping_octets true p L)|].
  split; [apply recv_ping, L|]. split; [apply recv_ping, L|]. repeat split.
Qed.
Print Assumptions C101_ping.
(** The answer to a ping that was received is the octets of the acknowledgement with the same payload. *)
Theorem C101_answer : forall p t t' max l rest, recv t max l = (t', Ok (FPing p, rest)) ->
  ret_pong p = ping_pong (ping_payload p) /\ ping_encode (ret_pong p) = frame_octets 6 1 0 (ping_payload p).
Proof.
  intros [b p] t t' max l rest H. split; [reflexivity|]. apply (ping_octets true).
  unfold recv in H. destruct (fh_parse l) as [[h r]| | |]; try discriminate H.
  destruct (take_N (fh_length h) r) as [[x y]|]; [|discriminate H].
  destruct (frame_parse t h x max) as [t1 [f| | |]] eqn:F; try discriminate H. injection H as <- -> <-.
  cbn [ping_payload pg_payload]. exact (ping_inside t h x max t1 b p F).
Qed.
Print Assumptions C101_answer.
Theorem C101_payloads : blen SHUTDOWN_PAYLOAD = 8 /\ blen USER_PAYLOAD = 8 /\ SHUTDOWN_PAYLOAD <> USER_PAYLOAD /\
  SHUTDOWN_PAYLOAD <> repeat 0 8 /\ USER_PAYLOAD <> repeat 0 8.
Proof. repeat split; discriminate. Qed.
Print Assumptions C101_payloads.
(** The very octets of the two payloads, as numbers. *)
Theorem C101_payload_octets : SHUTDOWN_PAYLOAD = be_enc 8 0x0b7ba2f08b9bfe54 /\ USER_PAYLOAD = be_enc 8 0x3b7cdb7a0b8716b4.
Proof. split; vm_compute; reflexivity. Qed.
Print Assumptions C101_payload_octets.
Theorem C101_goaway : forall last code d t max rest, last < 2147483648 -> code < 4294967296 -> 8 + blen d < 16777216 ->
  goaway_encode (goaway_with_debug_data last code d) = frame_octets 7 0 0 (octets4 last ++ octets4 code ++ d) /\
  goaway_new last code = goaway_with_debug_data last code [] /\
  recv t max (goaway_encode (goaway_with_debug_data last code d) ++ rest) = (t, Ok (FGoAway (goaway_with_debug_data last code d), rest)).
Proof.
  intros last code d t max rest I C L. split; [apply goaway_octets; lia|]. split; [reflexivity|].
  apply recv_goaway; cbn [ga_last ga_code ga_debug goaway_with_debug_data]; lia.
Qed.
Print Assumptions C101_goaway.
Theorem C101_reset : forall id code t max rest, id < 2147483648 -> code < 4294967296 ->
  reset_encode (reset_new id code) = frame_octets 3 0 id (octets4 code) /\
  recv t max (reset_encode (reset_new id code) ++ rest) = (t, Ok (FReset (reset_new id code), rest)).
Proof. intros id code t max rest I C. split; [apply reset_octets; lia|apply recv_reset; assumption]. Qed.
Print Assumptions C101_reset.
Theorem C101_window_update : forall id inc t max rest, id < 2147483648 -> 1 <= inc < 2147483648 ->
  winupd_encode (winupd_new id inc) = frame_octets 8 0 id (octets4 inc) /\
  recv t max (winupd_encode (winupd_new id inc) ++ rest) = (t, Ok (FWindowUpdate (winupd_new id inc), rest)).
Proof. intros id inc t max rest I C. split; [apply winupd_octets; lia|apply recv_winupd; assumption]. Qed.
Print Assumptions C101_window_update.
(** The components of a PRIORITY frame that was read. *)
Theorem C101_priority_into : forall h excl dep w junk, dep < 2147483648 -> w < 256 -> dep <> fh_id h ->
  bytes_ok junk ->
  exists p, priority_parse h (octets4 ((if excl : bool then 2147483648 else 0) + dep) ++ [w] ++ junk) = Ok p /\
    priority_into p = (fh_id h, dep, w) /\ pr_dep p = dep_new dep w excl.
Proof.
  intros h excl dep w junk D W N J. exists (mkPriority (fh_id h) (mkDep dep w excl)). split; [|split; reflexivity].
  apply priority_exact.
  - apply Forall_app. split; [|constructor; [exact W|exact J]]. rewrite <- be_enc_4 by (destruct excl; lia). apply be_enc_ok.
  - exists excl, dep, w, junk. auto.
Qed.
Print Assumptions C101_priority_into.
(** Eight octets are read as one number; a shorter buffer gives zero and is left alone. *)
Theorem C101_read_u64 : forall l, bytes_ok l ->
  (forall v rest, v < 2 ^ 64 -> l = be_enc 8 v ++ rest -> read_u64 l = Ok (v, rest)) /\ (blen l < 8 -> read_u64 l = Ok (0, l)).
Proof.
  intros l B. split.
  - intros v rest V ->. rewrite read_u64_eq. rewrite (take_n_app 8 (be_enc 8 v)) by apply be_enc_length. rewrite be_dec_enc_small by exact V. reflexivity.
  - intros L. unfold read_u64. apply N.ltb_lt in L. rewrite L. reflexivity.
Qed.
Print Assumptions C101_read_u64.
(** The identifiers a side starts with: the client's is odd, the server's even, neither is the connection's;
    they are ordered as numbers and printed in decimal. *)
Theorem C101_stream_ids : N.odd client_first = true /\ N.odd server_first = false /\ stream_is_zero client_first = false /\
  stream_is_zero server_first = false /\ (forall s, stream_is_zero s = true <-> s = stream_zero) /\
  (forall a b, stream_cmp a b = Lt <-> a < b) /\ (forall a b, stream_cmp a b = Eq <-> a = b) /\ (forall s, dec_val (stream_display s) = s).
Proof.
  repeat split; try reflexivity; intros.
  - apply N.eqb_eq, H.
  - subst. reflexivity.
  - apply N.compare_lt_iff, H.
  - apply N.compare_lt_iff, H.
  - apply N.compare_eq_iff, H.
  - apply N.compare_eq_iff, H.
  - apply P_Std.dec_print_val.
Qed.
Print Assumptions C101_stream_ids.
Example C101_nonvacuous : forall t,
  recv t 100 (ping_encode (ping_pong USER_PAYLOAD)) = (t, Ok (FPing (mkPing true USER_PAYLOAD), [])) /\
  recv t 100 (goaway_encode (goaway_new 7 11)) = (t, Ok (FGoAway (mkGoAway 7 11 []), [])) /\
  read_u64 [0; 0; 0; 0; 0; 0; 1; 2; 9] = Ok (258, [9]) /\ type_means 77 KUnregistered.
Proof.
  intros t. split; [reflexivity|]. split; [reflexivity|]. split; [reflexivity|]. right. split; [|reflexivity].
  intros k H. cbn in H. repeat (destruct H as [H|H]; [discriminate H|]). exact H.
Qed.
