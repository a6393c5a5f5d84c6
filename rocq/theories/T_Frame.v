(** Theorems on the HTTP/2 frame layer: C34-C39, C41, C57. *)
From Coq Require Import Ascii String NArith ZArith Lia Bool List FinFun ZifyBool ZifyNat ZifyN.
From Verif Require Import Base P_Base M_Hpack M_Frame M_H2 S_Frame S_H2Api P_Frame P_Settings P_Ctl P_Data.
Import ListNotations.
Local Open Scope N_scope.

(** C34. The nine octets written are those of RFC 9113 4.1 ... *)
Theorem C34_encode_is_rfc : forall len k f id, len < 16777216 -> id < 4294967296 ->
  exists ty, type_means ty k /\ fh_encode (mkFH len k f id) = octets3 len ++ [ty; f] ++ octets4 id.
Proof. intros len k f id L I. exists (kind_encode k). split; [apply type_of_kind|apply fh_encode_octets; assumption]. Qed.
Print Assumptions C34_encode_is_rfc.
(** ... and are read back, whatever follows. *)
Theorem C34_header_roundtrip : forall len k f id rest, len < 16777216 -> id < 2147483648 -> defined_flags f ->
  fh_parse (fh_encode (mkFH len k f id) ++ rest) = Ok (mkFH len k f id, rest).
Proof. intros. apply fh_roundtrip; assumption. Qed.
Print Assumptions C34_header_roundtrip.
(** What is read, exactly: any nine octets with defined flags, the reserved bit [r] being ignored. *)
Theorem C34_parse_exact : forall l h rest, bytes_ok l -> (fh_parse l = Ok (h, rest) <->
  exists len ty f r id, l = octets3 len ++ [ty; f] ++ octets4 (r * 2147483648 + id) ++ rest /\
    len < 16777216 /\ ty < 256 /\ defined_flags f /\ r <= 1 /\ id < 2147483648 /\
    fh_length h = len /\ type_means ty (fh_kind h) /\ fh_flag h = f /\ fh_id h = id).
Proof.
  intros l h rest B. rewrite fh_parse_exact by exact B. unfold header_octets. split.
  - intros (len & ty & f & r & id & E & H). exists len, ty, f, r, id. split; [|exact H]. rewrite E, <- !app_assoc. reflexivity.
  - intros (len & ty & f & r & id & E & H). exists len, ty, f, r, id. split; [|exact H]. rewrite E, <- !app_assoc. reflexivity.
Qed.
Print Assumptions C34_parse_exact.
Theorem C34_parse_rejects : forall l e, bytes_ok l -> (fh_parse l = Err e <->
  (blen l < 9 /\ e = EHttp2 Short) \/
  (exists len ty f rid rest, l = header_octets len ty f rid ++ rest /\ len < 16777216 /\ rid < 4294967296 /\ f < 256 /\
     ~ defined_flags f /\ e = EHttp2 (BadFlag f))).
Proof. intros l e B. apply fh_parse_err, B. Qed.
Print Assumptions C34_parse_rejects.
Theorem C34_total : forall l, fh_parse l <> Panic /\ fh_parse l <> Diverge.
Proof. exact fh_parse_total. Qed.
Print Assumptions C34_total.
(** The accessors of the flags name the bits of RFC 9113. *)
Theorem C34_flags : forall es eh pad pri, let f := flags_of es eh pad pri in
  is_end_stream f = es /\ is_ack f = es /\ is_end_headers f = eh /\ is_padded f = pad /\ is_priority f = pri /\
  set_end_headers f = flags_of es true pad pri /\ set_end_stream f = flags_of true eh pad pri /\
  unset_end_stream f = flags_of false eh pad pri.
Proof. exact flags_of_view. Qed.
Print Assumptions C34_flags.
Example C34_nonvacuous : fh_encode (mkFH 70000 KHeaders 37 5) = [1; 17; 112; 1; 37; 0; 0; 0; 5] /\
  fh_parse [1; 17; 112; 1; 37; 128; 0; 0; 5; 77] = Ok (mkFH 70000 KHeaders 37 5, [77]) /\ defined_flags 37 /\
  fh_parse [0; 0; 0; 0; 2; 0; 0; 0; 1] = Err (EHttp2 (BadFlag 2)).
Proof. split; [reflexivity|]. split; [reflexivity|]. split; [exists true, true, false, true; reflexivity|reflexivity]. Qed.

(** C35. A settings value is received as it was; the frame header announces its payload. *)
Theorem C35_settings_roundtrip : forall t max s rest, legal_settings s ->
  recv t max (settings_encode s ++ rest) = (t, Ok (FSettings s, rest)).
Proof. exact recv_settings. Qed.
Print Assumptions C35_settings_roundtrip.
Theorem C35_ack_roundtrip : forall t max rest,
  recv t max (settings_encode settings_ack ++ rest) = (t, Ok (FSettings settings_ack, rest)).
Proof. exact recv_settings_ack. Qed.
Print Assumptions C35_ack_roundtrip.
(** On the wire: a SETTINGS frame on stream 0 with one six-octet entry for each present setting. *)
Theorem C35_settings_on_wire : forall s, Forall entry_range (entries_of s) ->
  settings_encode s = frame_octets 4 (st_flags s) 0 (concat (map entry_octets (entries_of s))) /\
  settings_payload_len s = blen (concat (map entry_octets (entries_of s))).
Proof. intros s R. split; [apply settings_encode_octets, R|]. rewrite settings_payload_len_ok, entries_blen. reflexivity. Qed.
Print Assumptions C35_settings_on_wire.
Definition some_settings : settings := mkSettings 0 (Some 4096) (Some 0) None (Some 65535) (Some 16384) None (Some 1).
Example C35_nonvacuous : legal_settings some_settings /\
  settings_encode some_settings = [0;0;30;4;0;0;0;0;0; 0;1;0;0;16;0; 0;2;0;0;0;0; 0;4;0;0;255;255; 0;5;0;0;64;0; 0;8;0;0;0;1].
Proof.
  split; [|reflexivity]. split; [reflexivity|].
  split; cbn; repeat (apply Forall_cons; [cbn; unfold entry_range, entry_legal; cbn; lia|]); apply Forall_nil.
Qed.
(** Refuted beyond the legal values: the setters let ACK be combined with settings, and such a frame is
    rejected by the receiver. *)
Theorem C35_ack_with_settings_refuted : exists s t, settings_is_ack s = true /\ st_header_table_size s = Some 1 /\
  recv t 100 (settings_encode s) = (t, Err (EHttp2 InvalidPayloadLength)).
Proof. exists (with_header_table_size settings_ack (Some 1)), hi_new. repeat split. Qed.
Print Assumptions C35_ack_with_settings_refuted.

(** C36. Exactly these payloads are accepted; unknown identifiers are ignored and of repeated ones the
    last counts ([settings_of]). *)
Theorem C36_accepts_exactly : forall h l s, fh_kind h = KSettings -> bytes_ok l ->
  (settings_parse h l = Ok s <->
   fh_id h = 0 /\
   (is_ack (fh_flag h) = true /\ l = [] /\ s = settings_ack \/
    is_ack (fh_flag h) = false /\
    exists es, l = concat (map entry_octets es) /\ Forall entry_range es /\ Forall entry_legal es /\ s = settings_of es)).
Proof. exact settings_parse_exact. Qed.
Print Assumptions C36_accepts_exactly.
Theorem C36_rejects_exactly : forall h l e, fh_kind h = KSettings -> bytes_ok l ->
  (settings_parse h l = Err e <->
   fh_id h <> 0 /\ e = EHttp2 InvalidStreamId \/
   fh_id h = 0 /\
   (is_ack (fh_flag h) = true /\ l <> [] /\ e = EHttp2 InvalidPayloadLength \/
    is_ack (fh_flag h) = false /\ blen l mod 6 <> 0 /\ e = EHttp2 InvalidPayloadLength \/
    is_ack (fh_flag h) = false /\
    exists es, l = concat (map entry_octets es) /\ Forall entry_range es /\ ~ Forall entry_legal es /\ e = EHttp2 InvalidSettingValue)).
Proof. exact settings_parse_err. Qed.
Print Assumptions C36_rejects_exactly.
(** The entry list is determined by the payload. *)
Theorem C36_entries_unique : forall es fs, Forall entry_range es -> Forall entry_range fs ->
  concat (map entry_octets es) = concat (map entry_octets fs) -> es = fs.
Proof. intros es fs R F. apply entries_octets_inj; assumption. Qed.
Print Assumptions C36_entries_unique.
Example C36_nonvacuous :
  settings_parse (mkFH 18 KSettings 0 0) [0;4;0;0;0;1; 0;9;255;255;255;255; 0;4;0;0;0;2] =
    Ok (mkSettings 0 None None None (Some 2) None None None) /\
  settings_parse (mkFH 6 KSettings 0 0) [0;2;0;0;0;2] = Err (EHttp2 InvalidSettingValue) /\
  settings_parse (mkFH 6 KSettings 0 0) [0;4;128;0;0;0] = Err (EHttp2 InvalidSettingValue) /\
  settings_parse (mkFH 6 KSettings 0 0) [0;5;0;0;63;255] = Err (EHttp2 InvalidSettingValue).
Proof. repeat split. Qed.

(** C37. HTTP2-Settings: the text is the base64url form of the SETTINGS payload and is read back ... *)
Theorem C37_roundtrip : forall s, legal_settings s -> parse_http_settings (encode_http_settings s) = Ok s.
Proof. exact http_settings_roundtrip. Qed.
Print Assumptions C37_roundtrip.
Theorem C37_is_base64url : forall s, Forall entry_range (entries_of s) ->
  base64url (concat (map entry_octets (entries_of s))) (encode_http_settings s).
Proof. exact http_settings_spec. Qed.
Print Assumptions C37_is_base64url.
(** ... and so is the base64url form of any settings payload, by whoever it was written. *)
Theorem C37_reads_any_payload : forall es text, Forall entry_range es -> base64url (concat (map entry_octets es)) text ->
  (Forall entry_legal es -> parse_http_settings text = Ok (settings_of es)) /\
  (~ Forall entry_legal es -> parse_http_settings text = Err (EHttp2 InvalidSettingValue)).
Proof.
  intros es text R H. rewrite (http_settings_parse_text es text R H). rewrite <- forallb_legal.
  destruct (forallb entry_legalb es); split; intros C; try reflexivity; [destruct C; reflexivity|discriminate C].
Qed.
Print Assumptions C37_reads_any_payload.
Example C37_nonvacuous : encode_http_settings some_settings = str "AAEAABAAAAIAAAAAAAQAAP__AAUAAEAAAAgAAAAB".
Proof. reflexivity. Qed.

(** C38. A DATA frame is written as full frames without END_STREAM and a last one with the flags asked for. *)
Theorem C38_data_split : forall max d, 0 < max < 16777216 -> da_id d < 4294967296 ->
  exists chunks last, data_encode max d =
    Ok (concat (map (frame_octets 0 (unset_end_stream (da_flags d)) (da_id d)) chunks) ++
        frame_octets 0 (da_flags d) (da_id d) last) /\
    concat chunks ++ last = da_data d /\ Forall (fun c => blen c = max) chunks /\ blen last <= max /\
    (da_data d <> [] -> last <> []).
Proof. exact data_split. Qed.
Print Assumptions C38_data_split.
(** The receiver gets the data in these pieces, END_STREAM with the last only. *)
Theorem C38_data_received : forall L t max d es eh pri, 0 < max < 16777216 -> 0 < da_id d < 2147483648 ->
  da_flags d = flags_of es eh false pri ->
  exists out chunks last, data_encode max d = Ok out /\
    received L t out t (map (fun c => FData (mkData (da_id d) c (flags_of false eh false pri))) chunks ++
                        [FData (mkData (da_id d) last (flags_of es eh false pri))]) /\
    concat chunks ++ last = da_data d.
Proof.
  intros L t max d es eh pri M I F. destruct (flags_of_view es eh false pri) as (_ & _ & _ & P & _ & _ & _ & U).
  destruct (data_received L t max d M I) as (out & cs & la & E & R & C); [rewrite F; exists es, eh, false, pri; reflexivity|rewrite F; exact P|].
  exists out, cs, la. rewrite F, U in R. auto.
Qed.
Print Assumptions C38_data_received.
(** END_STREAM as set through the API. *)
Theorem C38_set_end_stream : forall d es eh pad pri b, da_flags d = flags_of es eh pad pri ->
  data_set_end_stream d b = mkData (da_id d) (da_data d) (flags_of b eh pad pri).
Proof.
  intros d es eh pad pri b F. unfold data_set_end_stream. rewrite F.
  destruct (flags_of_view es eh pad pri) as (_ & _ & _ & _ & _ & _ & S & U). rewrite S, U. destruct b; reflexivity.
Qed.
Print Assumptions C38_set_end_stream.
(** The condition on the size is needed: with zero the call does not return. *)
Theorem C38_zero_max_diverges : forall d, da_data d <> [] -> data_encode 0 d = Diverge.
Proof. intros d. apply data_loop_zero. Qed.
Print Assumptions C38_zero_max_diverges.
(** Refuted for the PADDED flag: it is written without a pad length, and the receiver loses an octet. *)
Theorem C38_padded_refuted : exists d out t, da_flags d = flags_of true false true false /\ da_id d = 1 /\
  da_data d = [1; 2; 3] /\ data_encode 16384 d = Ok out /\
  recv t 100 out = (t, Ok (FData (mkData 1 [2; 3] (da_flags d)), [])).
Proof. exists (mkData 1 [1; 2; 3] 9). eexists. exists hi_new. split; [reflexivity|]. split; [reflexivity|]. split; [reflexivity|]. split; [vm_compute; reflexivity|]. vm_compute. reflexivity. Qed.
Print Assumptions C38_padded_refuted.
Example C38_nonvacuous : data_encode 4 (mkData 3 (str "abcdefghi") 1) =
  Ok ([0;0;4;0;0;0;0;0;3] ++ str "abcd" ++ [0;0;4;0;0;0;0;0;3] ++ str "efgh" ++ [0;0;1;0;1;0;0;0;3] ++ str "i").
Proof. vm_compute. reflexivity. Qed.

(** C39. Control frames are received as they were sent. *)
Theorem C39_ping : forall t max p rest, blen (pg_payload p) = 8 -> recv t max (ping_encode p ++ rest) = (t, Ok (FPing p, rest)).
Proof. exact recv_ping. Qed.
Print Assumptions C39_ping.
Theorem C39_pong : forall p, pg_payload (ret_pong p) = pg_payload p /\ pg_ack (ret_pong p) = true.
Proof. intros p. split; reflexivity. Qed.
Print Assumptions C39_pong.
Theorem C39_reset : forall t max r rest, rs_id r < 2147483648 -> rs_code r < 4294967296 ->
  recv t max (reset_encode r ++ rest) = (t, Ok (FReset r, rest)).
Proof. exact recv_reset. Qed.
Print Assumptions C39_reset.
Theorem C39_window_update : forall t max w rest, wu_id w < 2147483648 -> 1 <= wu_inc w < 2147483648 ->
  recv t max (winupd_encode w ++ rest) = (t, Ok (FWindowUpdate w, rest)).
Proof. exact recv_winupd. Qed.
Print Assumptions C39_window_update.
Theorem C39_goaway : forall t max g rest, ga_last g < 2147483648 -> ga_code g < 4294967296 -> blen (ga_debug g) + 8 < 16777216 ->
  recv t max (goaway_encode g ++ rest) = (t, Ok (FGoAway g, rest)).
Proof. exact recv_goaway. Qed.
Print Assumptions C39_goaway.
(** The payloads accepted, exactly, and those of a wrong size. *)
Theorem C39_ping_exact : forall h l, fh_kind h = KPing -> ping_parse h l =
  if negb (fh_id h =? 0) then Err (EHttp2 InvalidStreamId)
  else if blen l =? 8 then Ok (mkPing (is_ack (fh_flag h)) l) else Err (EHttp2 BadFrameSize).
Proof. exact ping_outcome. Qed.
Print Assumptions C39_ping_exact.
Theorem C39_reset_exact : forall h l, bytes_ok l ->
  (forall r, reset_parse h l = Ok r <-> exists code, code < 4294967296 /\ l = octets4 code /\ r = mkReset (fh_id h) code) /\
  (blen l <> 4 -> reset_parse h l = Err (EHttp2 InvalidPayloadLength)).
Proof. exact reset_exact. Qed.
Print Assumptions C39_reset_exact.
Theorem C39_window_update_exact : forall h l, fh_kind h = KWindowUpdate -> bytes_ok l ->
  (forall w, winupd_parse h l = Ok w <->
     exists r inc, r <= 1 /\ 1 <= inc < 2147483648 /\ l = octets4 (r * 2147483648 + inc) /\ w = mkWin (fh_id h) inc) /\
  (blen l <> 4 -> winupd_parse h l = Err (EHttp2 BadFrameSize)) /\
  (forall r, r <= 1 -> l = octets4 (r * 2147483648) -> winupd_parse h l = Err (EHttp2 InvalidWindowUpdateValue)).
Proof. exact winupd_exact. Qed.
Print Assumptions C39_window_update_exact.
Theorem C39_goaway_exact : forall l, bytes_ok l ->
  (forall g, goaway_parse l = Ok g <->
     exists r, r <= 1 /\ ga_last g < 2147483648 /\ ga_code g < 4294967296 /\
       l = octets4 (r * 2147483648 + ga_last g) ++ octets4 (ga_code g) ++ ga_debug g) /\
  (blen l < 8 -> goaway_parse l = Err (EHttp2 BadFrameSize)).
Proof. exact goaway_exact. Qed.
Print Assumptions C39_goaway_exact.
(** PRIORITY: what is read, for every payload.  Missing for the full property: payloads longer than five
    octets are to be rejected ([junk] is to be empty), and PRIORITY frames are to be written properly. *)
Theorem C39_priority_partial : forall h l, bytes_ok l ->
  (forall p, priority_parse h l = Ok p <->
     exists (excl : bool) dep w junk, dep < 2147483648 /\ w < 256 /\ dep <> fh_id h /\
       l = octets4 ((if excl then 2147483648 else 0) + dep) ++ [w] ++ junk /\ p = mkPriority (fh_id h) (mkDep dep w excl)) /\
  (blen l < 5 -> priority_parse h l = Err (EHttp2 InvalidPayloadLength)).
Proof. exact priority_exact. Qed.
Print Assumptions C39_priority_partial.
(** Refuted: the frame written for a PRIORITY value announces an empty payload, so that the receiver
    rejects it and takes the five octets for the start of the next frame. *)
Theorem C39_priority_refuted : forall t max p, pr_id p < 4294967296 ->
  firstn 3 (priority_encode p) = [0; 0; 0] /\ recv t max (priority_encode p) = (t, Err (EHttp2 InvalidPayloadLength)).
Proof.
  intros t max [id [d w e]] I. cbn [pr_id] in I. split; [reflexivity|]. unfold recv, priority_encode.
  unfold fh_new. rewrite fh_encode_octets; [|reflexivity|exact I]. cbn [pr_id]. rewrite fh_parse_octets; [|reflexivity|exact I|reflexivity].
  change (flag_new flag_zero) with (Some 0). cbv iota. cbn [fh_length]. 
  destruct (take_N 0 _) as [[q r]|] eqn:E; [|discriminate E]. cbn in E. injection E as <- <-. reflexivity.
Qed.
Print Assumptions C39_priority_refuted.
(** Refuted: the exclusive bit is not written. *)
Theorem C39_priority_exclusive_refuted : forall d e, dep_encode (mkDep (dp_id d) (dp_weight d) e) = dep_encode d.
Proof. reflexivity. Qed.
Print Assumptions C39_priority_exclusive_refuted.
Theorem C39_priority_oversize_refuted : exists h l p, blen l = 6 /\ priority_parse h l = Ok p.
Proof. exists (mkFH 6 KPriority 0 5), [128; 0; 0; 3; 15; 99]. eexists. split; [reflexivity|vm_compute; reflexivity]. Qed.
Print Assumptions C39_priority_oversize_refuted.
Example C39_nonvacuous : forall t,
  recv t 100 (ping_encode (mkPing true [1;2;3;4;5;6;7;8])) = (t, Ok (FPing (mkPing true [1;2;3;4;5;6;7;8]), [])) /\
  recv t 100 [0;0;7;6;0;0;0;0;0;1;2;3;4;5;6;7] = (t, Err (EHttp2 BadFrameSize)) /\
  recv t 100 [0;0;4;8;0;0;0;0;0;0;0;0;0] = (t, Err (EHttp2 InvalidWindowUpdateValue)) /\
  recv t 100 (goaway_encode (mkGoAway 7 2 (str "bye"))) = (t, Ok (FGoAway (mkGoAway 7 2 (str "bye")), [])) /\
  recv t 100 [0;0;5;2;0;0;0;0;5;128;0;0;3;15] = (t, Ok (FPriority (mkPriority 5 (mkDep 3 15 true)), [])).
Proof. intros t. repeat split. Qed.

(** C41. The pad-length octet of a padded DATA frame is removed and a pad length beyond the payload is
    rejected.  Missing for the full property: the padding is to be removed too (the theorem shows that it is
    delivered behind the data), and a pad length equal to the payload length is to be rejected. *)
Theorem C41_padding_partial : forall t L f id data padding rest,
  1 + blen data + blen padding < 16777216 -> 0 < id < 2147483648 -> defined_flags f -> is_padded f = true ->
  recv t L (frame_octets 0 f id ([blen padding] ++ data ++ padding) ++ rest) =
  (t, Ok (FData (mkData id (data ++ padding) f), rest)).
Proof.
  intros t L f id data padding rest B I D P. cbn [app]. rewrite recv_padded_data; [|rewrite blen_app; lia|exact I|exact D|exact P].
  rewrite blen_app. destruct (N.ltb_spec (blen data + blen padding + 1) (blen padding)) as [C|_]; [lia|reflexivity].
Qed.
Print Assumptions C41_padding_partial.
(** Frames without actual padding are delivered correctly. *)
Theorem C41_no_padding : forall t L f id data rest,
  1 + blen data < 16777216 -> 0 < id < 2147483648 -> defined_flags f -> is_padded f = true ->
  recv t L (frame_octets 0 f id ([0] ++ data) ++ rest) = (t, Ok (FData (mkData id data f), rest)).
Proof.
  intros t L f id data rest B I D P. cbn [app]. rewrite recv_padded_data; [|lia|exact I|exact D|exact P].
  destruct (N.ltb_spec (blen data + 1) 0) as [C|_]; [lia|reflexivity].
Qed.
Print Assumptions C41_no_padding.
Theorem C41_too_much_rejected_partial : forall t L f id p l rest,
  1 + blen l < 16777216 -> 0 < id < 2147483648 -> defined_flags f -> is_padded f = true -> blen l + 1 < p ->
  recv t L (frame_octets 0 f id (p :: l) ++ rest) = (t, Err (EHttp2 (TooMuchPadding p))).
Proof.
  intros t L f id p l rest B I D P H. rewrite recv_padded_data by assumption. rewrite (proj2 (N.ltb_lt _ _) H). reflexivity.
Qed.
Print Assumptions C41_too_much_rejected_partial.
(** Refuted: the padding reaches the application. *)
Theorem C41_padding_refuted : exists t, 
  recv t 100 (frame_octets 0 8 1 ([2] ++ str "hi" ++ [0; 0])) = (t, Ok (FData (mkData 1 (str "hi" ++ [0; 0]) 8), [])).
Proof. exists hi_new. vm_compute. reflexivity. Qed.
Print Assumptions C41_padding_refuted.
(** Refuted: a pad length that leaves no room is accepted (RFC 9113 6.1: equal to the payload length or
    greater is an error). *)
Theorem C41_limit_refuted : exists t f, recv t 100 (frame_octets 0 8 1 [3; 104; 105]) = (t, Ok (f, [])).
Proof. exists hi_new. eexists. vm_compute. reflexivity. Qed.
Print Assumptions C41_limit_refuted.
Example C41_nonvacuous : defined_flags 9 /\ is_padded 9 = true.
Proof. split; [exists true, false, true, false|]; reflexivity. Qed.

(** C57. Calling next_id repeatedly. *)
Fixpoint ids (n : nat) (s : N) : res (list N) :=
  match n with
  | O => Ok []
  | S k => ' (i, s') <- next_id s ;; r <- ids k s' ;; Ok (i :: r)
  end.
Lemma ids_spec n : forall s, s + 2 * N.of_nat n < 4294967296 -> ids n s = Ok (map (fun k => s + 2 * N.of_nat k) (seq 0 n)).
Proof.
  induction n as [|n IH]; intros s H; [reflexivity|]. cbn [ids]. rewrite next_id_ok by lia. cbn [bind]. rewrite IH by lia. cbn [bind seq map].
  f_equal. f_equal; [lia|]. rewrite <- seq_shift, map_map. apply map_ext. intros k. lia.
Qed.
Theorem C57_next_ids : forall n s, s + 2 * N.of_nat n < 4294967296 ->
  exists l, ids n s = Ok l /\ l = map (fun k => s + 2 * N.of_nat k) (seq 0 n) /\
    NoDup l /\ Forall (fun i => N.odd i = N.odd s) l.
Proof.
  intros n s H. eexists. split; [apply ids_spec, H|]. split; [reflexivity|]. split.
  - apply FinFun.Injective_map_NoDup; [intros a b E; lia|apply seq_NoDup].
  - apply Forall_forall. intros i I. apply in_map_iff in I as (k & <- & _). rewrite N.odd_add, N.odd_mul. cbn. apply xorb_false_r.
Qed.
Print Assumptions C57_next_ids.
(** Beyond the counter's range the call panics. *)
Theorem C57_overflow : forall s, s < 4294967296 -> (next_id s = Panic <-> 4294967294 <= s).
Proof.
  intros s H. unfold next_id. change (2 ^ 32) with 4294967296. destruct (N.ltb_spec (s + 2) 4294967296); split; intros; try discriminate; try reflexivity; lia.
Qed.
Print Assumptions C57_overflow.
(** Within the counter's range, but beyond the 31 bits of an identifier on the wire, numbers are handed out
    that are not stream identifiers. *)
Theorem C57_range_refuted : exists i s, next_id 2147483649 = Ok (i, s) /\ fst (stream_parse (stream_encode i)) <> i.
Proof. exists 2147483649, 2147483651. split; [reflexivity|]. vm_compute. discriminate. Qed.
Print Assumptions C57_range_refuted.
Example C57_nonvacuous : ids 3 1 = Ok [1; 3; 5].
Proof. reflexivity. Qed.
