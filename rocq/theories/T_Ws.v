(** Properties C44-C53: the WebSocket codec. *)
From Coq Require Import Ascii String NArith ZArith Bool List.
From Verif Require Import Base S_Utf8 M_Ws S_Ws S_WsApi P_Ws.
Import ListNotations.
Local Open Scope N_scope.

(** ** C44: header round-trip.
    Every header with legal flags, opcode below 16, a 64-bit length and, for
    control opcodes, FIN set and at most 125 octets, is written in the layout
    of RFC 6455 and read back unchanged, whatever follows. *)
Theorem C44_ws_header_roundtrip : forall h rest,
  wh_flags h < 256 -> N.land (wh_flags h) 15 = 0 -> wh_opcode h < 16 -> wh_len h < 2 ^ 64 ->
  control_ok (N.testbit (wh_flags h) 7) (wh_opcode h) (wh_len h) ->
  write_header h
  = Ok (spec_header (N.testbit (wh_flags h) 7) (N.testbit (wh_flags h) 6) (N.testbit (wh_flags h) 5)
          (N.testbit (wh_flags h) 4) (wh_opcode h) (wh_mask h) (wh_len h)) /\
  (forall w, write_header h = Ok w -> read_header (w ++ rest) = Ok (h, rest)).
Proof. exact ws_header_roundtrip. Qed.
Print Assumptions C44_ws_header_roundtrip.

(** Exactly the illegal headers are refused by the writer. *)
Theorem C44_ws_write_rejects : forall h,
  (15 < wh_opcode h \/ (8 <= wh_opcode h /\ 126 <= wh_len h)) <->
  exists s, write_header h = Err (EWs (DataFrameError s)).
Proof. exact write_header_reject. Qed.
Print Assumptions C44_ws_write_rejects.

(** The FIN hypothesis on control headers is needed: such a header is written
    but the reader refuses it. *)
Theorem C44_ws_header_roundtrip_refuted : exists h w,
  wh_flags h < 256 /\ N.land (wh_flags h) 15 = 0 /\ wh_opcode h < 16 /\ wh_len h < 2 ^ 64 /\
  write_header h = Ok w /\ forall x, read_header w <> Ok x.
Proof.
  exists {| wh_flags := 0; wh_opcode := 9; wh_mask := None; wh_len := 0 |}, [9; 0].
  repeat split. intros x. vm_compute. discriminate.
Qed.
Print Assumptions C44_ws_header_roundtrip_refuted.

Example C44_nonvacuous :
  let h := {| wh_flags := 192; wh_opcode := 2; wh_mask := Some (1, 2, 3, 4); wh_len := 70000 |} in
  control_ok (N.testbit (wh_flags h) 7) (wh_opcode h) (wh_len h) /\
  write_header h = Ok [194; 255; 0; 0; 0; 0; 0; 1; 17; 112; 1; 2; 3; 4].
Proof. split; [intros H; vm_compute in H; exfalso; apply H; reflexivity | reflexivity]. Qed.

(** ** C45: only canonical headers are accepted. *)
Theorem C45_ws_header_canonical : forall l h rest,
  bytes_ok l -> read_header l = Ok (h, rest) ->
  exists w, write_header h = Ok w /\ l = w ++ rest /\
    wh_opcode h < 16 /\ wh_len h < 2 ^ 64 /\ wh_flags h < 256 /\ N.land (wh_flags h) 15 = 0 /\
    control_ok (N.testbit (wh_flags h) 7) (wh_opcode h) (wh_len h).
Proof. exact ws_header_canonical. Qed.
Print Assumptions C45_ws_header_canonical.

(** A header cut short is reported as missing data, never misread. *)
Theorem C45_ws_header_truncated : forall h w p s,
  wh_flags h < 256 -> N.land (wh_flags h) 15 = 0 -> wh_opcode h < 16 -> wh_len h < 2 ^ 64 ->
  control_ok (N.testbit (wh_flags h) 7) (wh_opcode h) (wh_len h) ->
  write_header h = Ok w -> w = p ++ s -> s <> [] -> read_header p = Err (EIo UnexpectedEof).
Proof. exact ws_header_truncated. Qed.
Print Assumptions C45_ws_header_truncated.

Example C45_nonvacuous :
  read_header [130; 126; 1; 0; 9] =
    Ok ({| wh_flags := 128; wh_opcode := 2; wh_mask := None; wh_len := 256 |}, [9]) /\
  read_header [130; 126; 0; 125; 9] = Err (EWs (DataFrameError "Invalid data frame length")) /\
  read_header [9; 0] = Err (EWs (ProtocolError "Illegal fragmented control frame")).
Proof. repeat split. Qed.

(** ** C46: masking. *)
Theorem C46_mask_is_rfc : forall a b c d data,
  mask_data (a, b, c, d) data = spec_mask a b c d data.
Proof. exact mask_data_spec. Qed.
Print Assumptions C46_mask_is_rfc.

Theorem C46_mask_involution : forall k data, mask_data k (mask_data k data) = data.
Proof. exact mask_data_invol. Qed.
Print Assumptions C46_mask_involution.

(** Writing any sequence of pieces through a Masker sends the same octets as
    masking their concatenation. *)
Theorem C46_masker_chunk_independent : forall k out chunks,
  mk_out (fold_left masker_put chunks (masker_new k out)) = out ++ mask_data k (concat chunks).
Proof. intros k out chunks. exact (masker_chunks chunks (masker_new k out)). Qed.
Print Assumptions C46_masker_chunk_independent.

Example C46_nonvacuous :
  mk_out (fold_left masker_put [[1; 2; 3]; []; [4; 5]; [6]] (masker_new (10, 20, 30, 40) []))
  = [11; 22; 29; 44; 15; 18] /\
  spec_mask 10 20 30 40 [1; 2; 3; 4; 5; 6] = [11; 22; 29; 44; 15; 18].
Proof. split; reflexivity. Qed.

(** ** C47: data frames round-trip, and frame_size is exact. *)
Theorem C47_dataframe_roundtrip : forall d key rest,
  frame_ok d ->
  exists w, write_to (dataframe_df d) key = Ok w /\
    w = spec_frame (d_fin d) (fst (fst (d_rsv d))) (snd (fst (d_rsv d))) (snd (d_rsv d))
          (opcode_u8 (d_op d)) key (d_data d) /\
    read_dataframe (w ++ rest) = Ok (d, rest) /\
    blen w = frame_size (dataframe_df d) (match key with Some _ => true | None => false end).
Proof. exact dataframe_roundtrip. Qed.
Print Assumptions C47_dataframe_roundtrip.

(** Any number of frames written one after the other is read back in order. *)
Theorem C47_frames_roundtrip : forall ds rest,
  Forall (fun x => frame_ok (fst x)) ds ->
  exists w, write_frames ds = Ok w /\ read_frames (length ds) (w ++ rest) = Ok (map fst ds, rest).
Proof. exact frames_roundtrip. Qed.
Print Assumptions C47_frames_roundtrip.

Example C47_nonvacuous :
  let d := {| d_fin := false; d_rsv := (true, false, true); d_op := OText; d_data := repeat 7 126 |} in
  frame_ok d /\ write_to (dataframe_df d) None = Ok (81 :: 126 :: 0 :: 126 :: repeat 7 126).
Proof. split; [split; [intros H; exfalso; apply H; reflexivity | reflexivity] | reflexivity]. Qed.

(** ** C48: reading is total, bounded and prefix-safe. *)
Theorem C48_read_total : forall l,
  (exists d r, read_dataframe l = Ok (d, r)) \/ (exists e, read_dataframe l = Err e).
Proof. exact read_dataframe_total. Qed.
Print Assumptions C48_read_total.

Theorem C48_read_limit_total : forall lim l,
  (exists d r, read_dataframe_with_limit lim l = Ok (d, r)) \/
  (exists e, read_dataframe_with_limit lim l = Err e).
Proof. exact read_limit_total. Qed.
Print Assumptions C48_read_limit_total.

(** The limited reader delivers exactly the frames of the unlimited one whose
    payload fits in the limit. *)
Theorem C48_read_limit : forall lim l d r,
  read_dataframe_with_limit lim l = Ok (d, r) <->
  read_dataframe l = Ok (d, r) /\ blen (d_data d) <= lim.
Proof. exact read_limit_ok. Qed.
Print Assumptions C48_read_limit.

Theorem C48_read_prefix : forall d key w p s,
  frame_ok d -> write_to (dataframe_df d) key = Ok w -> w = p ++ s -> s <> [] ->
  read_dataframe p = Err (EIo UnexpectedEof).
Proof. exact dataframe_prefix. Qed.
Print Assumptions C48_read_prefix.

Theorem C48_read_limit_prefix : forall lim d key w p s,
  frame_ok d -> write_to (dataframe_df d) key = Ok w -> w = p ++ s -> s <> [] ->
  exists e, read_dataframe_with_limit lim p = Err e.
Proof. exact read_limit_prefix. Qed.
Print Assumptions C48_read_limit_prefix.

(** What is delivered is a well-formed frame of RFC 6455 and exactly its octets
    are consumed; later octets never change it. *)
Theorem C48_read_exact : forall l d r,
  bytes_ok l -> read_dataframe l = Ok (d, r) ->
  exists key,
    l = spec_frame (d_fin d) (fst (fst (d_rsv d))) (snd (fst (d_rsv d))) (snd (d_rsv d))
          (opcode_u8 (d_op d)) key (d_data d) ++ r /\
    control_ok (d_fin d) (opcode_u8 (d_op d)) (blen (d_data d)) /\
    blen (d_data d) < 2 ^ 64 /\ key_ok key.
Proof. exact read_dataframe_inv. Qed.
Print Assumptions C48_read_exact.

Theorem C48_read_stable : forall l d r x,
  bytes_ok l -> read_dataframe l = Ok (d, r) -> read_dataframe (l ++ x) = Ok (d, r ++ x).
Proof. exact read_dataframe_ext. Qed.
Print Assumptions C48_read_stable.

Example C48_nonvacuous :
  read_dataframe_with_limit 2 [130; 2; 7; 8; 9]
  = Ok ({| d_fin := true; d_rsv := (false, false, false); d_op := OBinary; d_data := [7; 8] |}, [9]) /\
  read_dataframe_with_limit 1 [130; 2; 7; 8; 9] = Err (EIo InvalidData).
Proof. split; reflexivity. Qed.

(** ** C49: fragmentation. *)
Theorem C49_fragmentation_independent : forall o pieces,
  pieces <> [] ->
  msg_from_dataframes (map (fun x => dataframe_df (frag_frame x)) (spec_fragments (opcode_u8 o) pieces))
  = msg_from_dataframes [dataframe_df {| d_fin := true; d_rsv := (false, false, false); d_op := o;
                                         d_data := concat pieces |}].
Proof. exact fragmentation_independent. Qed.
Print Assumptions C49_fragmentation_independent.

(** The same over the wire, every fragment with its own masking key. *)
Theorem C49_fragmentation_wire : forall o pieces keys rest,
  opcode_u8 o < 8 -> pieces <> [] -> Forall (fun p => blen p < 2 ^ 64) pieces ->
  length keys = length pieces ->
  exists w ds,
    write_frames (combine (map frag_frame (spec_fragments (opcode_u8 o) pieces)) keys) = Ok w /\
    read_frames (length pieces) (w ++ rest) = Ok (ds, rest) /\
    msg_from_dataframes (map dataframe_df ds)
    = msg_from_dataframes [dataframe_df {| d_fin := true; d_rsv := (false, false, false); d_op := o;
                                           d_data := concat pieces |}].
Proof. exact fragments_wire. Qed.
Print Assumptions C49_fragmentation_wire.

Example C49_nonvacuous :
  (* "é" split between its two octets *)
  msg_from_dataframes (map (fun x => dataframe_df (frag_frame x)) (spec_fragments 1 [[195]; []; [169]]))
  = Ok (msg_text [195; 169]).
Proof. reflexivity. Qed.

(** ** C50: messages round-trip. *)
Theorem C50_message_roundtrip : forall m key rest,
  api_message m ->
  exists w d, write_to (message_df m) key = Ok w /\ read_dataframe (w ++ rest) = Ok (d, rest) /\
    msg_from_dataframes [dataframe_df d] = Ok m.
Proof. exact message_roundtrip. Qed.
Print Assumptions C50_message_roundtrip.

Theorem C50_owned_message_roundtrip : forall m key rest,
  api_owned m ->
  exists w d, write_to (owned_df m) key = Ok w /\ read_dataframe (w ++ rest) = Ok (d, rest) /\
    owned_from_dataframes [dataframe_df d] = Ok m.
Proof. exact owned_roundtrip. Qed.
Print Assumptions C50_owned_message_roundtrip.

Theorem C50_message_size : forall m key,
  api_message m ->
  exists w, write_to (message_df m) key = Ok w /\
    blen w = frame_size (message_df m) (match key with Some _ => true | None => false end).
Proof.
  intros m key H. destruct (message_wire m key [] H) as (w & Hw & Hs & _). exists w. split; [exact Hw|exact Hs].
Qed.
Print Assumptions C50_message_size.

Example C50_nonvacuous :
  api_owned (OwClose (Some {| cd_code := 1000; cd_reason := str "bye" |})) /\
  write_to (owned_df (OwClose (Some {| cd_code := 1000; cd_reason := str "bye" |}))) (Some (1, 1, 1, 1))
  = Ok [136; 133; 1; 1; 1; 1; 2; 233; 99; 120; 100].
Proof.
  split; [|reflexivity]. cbn [api_owned cd_code cd_reason].
  split; [reflexivity|]. split; [apply P_Base.utf8_valid_iff; reflexivity|]. vm_compute. discriminate.
Qed.

(** ** C51: delivered text is valid UTF-8. *)
Theorem C51_text_is_utf8 : forall frames s,
  owned_from_dataframes frames = Ok (OwText s) ->
  is_utf8 s /\ s = concat (map df_take frames) /\
  exists d rest, frames = d :: rest /\ df_opcode d = 1.
Proof. exact from_frames_text. Qed.
Print Assumptions C51_text_is_utf8.

Theorem C51_close_reason_is_utf8 : forall frames c,
  owned_from_dataframes frames = Ok (OwClose (Some c)) ->
  is_utf8 (cd_reason c) /\
  exists a b, concat (map df_take frames) = a :: b :: cd_reason c /\ cd_code c = a * 256 + b.
Proof. exact from_frames_close. Qed.
Print Assumptions C51_close_reason_is_utf8.

(** A text message is delivered exactly when its octets are valid UTF-8. *)
Theorem C51_text_iff_utf8 : forall d rest,
  df_opcode d = 1 -> Forall no_rsv (d :: rest) -> Forall (fun d => df_opcode d = 0) rest ->
  let s := concat (map df_take (d :: rest)) in
  (is_utf8 s -> msg_from_dataframes (d :: rest) = Ok (msg_text s)
             /\ owned_from_dataframes (d :: rest) = Ok (OwText s)) /\
  (~ is_utf8 s -> msg_from_dataframes (d :: rest) = Err (EExtension "Convert Utf8 error")
             /\ owned_from_dataframes (d :: rest) = Err (EExtension "Convert Utf8 error")).
Proof. exact from_frames_text_iff. Qed.
Print Assumptions C51_text_iff_utf8.

Example C51_nonvacuous :
  owned_from_dataframes [dataframe_df (frag_frame (true, 1, [237; 160; 128]))]
  = Err (EExtension "Convert Utf8 error") /\
  owned_from_dataframes [dataframe_df (frag_frame (true, 1, [237; 159; 191]))] = Ok (OwText [237; 159; 191]).
Proof. split; reflexivity. Qed.

(** ** C52: fragment sequences. What an accepted sequence satisfies.
    Missing from the full property: the final-fragment flags and the ban on
    fragmented control messages, which the code does not check (refuted below). *)
Theorem C52_fragment_validation_partial : forall frames m,
  msg_from_dataframes frames = Ok m ->
  frames <> [] /\ Forall no_rsv frames /\ Forall (fun d => df_opcode d = 0) (tl frames) /\
  (exists d rest, frames = d :: rest /\ df_opcode d = mtype_u8 (m_op m)) /\
  (bytes_ok (concat (map df_take frames)) -> concat (map df_take frames) = df_take (message_df m)).
Proof. exact from_frames_accept. Qed.
Print Assumptions C52_fragment_validation_partial.

(** A sequence whose only frame is not final is accepted. *)
Theorem C52_missing_fin_refuted : exists d m,
  d_fin d = false /\ msg_from_dataframes [dataframe_df d] = Ok m.
Proof.
  exists {| d_fin := false; d_rsv := (false, false, false); d_op := OBinary; d_data := [1] |}, (msg_binary [1]).
  split; reflexivity.
Qed.
Print Assumptions C52_missing_fin_refuted.

(** A control message in two fragments is accepted, and exceeds 125 octets. *)
Theorem C52_control_fragments_refuted : exists d1 d2 m,
  d_op d1 = OPing /\ msg_from_dataframes [dataframe_df d1; dataframe_df d2] = Ok m /\
  125 < blen (m_payload m).
Proof.
  exists {| d_fin := false; d_rsv := (false, false, false); d_op := OPing; d_data := repeat 0 100 |},
    {| d_fin := true; d_rsv := (false, false, false); d_op := Continuation; d_data := repeat 0 100 |},
    (msg_ping (repeat 0 200)).
  repeat split.
Qed.
Print Assumptions C52_control_fragments_refuted.

Example C52_nonvacuous :
  msg_from_dataframes (map (fun x => dataframe_df (frag_frame x)) [(false, 2, [1]); (true, 0, [2])])
  = Ok (msg_binary [1; 2]) /\
  msg_from_dataframes (map (fun x => dataframe_df (frag_frame x)) [(false, 2, [1]); (true, 2, [2])])
  = Err (EWs (ProtocolError "Unexpected non-continuation data frame")) /\
  msg_from_dataframes [] = Err (EWs (ProtocolError "No dataframes provided")).
Proof. repeat split. Qed.

(** ** C53: close codes. *)
Theorem C53_close_code_roundtrip : forall c, close_u16 (close_of_u16 c) = c.
Proof. exact close_roundtrip. Qed.
Print Assumptions C53_close_code_roundtrip.

Theorem C53_close_code_injective : forall a b, close_of_u16 a = close_of_u16 b -> a = b.
Proof. exact close_injective. Qed.
Print Assumptions C53_close_code_injective.

Example C53_nonvacuous : close_of_u16 1002 = CProtocol /\ close_of_u16 4000 = COther 4000.
Proof. split; reflexivity. Qed.
