(** Model of src/ws/: frame header, masking, data frames, messages. *)
From Coq Require Import Ascii String NArith ZArith Lia Bool List.
From Verif Require Import Base.
Import ListNotations.
Local Open Scope N_scope.

(** ** src/ws/mask.rs *)

(** A masking key [u8; 4]. *)
Definition mkey := (N * N * N * N)%type.
Definition mkey_list (k : mkey) : bytes := let '(a, b, c, d) := k in [a; b; c; d].
(** self.key[self.pos]; pos is always reduced modulo 4. *)
Definition mkey_at (k : mkey) (pos : nat) : N := nth (pos mod 4) (mkey_list k) 0.

(** mask.rs 17-21: struct Masker, with the bytes already sent to the endpoint. *)
Record masker := { mk_key : mkey; mk_pos : nat; mk_out : bytes }.

(** mask.rs 26-32: Masker::new; the endpoint already contains [out]. *)
Definition masker_new (k : mkey) (out : bytes) : masker :=
  {| mk_key := k; mk_pos := 0; mk_out := out |}.

(** mask.rs 59-62: the loop of put_slice. Returns the masked buffer and the new position. *)
Fixpoint mask_loop (k : mkey) (pos : nat) (src : bytes) : bytes * nat :=
  match src with
  | [] => ([], pos)
  | b :: src' =>
    let '(buf, pos') := mask_loop k ((pos + 1) mod 4) src' in
    (N.lxor b (mkey_at k pos) :: buf, pos')
  end.

(** mask.rs 57-64: Masker::put_slice. [inner_put_slice] of the buffer crate
    copies its argument to the endpoint through chunk_mut/advance_mut. *)
Definition masker_put (m : masker) (src : bytes) : masker :=
  let '(buf, pos') := mask_loop (mk_key m) (mk_pos m) src in
  {| mk_key := mk_key m; mk_pos := pos'; mk_out := mk_out m ++ buf |}.

(** mask.rs 68-75: mask_data, zip with the cycled key. *)
Fixpoint mask_data_from (k : mkey) (i : nat) (data : bytes) : bytes :=
  match data with
  | [] => []
  | b :: data' => N.lxor b (mkey_at k i) :: mask_data_from k (S i) data'
  end.
Definition mask_data (k : mkey) (data : bytes) : bytes := mask_data_from k 0 data.

(** ** src/ws/frame_header.rs *)

(** 8-18: bitflags WsFrameFlags, as its bits. *)
Definition FIN : N := 128.
Definition RSV1 : N := 64.
Definition RSV2 : N := 32.
Definition RSV3 : N := 16.
(** bitflags [contains] and [from_bits_truncate]. *)
Definition fcontains (flags f : N) : bool := N.land flags f =? f.
Definition flags_truncate (b : N) : N := N.land b (FIN + RSV1 + RSV2 + RSV3).

(** 22-31: struct WsFrameHeader. *)
Record ws_header := { wh_flags : N; wh_opcode : N; wh_mask : option mkey; wh_len : N }.

(** 34-67: write_header; the result is what is appended to the writer. *)
Definition write_header (h : ws_header) : res bytes :=
  if 15 <? wh_opcode h then Err (EWs (DataFrameError "Invalid data frame opcode"))
  else if (8 <=? wh_opcode h) && (126 <=? wh_len h)
  then Err (EWs (DataFrameError "Control frame length too long"))
  else
    let len := wh_len h in
    let b0 := N.lor (wh_flags h) (wh_opcode h) in
    let b1 := N.lor (match wh_mask h with Some _ => 128 | None => 0 end)
                    (if len <=? 125 then len else if len <=? 65535 then 126 else 127) in
    let ext := if (126 <=? len) && (len <=? 65535) then be_enc 2 len
               else if 65535 <? len then be_enc 8 len
               else [] in
    let mk := match wh_mask h with Some k => mkey_list k | None => [] end in
    Ok (b0 :: b1 :: ext ++ mk).

(** 80-97: the payload length field. *)
Definition read_len (b1 : N) (l : bytes) : res (N * bytes) :=
  let l7 := N.land b1 127 in
  if l7 <=? 125 then Ok (l7, l)
  else if l7 =? 126 then
    ' (len, l') <- try_get 2 l ;;
    if len <=? 125 then Err (EWs (DataFrameError "Invalid data frame length")) else Ok (len, l')
  else
    ' (len, l') <- try_get 8 l ;;
    if len <=? 65535 then Err (EWs (DataFrameError "Invalid data frame length")) else Ok (len, l').

(** 108-117: the masking key. *)
Definition read_mask (b1 : N) (l : bytes) : res (option mkey * bytes) :=
  if N.land b1 128 =? 128 then
    ' (a, l1) <- try_get 1 l ;;
    ' (b, l2) <- try_get 1 l1 ;;
    ' (c, l3) <- try_get 1 l2 ;;
    ' (d, l4) <- try_get 1 l3 ;;
    Ok (Some (a, b, c, d), l4)
  else Ok (None, l).

(** 70-125: read_header. *)
Definition read_header (l : bytes) : res (ws_header * bytes) :=
  ' (byte0, l1) <- try_get 1 l ;;
  ' (byte1, l2) <- try_get 1 l1 ;;
  let flags := flags_truncate byte0 in
  let opcode := N.land byte0 15 in
  ' (len, l3) <- read_len byte1 l2 ;;
  if (8 <=? opcode) && (126 <=? len)
  then Err (EWs (DataFrameError "Control frame length too long"))
  else if (8 <=? opcode) && negb (fcontains flags FIN)
  then Err (EWs (ProtocolError "Illegal fragmented control frame"))
  else
    ' (mask, l4) <- read_mask byte1 l3 ;;
    Ok ({| wh_flags := flags; wh_opcode := opcode; wh_mask := mask; wh_len := len |}, l4).

(** ** src/ws/dataframe.rs *)

(** 228-261: enum Opcode. *)
Inductive opcode :=
| Continuation | OText | OBinary | NonControl1 | NonControl2 | NonControl3 | NonControl4
| NonControl5 | OClose | OPing | OPong | Control1 | Control2 | Control3 | Control4 | Control5.

(** 268-288: Opcode::new. *)
Definition opcode_new (op : N) : option opcode :=
  match op with
  | 0 => Some Continuation | 1 => Some OText | 2 => Some OBinary | 3 => Some NonControl1
  | 4 => Some NonControl2 | 5 => Some NonControl3 | 6 => Some NonControl4 | 7 => Some NonControl5
  | 8 => Some OClose | 9 => Some OPing | 10 => Some OPong | 11 => Some Control1
  | 12 => Some Control2 | 13 => Some Control3 | 14 => Some Control4 | 15 => Some Control5
  | _ => None
  end.

(** 200-202: [self.opcode as u8], the position of the variant in the enum. *)
Definition opcode_u8 (o : opcode) : N :=
  match o with
  | Continuation => 0 | OText => 1 | OBinary => 2 | NonControl1 => 3 | NonControl2 => 4
  | NonControl3 => 5 | NonControl4 => 6 | NonControl5 => 7 | OClose => 8 | OPing => 9
  | OPong => 10 | Control1 => 11 | Control2 => 12 | Control3 => 13 | Control4 => 14 | Control5 => 15
  end.

(** 11-20: struct DataFrame; [reserved : [bool; 3]] is a triple. *)
Record dataframe := { d_fin : bool; d_rsv : bool * bool * bool; d_op : opcode; d_data : bytes }.

(** 37-73: read_dataframe_body ([_should_be_masked] is ignored by the code). *)
Definition read_dataframe_body (h : ws_header) (body : bytes) : res dataframe :=
  match opcode_new (wh_opcode h) with
  | None => Panic
  | Some op =>
    Ok {| d_fin := fcontains (wh_flags h) FIN;
          d_rsv := (fcontains (wh_flags h) RSV1, fcontains (wh_flags h) RSV2, fcontains (wh_flags h) RSV3);
          d_op := op;
          d_data := match wh_mask h with Some k => mask_data k body | None => body end |}
  end.

(** 76-86: read_dataframe. *)
Definition read_dataframe (l : bytes) : res (dataframe * bytes) :=
  ' (h, l1) <- read_header l ;;
  match take_N (wh_len h) l1 with
  | None => Err (EIo UnexpectedEof)
  | Some (data, l2) => d <- read_dataframe_body h data ;; Ok (d, l2)
  end.

(** 89-111: read_dataframe_with_limit. *)
Definition read_dataframe_with_limit (limit : N) (l : bytes) : res (dataframe * bytes) :=
  ' (h, l1) <- read_header l ;;
  if limit <? wh_len h then Err (EIo InvalidData) else
  match take_N (wh_len h) l1 with
  | None => Err (EIo UnexpectedEof)
  | Some (data, l2) => d <- read_dataframe_body h data ;; Ok (d, l2)
  end.

(** 114-191: trait DataFrameable, as the tuple of its methods' results.
    [df_chunks] is the sequence of [put_slice] calls made by [write_payload]
    ([put_u16] of the buffer crate is a [put_slice] of two big-endian octets). *)
Record dfable := {
  df_last : bool; df_opcode : N; df_rsv : bool * bool * bool;
  df_size : N; df_chunks : list bytes; df_take : bytes }.

(** 127-144: frame_size. *)
Definition frame_size (d : dfable) (masked : bool) : N :=
  1 + (if df_size d <=? 125 then 1 else if df_size d <=? 65535 then 3 else 9)
    + (if masked then 4 else 0) + df_size d.

(** 154-169: the flags written. [insert] is a bitwise or. *)
Definition df_flags (d : dfable) : N :=
  let '(r1, r2, r3) := df_rsv d in
  let f := 0 in
  let f := if df_last d then N.lor f FIN else f in
  let f := if r1 then N.lor f RSV1 else f in
  let f := if r2 then N.lor f RSV2 else f in
  if r3 then N.lor f RSV3 else f.

(** 153-190: write_to; the result is what reaches the writer. *)
Definition write_to (d : dfable) (key : option mkey) : res bytes :=
  let header := {| wh_flags := df_flags d; wh_opcode := df_opcode d;
                   wh_mask := key; wh_len := df_size d |} in
  data <- write_header header ;;
  match key with
  | Some k => Ok (mk_out (fold_left masker_put (df_chunks d) (masker_new k data)))
  | None => Ok (fold_left (fun out c => out ++ c) (df_chunks d) data)
  end.

(** 193-224: impl DataFrameable for DataFrame. *)
Definition dataframe_df (d : dataframe) : dfable :=
  {| df_last := d_fin d; df_opcode := opcode_u8 (d_op d); df_rsv := d_rsv d;
     df_size := blen (d_data d); df_chunks := [d_data d]; df_take := d_data d |}.

(** ** src/ws/message.rs *)

(** 16-27: enum Type and its discriminants. *)
Inductive mtype := TText | TBinary | TPing | TPong | TClose.
Definition mtype_u8 (t : mtype) : N :=
  match t with TText => 1 | TBinary => 2 | TPing => 9 | TPong => 10 | TClose => 8 end.

(** 38-46: struct Message. *)
Record message := { m_op : mtype; m_code : option N; m_payload : bytes }.

(** 58-119: the constructors. *)
Definition msg_text (s : bytes) : message := {| m_op := TText; m_code := None; m_payload := s |}.
Definition msg_binary (s : bytes) : message := {| m_op := TBinary; m_code := None; m_payload := s |}.
Definition msg_close : message := {| m_op := TClose; m_code := None; m_payload := [] |}.
Definition msg_close_because (code : N) (reason : bytes) : message :=
  {| m_op := TClose; m_code := Some code; m_payload := reason |}.
Definition msg_ping (s : bytes) : message := {| m_op := TPing; m_code := None; m_payload := s |}.
Definition msg_pong (s : bytes) : message := {| m_op := TPong; m_code := None; m_payload := s |}.

(** 125-132: into_pong; [None] is Err(()), in which case the message is unchanged. *)
Definition into_pong (m : message) : option message :=
  match m_op m with
  | TPing => Some {| m_op := TPong; m_code := m_code m; m_payload := m_payload m |}
  | _ => None
  end.

(** 135-173: impl DataFrameable for Message. *)
Definition message_df (m : message) : dfable :=
  {| df_last := true; df_opcode := mtype_u8 (m_op m); df_rsv := (false, false, false);
     df_size := blen (m_payload m) + match m_code m with Some _ => 2 | None => 0 end;
     df_chunks := match m_code m with
                  | Some c => [be_enc 2 c; m_payload m]
                  | None => [m_payload m]
                  end;
     df_take := match m_code m with
                | Some c => be_enc 2 c ++ m_payload m
                | None => m_payload m
                end |}.

(** 202-212: the loop over the frames, [i] the index of the first frame of the list. *)
Fixpoint collect_frames (first : bool) (frames : list dfable) (data : bytes) : res bytes :=
  match frames with
  | [] => Ok data
  | d :: rest =>
    if negb first && negb (df_opcode d =? opcode_u8 Continuation)
    then Err (EWs (ProtocolError "Unexpected non-continuation data frame"))
    else match df_rsv d with
         | (false, false, false) => collect_frames false rest (data ++ df_take d)
         | _ => Err (EWs (ProtocolError "Unsupported reserved bits received"))
         end
  end.

(** 220-242: building the message from opcode and payload (214-218: UTF-8 check first). *)
Definition build_message (op : option opcode) (data : bytes) : res message :=
  match op with
  | Some OText =>
    if utf8_valid data then Ok (msg_text data) else Err (EExtension "Convert Utf8 error")
  | Some OBinary => Ok (msg_binary data)
  | Some OClose =>
    match data with
    | [] => Ok msg_close
    | _ =>
      ' (code, rest) <- try_get 2 data ;;
      if utf8_valid rest then Ok (msg_close_because code rest)
      else Err (EExtension "Convert Utf8 error")
    end
  | Some OPing => Ok (msg_ping data)
  | Some OPong => Ok (msg_pong data)
  | _ => Err (EWs (ProtocolError "Unsupported opcode received"))
  end.

(** 187-243: Message::from_dataframes. *)
Definition msg_from_dataframes (frames : list dfable) : res message :=
  match frames with
  | [] => Err (EWs (ProtocolError "No dataframes provided"))
  | d :: _ =>
    data <- collect_frames true frames [] ;;
    build_message (opcode_new (df_opcode d)) data
  end.

(** 487-492: struct CloseData. *)
Record close_data := { cd_code : N; cd_reason : bytes }.

(** 255-270: enum OwnedMessage; strings are their UTF-8 bytes. *)
Inductive owned :=
| OwText (s : bytes) | OwBinary (s : bytes) | OwClose (c : option close_data)
| OwPing (s : bytes) | OwPong (s : bytes).

(** 279-343: classification. *)
Definition ow_is_close (m : owned) : bool := match m with OwClose _ => true | _ => false end.
Definition ow_is_control (m : owned) : bool :=
  match m with OwClose _ | OwPing _ | OwPong _ => true | _ => false end.
Definition ow_is_data (m : owned) : bool := negb (ow_is_control m).
Definition ow_is_ping (m : owned) : bool := match m with OwPing _ => true | _ => false end.
Definition ow_is_pong (m : owned) : bool := match m with OwPong _ => true | _ => false end.

(** 366-435: impl DataFrameable for OwnedMessage. *)
Definition owned_df (m : owned) : dfable :=
  {| df_last := true;
     df_opcode := mtype_u8 match m with
                           | OwText _ => TText | OwBinary _ => TBinary | OwClose _ => TClose
                           | OwPing _ => TPing | OwPong _ => TPong
                           end;
     df_rsv := (false, false, false);
     df_size := match m with
                | OwText s | OwBinary s | OwPing s | OwPong s => blen s
                | OwClose (Some c) => blen (cd_reason c) + 2
                | OwClose None => 0
                end;
     df_chunks := match m with
                  | OwText s | OwBinary s | OwPing s | OwPong s => [s]
                  | OwClose (Some c) => [be_enc 2 (cd_code c); cd_reason c]
                  | OwClose None => []
                  end;
     df_take := match m with
                | OwText s | OwBinary s | OwPing s | OwPong s => s
                | OwClose (Some c) => be_enc 2 (cd_code c) ++ cd_reason c
                | OwClose None => []
                end |}.

(** 449-468: From<Message> for OwnedMessage. *)
Definition owned_of_message (m : message) : owned :=
  match m_op m with
  | TText => OwText (utf8_lossy (m_payload m))
  | TClose =>
    match m_code m with
    | Some c => OwClose (Some {| cd_code := c; cd_reason := utf8_lossy (m_payload m) |})
    | None => OwClose None
    end
  | TBinary => OwBinary (m_payload m)
  | TPing => OwPing (m_payload m)
  | TPong => OwPong (m_payload m)
  end.

(** 470-483: From<OwnedMessage> for Message. *)
Definition message_of_owned (m : owned) : message :=
  match m with
  | OwText s => msg_text s
  | OwBinary s => msg_binary s
  | OwClose (Some c) => msg_close_because (cd_code c) (cd_reason c)
  | OwClose None => msg_close
  | OwPing s => msg_ping s
  | OwPong s => msg_pong s
  end.

(** 358-363: OwnedMessage::from_dataframes. *)
Definition owned_from_dataframes (frames : list dfable) : res owned :=
  m <- msg_from_dataframes frames ;; Ok (owned_of_message m).

(** 512-519: CloseData::into_bytes. *)
Definition close_data_bytes (c : close_data) : bytes := be_enc 2 (cd_code c) ++ cd_reason c.

(** 550-630: enum CloseCode. *)
Inductive close_code :=
| CNormal | CAway | CProtocol | CUnsupported | CStatus | CAbnormal | CInvalid | CPolicy | CSize
| CExtension | CError | CRestart | CAgain | CTls | CEmpty | COther (c : N).

(** 632-653: Into<u16>. *)
Definition close_u16 (c : close_code) : N :=
  match c with
  | CNormal => 1000 | CAway => 1001 | CProtocol => 1002 | CUnsupported => 1003 | CStatus => 1005
  | CAbnormal => 1006 | CInvalid => 1007 | CPolicy => 1008 | CSize => 1009 | CExtension => 1010
  | CError => 1011 | CRestart => 1012 | CAgain => 1013 | CTls => 1015 | CEmpty => 0 | COther c => c
  end.

(** 655-676: From<u16>. *)
Definition close_of_u16 (c : N) : close_code :=
  match c with
  | 1000 => CNormal | 1001 => CAway | 1002 => CProtocol | 1003 => CUnsupported | 1005 => CStatus
  | 1006 => CAbnormal | 1007 => CInvalid | 1008 => CPolicy | 1009 => CSize | 1010 => CExtension
  | 1011 => CError | 1012 => CRestart | 1013 => CAgain | 1015 => CTls | 0 => CEmpty
  | _ => COther c
  end.
