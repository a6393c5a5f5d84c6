(** Model of the HTTP/2 frame layer, src/http/http2/frame/{frame,mod,kind,flag,settings,data,ping,
    go_away,priority,reset,window_update}.rs.  A u8/u16/u32 is an [N]; a [Flag] is its bits; a
    StreamIdentifier and a Reason are their numbers.  Logging is dropped.  Encoders return the octets
    they write (the numbers of octets they report are the lengths). *)
From Coq Require Import Ascii String NArith Bool List.
From Verif Require Import Base.
Import ListNotations.
Local Open Scope N_scope.

(** http2/mod.rs:13-37 constants *)
Definition HTTP2_MAGIC : bytes := str "PRI * HTTP/2.0" ++ [13; 10; 13; 10] ++ str "SM" ++ [13; 10; 13; 10].
Definition DEFAULT_MAX_FRAME_SIZE : N := 16384.
Definition MAX_INITIAL_WINDOW_SIZE : N := 2 ^ 31 - 1.
Definition MAX_MAX_FRAME_SIZE : N := 2 ^ 24 - 1.
(** frame/frame.rs:26 *)
Definition FRAME_HEADER_BYTES : N := 9.

(** kind.rs:15-27 Kind, 30-44 new, 46-60 encode *)
Inductive kind :=
| KData | KHeaders | KPriority | KReset | KSettings | KPushPromise | KPing | KGoAway | KWindowUpdate
| KContinuation | KUnregistered.
Definition kind_new (b : N) : kind :=
  match b with
  | 0 => KData | 1 => KHeaders | 2 => KPriority | 3 => KReset | 4 => KSettings | 5 => KPushPromise
  | 6 => KPing | 7 => KGoAway | 8 => KWindowUpdate | 9 => KContinuation | _ => KUnregistered
  end.
Definition kind_encode (k : kind) : N :=
  match k with
  | KData => 0 | KHeaders => 1 | KPriority => 2 | KReset => 3 | KSettings => 4 | KPushPromise => 5
  | KPing => 6 | KGoAway => 7 | KWindowUpdate => 8 | KContinuation => 9 | KUnregistered => 255
  end.
Definition kind_eqb (a b : kind) : bool := kind_encode a =? kind_encode b.

(** flag.rs:13-22: the bits; ACK and END_STREAM are the same one *)
Definition END_STREAM : N := 1.
Definition ACK : N := 1.
Definition END_HEADERS : N := 4.
Definition PADDED : N := 8.
Definition PRIORITY : N := 32.
(** bitflags: all() *)
Definition flag_all : N := N.lor END_STREAM (N.lor ACK (N.lor END_HEADERS (N.lor PADDED PRIORITY))).
(** flag.rs:28-33 new: from_bits rejects bits outside all() *)
Definition flag_new (b : N) : option N := if N.ldiff b flag_all =? 0 then Some b else None.
(** bitflags: contains, set *)
Definition flag_contains (f g : N) : bool := N.land f g =? g.
Definition flag_set (f g : N) (on : bool) : N := if on then N.lor f g else N.ldiff f g.
(** flag.rs:25-27, 40-87 *)
Definition flag_zero : N := 0.
Definition is_ack (f : N) : bool := flag_contains f ACK.
Definition is_end_stream (f : N) : bool := flag_contains f END_STREAM.
Definition is_end_headers (f : N) : bool := flag_contains f END_HEADERS.
Definition is_padded (f : N) : bool := flag_contains f PADDED.
Definition is_priority (f : N) : bool := flag_contains f PRIORITY.
Definition set_end_headers (f : N) : N := flag_set f END_HEADERS true.
Definition set_end_stream (f : N) : N := flag_set f END_STREAM true.
Definition unset_end_stream (f : N) : N := flag_set f END_STREAM false.

(** get_u8/u16/u32 of the buffer crate, which panic on a short buffer (their callers check first) *)
Definition get (n : nat) (l : bytes) : res (N * bytes) :=
  match take_n n l with
  | Some (a, r) => Ok (be_dec a, r)
  | None => Panic
  end.

(** frame/mod.rs:118-127 read_u31, 130-135 read_u24, 138-143 encode_u24 *)
Definition MASK_U31 : N := 2 ^ 31 - 1.
Definition read_u31 (l : bytes) : N * bytes :=
  match take_n 4 l with
  | Some (a, r) => (N.land (be_dec a) MASK_U31, r)
  | None => (0, l)
  end.
Definition read_u24 (l : bytes) : N * bytes :=
  match l with
  | a :: b :: c :: r => (N.lor (N.lor (N.shiftl a 16) (N.shiftl b 8)) c, r)
  | _ => (0, l)
  end.
Definition encode_u24 (v : N) : bytes :=
  [N.shiftr v 16 mod 256; N.shiftr v 8 mod 256; N.shiftr v 0 mod 256].

(** frame/mod.rs:51-56 StreamIdentifier::parse, 80-83 encode (all 32 bits) *)
Definition stream_parse (l : bytes) : N * bytes := read_u31 l.
Definition stream_encode (id : N) : bytes := be_enc 4 id.

(** frame/mod.rs:70-74 next_id: the identifier handed out and the next state; u32 overflow panics *)
Definition next_id (s : N) : res (N * N) :=
  if s + 2 <? 2 ^ 32 then Ok (s, s + 2) else Panic.

(** frame/frame.rs:29-34 FrameHeader, 217-224 new *)
Record fheader := mkFH { fh_length : N; fh_kind : kind; fh_flag : N; fh_id : N }.
Definition fh_new (k : kind) (f id : N) : fheader := mkFH 0 k f id.
Definition fh_set_length (h : fheader) (n : N) : fheader := mkFH n (fh_kind h) (fh_flag h) (fh_id h).

(** frame/frame.rs:226-241 FrameHeader::parse *)
Definition fh_parse (l : bytes) : res (fheader * bytes) :=
  if blen l <? FRAME_HEADER_BYTES then Err (EHttp2 Short)
  else
    let '(len, l1) := read_u24 l in
    ' (k, l2) <- get 1 l1 ;;
    ' (f, l3) <- get 1 l2 ;;
    match flag_new f with
    | None => Err (EHttp2 (BadFlag f))
    | Some fl => let '(id, l4) := stream_parse l3 in Ok (mkFH len (kind_new k) fl id, l4)
    end.

(** frame/frame.rs:259-266 FrameHeader::encode *)
Definition fh_encode (h : fheader) : bytes :=
  encode_u24 (fh_length h) ++ [kind_encode (fh_kind h)] ++ [fh_flag h] ++ stream_encode (fh_id h).

(** frame/frame.rs:51-62 trim_padding: the buffer afterwards *)
Definition trim_padding (h : fheader) (l : bytes) : res bytes :=
  if is_padded (fh_flag h) then
    match l with
    | [] => Ok l
    | p :: r => if fh_length h <? p then Err (EHttp2 (TooMuchPadding p)) else Ok r
    end
  else Ok l.

(** ** SETTINGS *)

(** settings.rs:25-35 Settings, 74-97 default *)
Record settings := mkSettings {
  st_flags : N;
  st_header_table_size : option N;
  st_enable_push : option N;
  st_max_concurrent_streams : option N;
  st_initial_window_size : option N;
  st_max_frame_size : option N;
  st_max_header_list_size : option N;
  st_enable_connect_protocol : option N }.
Definition settings_default : settings := mkSettings flag_zero None None None None None None None.

(** settings.rs:38-72 Setting, 105-118 from_id, 120-125 parse, 127-143 encode *)
Inductive setting :=
| HeaderTableSize (v : N) | EnablePush (v : N) | MaxConcurrentStreams (v : N) | InitialWindowSize (v : N)
| MaxFrameSize (v : N) | MaxHeaderListSize (v : N) | EnableConnectProtocol (v : N).
Definition setting_from_id (id v : N) : option setting :=
  match id with
  | 1 => Some (HeaderTableSize v)
  | 2 => Some (EnablePush v)
  | 3 => Some (MaxConcurrentStreams v)
  | 4 => Some (InitialWindowSize v)
  | 5 => Some (MaxFrameSize v)
  | 6 => Some (MaxHeaderListSize v)
  | 8 => Some (EnableConnectProtocol v)
  | _ => None
  end.
Definition setting_parse (l : bytes) : res (option setting * bytes) :=
  ' (id, l1) <- get 2 l ;;
  ' (v, l2) <- get 4 l1 ;;
  Ok (setting_from_id id v, l2).
Definition setting_encode (s : setting) : bytes :=
  let '(k, v) := match s with
    | HeaderTableSize v => (1, v)
    | EnablePush v => (2, v)
    | MaxConcurrentStreams v => (3, v)
    | InitialWindowSize v => (4, v)
    | MaxFrameSize v => (5, v)
    | MaxHeaderListSize v => (6, v)
    | EnableConnectProtocol v => (8, v)
    end in be_enc 2 k ++ be_enc 4 v.

(** settings.rs:147-152 ack, 154-156 is_ack *)
Definition settings_ack : settings := mkSettings ACK None None None None None None None.
Definition settings_is_ack (s : settings) : bool := is_ack (st_flags s).

(** Field updates, used by the setters and by parse_setting *)
Definition with_header_table_size (s : settings) v := mkSettings (st_flags s) v (st_enable_push s) (st_max_concurrent_streams s) (st_initial_window_size s) (st_max_frame_size s) (st_max_header_list_size s) (st_enable_connect_protocol s).
Definition with_enable_push (s : settings) v := mkSettings (st_flags s) (st_header_table_size s) v (st_max_concurrent_streams s) (st_initial_window_size s) (st_max_frame_size s) (st_max_header_list_size s) (st_enable_connect_protocol s).
(** settings.rs:174-176 set_max_concurrent_streams *)
Definition with_max_concurrent_streams (s : settings) v := mkSettings (st_flags s) (st_header_table_size s) (st_enable_push s) v (st_initial_window_size s) (st_max_frame_size s) (st_max_header_list_size s) (st_enable_connect_protocol s).
(** settings.rs:166-168 set_initial_window_size *)
Definition with_initial_window_size (s : settings) v := mkSettings (st_flags s) (st_header_table_size s) (st_enable_push s) (st_max_concurrent_streams s) v (st_max_frame_size s) (st_max_header_list_size s) (st_enable_connect_protocol s).
Definition with_max_frame_size (s : settings) v := mkSettings (st_flags s) (st_header_table_size s) (st_enable_push s) (st_max_concurrent_streams s) (st_initial_window_size s) v (st_max_header_list_size s) (st_enable_connect_protocol s).
(** settings.rs:193-195 set_max_header_list_size *)
Definition with_max_header_list_size (s : settings) v := mkSettings (st_flags s) (st_header_table_size s) (st_enable_push s) (st_max_concurrent_streams s) (st_initial_window_size s) (st_max_frame_size s) v (st_enable_connect_protocol s).
(** settings.rs:209-211 set_enable_connect_protocol *)
Definition with_enable_connect_protocol (s : settings) v := mkSettings (st_flags s) (st_header_table_size s) (st_enable_push s) (st_max_concurrent_streams s) (st_initial_window_size s) (st_max_frame_size s) (st_max_header_list_size s) v.

(** settings.rs:182-187 set_max_frame_size (assert) *)
Definition frame_size_ok (v : N) : bool := (DEFAULT_MAX_FRAME_SIZE <=? v) && (v <=? MAX_MAX_FRAME_SIZE).
Definition set_max_frame_size (s : settings) (o : option N) : res settings :=
  match o with
  | Some v => if frame_size_ok v then Ok (with_max_frame_size s o) else Panic
  | None => Ok (with_max_frame_size s o)
  end.
(** settings.rs:201-203 set_enable_push, 197-199 is_push_enabled, 205-207 *)
Definition set_enable_push (s : settings) (b : bool) : settings := with_enable_push s (Some (if b then 1 else 0)).
Definition is_push_enabled (s : settings) : option bool := option_map (fun v => negb (v =? 0)) (st_enable_push s).
Definition is_extended_connect_protocol_enabled (s : settings) : option bool :=
  option_map (fun v => negb (v =? 0)) (st_enable_connect_protocol s).

(** settings.rs:223-280 parse_setting: one round of the loop, and the loop *)
Definition setting_apply (s : settings) (o : option setting) : res settings :=
  match o with
  | Some (HeaderTableSize v) => Ok (with_header_table_size s (Some v))
  | Some (EnablePush v) =>
    match v with
    | 0 | 1 => Ok (with_enable_push s (Some v))
    | _ => Err (EHttp2 InvalidSettingValue)
    end
  | Some (MaxConcurrentStreams v) => Ok (with_max_concurrent_streams s (Some v))
  | Some (InitialWindowSize v) =>
    if MAX_INITIAL_WINDOW_SIZE <? v then Err (EHttp2 InvalidSettingValue)
    else Ok (with_initial_window_size s (Some v))
  | Some (MaxFrameSize v) =>
    if frame_size_ok v then Ok (with_max_frame_size s (Some v)) else Err (EHttp2 InvalidSettingValue)
  | Some (MaxHeaderListSize v) => Ok (with_max_header_list_size s (Some v))
  | Some (EnableConnectProtocol v) =>
    match v with
    | 0 | 1 => Ok (with_enable_connect_protocol s (Some v))
    | _ => Err (EHttp2 InvalidSettingValue)
    end
  | None => Ok s
  end.
Fixpoint setting_loop (n : nat) (s : settings) (l : bytes) : res settings :=
  match n with
  | O => Ok s
  | S k =>
    ' (o, r) <- setting_parse l ;;
    s' <- setting_apply s o ;;
    setting_loop k s' r
  end.
Definition parse_setting (l : bytes) : res settings :=
  if negb (blen l mod 6 =? 0) then Err (EHttp2 InvalidPayloadLength)
  else setting_loop (N.to_nat (blen l / 6)) settings_default l.

(** settings.rs:282-303 parse (the debug_assert on the kind is a panic) *)
Definition settings_parse (h : fheader) (l : bytes) : res settings :=
  if negb (kind_eqb (fh_kind h) KSettings) then Panic
  else if negb (fh_id h =? 0) then Err (EHttp2 InvalidStreamId)
  else if is_ack (fh_flag h) then
    match l with
    | [] => Ok settings_ack
    | _ => Err (EHttp2 InvalidPayloadLength)
    end
  else parse_setting l.

(** settings.rs:349-379 for_each: the settings in the order they are visited *)
Definition opt_list {A B} (f : A -> B) (o : option A) : list B := match o with Some v => [f v] | None => [] end.
Definition settings_list (s : settings) : list setting :=
  opt_list HeaderTableSize (st_header_table_size s) ++
  opt_list EnablePush (st_enable_push s) ++
  opt_list MaxConcurrentStreams (st_max_concurrent_streams s) ++
  opt_list InitialWindowSize (st_initial_window_size s) ++
  opt_list MaxFrameSize (st_max_frame_size s) ++
  opt_list MaxHeaderListSize (st_max_header_list_size s) ++
  opt_list EnableConnectProtocol (st_enable_connect_protocol s).
(** settings.rs:305-309 payload_len, 334-347 encode *)
Definition settings_payload_len (s : settings) : N := 6 * N.of_nat (length (settings_list s)).
Definition settings_payload (s : settings) : bytes := concat (map setting_encode (settings_list s)).
Definition settings_encode (s : settings) : bytes :=
  fh_encode (fh_set_length (fh_new KSettings (st_flags s) 0) (settings_payload_len s)) ++ settings_payload s.

(** The engine URL_SAFE_NO_PAD of the external crate base64: its alphabet, no padding, and a decoder
    that refuses padding, other characters, a single left-over character and non-zero left-over bits. *)
Definition b64_char (v : N) : N :=
  if v <? 26 then 65 + v
  else if v <? 52 then 97 + (v - 26)
  else if v <? 62 then 48 + (v - 52)
  else if v =? 62 then 45 else 95.
Definition b64_val (c : N) : option N :=
  if (65 <=? c) && (c <=? 90) then Some (c - 65)
  else if (97 <=? c) && (c <=? 122) then Some (c - 97 + 26)
  else if (48 <=? c) && (c <=? 57) then Some (c - 48 + 52)
  else if c =? 45 then Some 62
  else if c =? 95 then Some 63
  else None.
Fixpoint b64_encode (l : bytes) : bytes :=
  match l with
  | [] => []
  | [a] => [b64_char (a / 4); b64_char (a mod 4 * 16)]
  | [a; b] => [b64_char (a / 4); b64_char (a mod 4 * 16 + b / 16); b64_char (b mod 16 * 4)]
  | a :: b :: c :: r =>
    b64_char (a / 4) :: b64_char (a mod 4 * 16 + b / 16) :: b64_char (b mod 16 * 4 + c / 64) ::
    b64_char (c mod 64) :: b64_encode r
  end.
Fixpoint b64_decode (l : bytes) : option bytes :=
  match l with
  | [] => Some []
  | [_] => None
  | [a; b] =>
    match b64_val a, b64_val b with
    | Some x, Some y => if y mod 16 =? 0 then Some [x * 4 + y / 16] else None
    | _, _ => None
    end
  | [a; b; c] =>
    match b64_val a, b64_val b, b64_val c with
    | Some x, Some y, Some z =>
      if z mod 4 =? 0 then Some [x * 4 + y / 16; y mod 16 * 16 + z / 4] else None
    | _, _, _ => None
    end
  | a :: b :: c :: d :: r =>
    match b64_val a, b64_val b, b64_val c, b64_val d, b64_decode r with
    | Some x, Some y, Some z, Some w, Some r' =>
      Some (x * 4 + y / 16 :: y mod 16 * 16 + z / 4 :: z mod 4 * 64 + w :: r')
    | _, _, _, _, _ => None
    end
  end.

(** settings.rs:311-322 parse_http_settings, 324-332 encode_http_settings *)
Definition parse_http_settings (v : bytes) : res settings :=
  match b64_decode v with
  | None => Err (EHttp2 InvalidSettingValue)
  | Some l => parse_setting l
  end.
Definition encode_http_settings (s : settings) : bytes := b64_encode (settings_payload s).

(** ** DATA *)

(** data.rs:20-25 Data (pad_len is never set), 28-37 new (assert) *)
Record dataf := mkData { da_id : N; da_data : bytes; da_flags : N }.
Definition data_new (h : fheader) (l : bytes) : res dataf :=
  if fh_id h =? 0 then Panic else Ok (mkData (fh_id h) l (fh_flag h)).
(** data.rs:47-53 set_end_stream *)
Definition data_set_end_stream (d : dataf) (b : bool) : dataf :=
  mkData (da_id d) (da_data d) (if b then set_end_stream (da_flags d) else unset_end_stream (da_flags d)).

(** data.rs:93-112 encode.  Every round but the last writes [max] octets; with max = 0 and data left the
    loop never ends. *)
Fixpoint data_loop (fuel : nat) (max id flags : N) (l : bytes) : res bytes :=
  match fuel with
  | O => Diverge
  | S k =>
    let now := N.min (blen l) max in
    if now <? blen l then
      r <- data_loop k max id flags (skipn (N.to_nat now) l) ;;
      Ok (fh_encode (mkFH now KData (unset_end_stream flags) id) ++ firstn (N.to_nat now) l ++ r)
    else Ok (fh_encode (mkFH now KData flags id) ++ l)
  end.
Definition data_encode (max : N) (d : dataf) : res bytes :=
  data_loop (S (length (da_data d))) max (da_id d) (da_flags d) (da_data d).

(** ** PING *)
(** ping.rs:24-27 Ping, 49-54 ret_pong *)
Record ping := mkPing { pg_ack : bool; pg_payload : bytes }.
Definition ret_pong (p : ping) : ping := mkPing true (pg_payload p).
(** ping.rs:69-97 parse *)
Definition ping_parse (h : fheader) (l : bytes) : res ping :=
  if negb (kind_eqb (fh_kind h) KPing) then Panic
  else if negb (fh_id h =? 0) then Err (EHttp2 InvalidStreamId)
  else if negb (blen l =? 8) then Err (EHttp2 BadFrameSize)
  else Ok (mkPing (flag_contains (fh_flag h) ACK) l).
(** ping.rs:99-104 head, 106-113 encode *)
Definition ping_encode (p : ping) : bytes :=
  fh_encode (mkFH (blen (pg_payload p)) KPing (if pg_ack p then ACK else flag_zero) 0) ++ pg_payload p.

(** ** GOAWAY *)
(** go_away.rs:21-25 *)
Record goaway := mkGoAway { ga_last : N; ga_code : N; ga_debug : bytes }.
(** go_away.rs:60-74 parse *)
Definition goaway_parse (l : bytes) : res goaway :=
  if blen l <? 8 then Err (EHttp2 BadFrameSize)
  else
    let '(id, l1) := stream_parse l in
    ' (code, l2) <- get 4 l1 ;;
    Ok (mkGoAway id code l2).
(** go_away.rs:76-80 head, 82-89 encode *)
Definition goaway_encode (g : goaway) : bytes :=
  fh_encode (mkFH (8 + blen (ga_debug g)) KGoAway flag_zero 0) ++ be_enc 4 (ga_last g) ++ be_enc 4 (ga_code g) ++ ga_debug g.

(** ** PRIORITY *)
(** priority.rs:19-36 *)
Record stream_dep := mkDep { dp_id : N; dp_weight : N; dp_excl : bool }.
Record priority := mkPriority { pr_id : N; pr_dep : stream_dep }.
(** priority.rs:99-111 StreamDependency::load *)
Definition dep_load (l : bytes) : res (stream_dep * bytes) :=
  if blen l <? 5 then Err (EHttp2 InvalidPayloadLength)
  else
    ' (v, l1) <- get 4 l ;;
    let id := N.land v MASK_U31 in
    ' (w, l2) <- get 1 l1 ;;
    Ok (mkDep id w (negb (v - id =? 0)), l2).
(** priority.rs:117-121 StreamDependency::encode (the exclusive bit is not written) *)
Definition dep_encode (d : stream_dep) : bytes := stream_encode (dp_id d) ++ [dp_weight d].
(** priority.rs:39-50 parse *)
Definition priority_parse (h : fheader) (l : bytes) : res priority :=
  ' (d, _) <- dep_load l ;;
  if dp_id d =? fh_id h then Err (EHttp2 InvalidDependencyId) else Ok (mkPriority (fh_id h) d).
(** priority.rs:72-79 encode (the length stays 0) *)
Definition priority_encode (p : priority) : bytes :=
  fh_encode (fh_new KPriority flag_zero (pr_id p)) ++ dep_encode (pr_dep p).

(** ** RST_STREAM *)
(** reset.rs:20-23, 41-52 parse, 54-58 head, 60-66 encode *)
Record resetf := mkReset { rs_id : N; rs_code : N }.
Definition reset_parse (h : fheader) (l : bytes) : res resetf :=
  if negb (blen l =? 4) then Err (EHttp2 InvalidPayloadLength)
  else ' (code, _) <- get 4 l ;; Ok (mkReset (fh_id h) code).
Definition reset_encode (r : resetf) : bytes :=
  fh_encode (mkFH 4 KReset flag_zero (rs_id r)) ++ be_enc 4 (rs_code r).

(** ** WINDOW_UPDATE *)
(** window_update.rs:23-26, 45-63 parse, 66-70 head, 72-79 encode (all 32 bits of the increment) *)
Record winupd := mkWin { wu_id : N; wu_inc : N }.
Definition winupd_parse (h : fheader) (l : bytes) : res winupd :=
  if negb (kind_eqb (fh_kind h) KWindowUpdate) then Panic
  else if negb (blen l =? 4) then Err (EHttp2 BadFrameSize)
  else
    ' (v, _) <- get 4 l ;;
    let inc := N.ldiff v (2 ^ 31) in
    if inc =? 0 then Err (EHttp2 InvalidWindowUpdateValue) else Ok (mkWin (fh_id h) inc).
Definition winupd_encode (w : winupd) : bytes :=
  fh_encode (mkFH 4 KWindowUpdate flag_zero (wu_id w)) ++ be_enc 4 (wu_inc w).
