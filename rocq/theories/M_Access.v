(** Model of the setters and accessors of HTTP/2 frames (frame/settings.rs, headers.rs, data.rs, flag.rs) that the other
    model files leave out, of StreamIdentifier's constants and order, and of the texts of errors. *)
From Coq Require Import Ascii String NArith Bool List.
From Verif Require Import Base M_Std M_Header M_Url M_Http1 M_Hpack M_Frame M_H2.
Import ListNotations.
Local Open Scope N_scope.

(** ** flag.rs *)
(** 61-63 unset_end_headers, 70-72 set_padded, 73-75 unset_padded; 35-38 load *)
Definition unset_end_headers (f : N) : N := flag_set f END_HEADERS false.
Definition set_padded (f : N) : N := flag_set f PADDED true.
Definition unset_padded (f : N) : N := flag_set f PADDED false.
Definition flag_load (f : N) : N := flag_set f ACK true.
(** 40-42 ack, 46-48 end_stream, 52-54 end_headers, 64-66 padded, 76-78 priority *)
Definition flag_ack : N := ACK.
Definition flag_end_stream : N := END_STREAM.
Definition flag_end_headers : N := END_HEADERS.
Definition flag_padded : N := PADDED.
Definition flag_priority : N := PRIORITY.

(** ** mod.rs:58-78 StreamIdentifier: zero, client_first, server_first, is_zero; 92-102 Ord; 104-108 Display *)
Definition sid_zero : N := 0.
Definition sid_client_first : N := 1.
Definition sid_server_first : N := 2.
Definition sid_is_zero (s : N) : bool := s =? 0.
Definition sid_cmp (a b : N) : comparison := N.compare a b.
Definition sid_display (s : N) : bytes := dec_print s.

(** ** settings.rs: the setters as calls *)
Inductive settings_call :=
| CallWindow (o : option N)       (* 166-168 set_initial_window_size *)
| CallConcurrent (o : option N)   (* 174-176 set_max_concurrent_streams *)
| CallFrameSize (o : option N)    (* 182-187 set_max_frame_size *)
| CallListSize (o : option N)     (* 193-195 set_max_header_list_size *)
| CallPush (b : bool)             (* 201-203 set_enable_push *)
| CallConnect (o : option N).     (* 209-211 set_enable_connect_protocol *)
Definition settings_call_run (s : settings) (c : settings_call) : res settings :=
  match c with
  | CallWindow o => Ok (with_initial_window_size s o)
  | CallConcurrent o => Ok (with_max_concurrent_streams s o)
  | CallFrameSize o => set_max_frame_size s o
  | CallListSize o => Ok (with_max_header_list_size s o)
  | CallPush b => Ok (set_enable_push s b)
  | CallConnect o => Ok (with_enable_connect_protocol s o)
  end.
Definition settings_calls (s : settings) (cs : list settings_call) : res settings :=
  fold_left (fun r c => s <- r ;; settings_call_run s c) cs (Ok s).

(** ** headers.rs: Headers *)
(** 116-127 empty *)
Definition headers_empty : headersf := mkHeaders 0 None [] parts_default flag_zero.
Inductive headers_call :=
| CallEndHeaders                  (* 193-195 set_end_headers *)
| CallEndStream                   (* 201-203 set_end_stream *)
| CallMethod (m : method)         (* 205-207 set_method *)
| CallScheme (s : scheme)         (* 213-215 set_scheme *)
| CallAuthority (a : bytes)       (* 221-223 set_authority *)
| CallPath (p : bytes)            (* 229-231 set_path *)
| CallStatus (c : N).             (* 237-239 set_status *)
Definition headers_call_run (h : headersf) (c : headers_call) : headersf :=
  let p := hf_parts h in
  match c with
  | CallEndHeaders => hf_set_flags h (set_end_headers (hf_flags h))
  | CallEndStream => hf_set_flags h (set_end_stream (hf_flags h))
  | CallMethod m => hf_set_parts h (pt_set_method p (Some m))
  | CallScheme s => hf_set_parts h (pt_set_scheme p (Some s))
  | CallAuthority a => hf_set_parts h (pt_set_authority p (Some a))
  | CallPath a => hf_set_parts h (pt_set_path p (Some a))
  | CallStatus c => hf_set_parts h (pt_set_status p (Some c))
  end.
Definition headers_calls (h : headersf) (cs : list headers_call) : headersf := fold_left headers_call_run cs h.
(** 189-191 is_end_headers, 197-199 is_end_stream, 209-243 method, scheme, authority, path, status, 245-247 is_over_size,
    258-260 is_informational with 564-567, 249-251 into_parts, 270-272 into_fields *)
Definition hf_is_end_headers (h : headersf) : bool := is_end_headers (hf_flags h).
Definition hf_is_end_stream (h : headersf) : bool := is_end_stream (hf_flags h).
Definition hf_method (h : headersf) : option method := pt_method (hf_parts h).
Definition hf_scheme (h : headersf) : option scheme := pt_scheme (hf_parts h).
Definition hf_authority (h : headersf) : option bytes := pt_authority (hf_parts h).
Definition hf_path (h : headersf) : option bytes := pt_path (hf_parts h).
Definition hf_status (h : headersf) : option N := pt_status (hf_parts h).
Definition hf_is_over_size (h : headersf) : bool := false.
Definition hf_is_informational (h : headersf) : bool :=
  match pt_status (hf_parts h) with Some c => is_informational c | None => false end.
Definition hf_into_parts (h : headersf) : parts * headers := (hf_parts h, hf_fields h).
Definition hf_into_fields (h : headersf) : headers := hf_fields h.

(** ** headers.rs: PushPromise.  There is no set_scheme. *)
Inductive push_call :=
| PCallEndHeaders                 (* 360-362 set_end_headers *)
| PCallEndStream                  (* 368-370 set_end_stream *)
| PCallMethod (m : method)        (* 372-374 set_method *)
| PCallAuthority (a : bytes)      (* 380-382 set_authority *)
| PCallPath (p : bytes)           (* 388-390 set_path *)
| PCallStatus (c : N).            (* 396-398 set_status *)
Definition push_call_run (h : pushf) (c : push_call) : pushf :=
  let p := pp_parts h in
  let parts p' := mkPush (pp_id h) (pp_promised h) (pp_fields h) p' (pp_flags h) in
  let flags f' := mkPush (pp_id h) (pp_promised h) (pp_fields h) p f' in
  match c with
  | PCallEndHeaders => flags (set_end_headers (pp_flags h))
  | PCallEndStream => flags (set_end_stream (pp_flags h))
  | PCallMethod m => parts (pt_set_method p (Some m))
  | PCallAuthority a => parts (pt_set_authority p (Some a))
  | PCallPath a => parts (pt_set_path p (Some a))
  | PCallStatus c => parts (pt_set_status p (Some c))
  end.
Definition push_calls (h : pushf) (cs : list push_call) : pushf := fold_left push_call_run cs h.

(** ** data.rs *)
Inductive data_call :=
| DCallEndStream (b : bool)       (* 47-53 set_end_stream *)
| DCallPadded                     (* 63-65 set_padded *)
| DCallPayload (l : bytes).       (* 71-73 payload_mut, and an assignment through it *)
Definition data_call_run (d : dataf) (c : data_call) : dataf :=
  match c with
  | DCallEndStream b => data_set_end_stream d b
  | DCallPadded => mkData (da_id d) (da_data d) (set_padded (da_flags d))
  | DCallPayload l => mkData (da_id d) l (da_flags d)
  end.
Definition data_calls (d : dataf) (cs : list data_call) : dataf := fold_left data_call_run cs d.
(** 43-45 is_end_stream, 59-61 is_padded, 67-69 payload, 75-77 into_payload, 79-89 map *)
Definition da_is_end_stream (d : dataf) : bool := is_end_stream (da_flags d).
Definition da_is_padded (d : dataf) : bool := is_padded (da_flags d).
Definition da_map (f : bytes -> bytes) (d : dataf) : dataf := mkData (da_id d) (f (da_data d)) (da_flags d).

(** ** The texts of errors *)
(** http/error.rs:46-61 *)
Definition http_err_text (e : http_err) : string :=
  match e with
  | BufTooShort => "buf too short"
  | HeaderNameErr => "invalid header name"
  | HeaderValueErr => "invalid header value"
  | NewLine => "invalid new line"
  | StatusErr => "invalid response status"
  | Token => "invalid token"
  | VersionErr => "invalid HTTP version"
  | MethodErr => "invalid HTTP Method"
  | Partial => "invalid HTTP length"
  | InvalidStatusCode => "invalid status code"
  | SchemeTooLong => "scheme too long"
  end.
(** url/error.rs:26-31 *)
Definition url_err_text (e : url_err) : string :=
  match e with UrlInvalid => "invalid Url" | UrlCodeInvalid => "invalid Url Code" end.
(** http/http2/error.rs:70-76 *)
Definition h2_err_text (e : h2_err) : string :=
  match e with DecoderErr _ => "" | HuffmanErr _ => "" | _ => "" end.
(** ws/error.rs:14-19 *)
Definition ws_err_text (e : ws_err) : string := match e with DataFrameError s => s | _ => "" end.
(** error.rs:31-43 description_str, 53-57 Display *)
Definition err_text (e : werr) : string :=
  match e with
  | EUrl e => url_err_text e
  | EHttp e => http_err_text e
  | EHttp2 e => h2_err_text e
  | EWs e => ws_err_text e
  | EInto => "into value error"
  | EExtension _ => "std error"
  | ESerialize _ => "serialize error"
  | EIo _ => "io error"
  end.
