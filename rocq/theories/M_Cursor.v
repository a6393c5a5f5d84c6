(** The readers together with the buffer they are given: [M_Helper.v], [M_Header.v], [M_Http1.v],
    [M_Url.v], [M_Ws.v], [M_Frame.v] and [M_Hpack.v] follow the buffer only as long as reading succeeds;
    here the octets left in the caller's buffer are also followed through every failure (C105). *)
From Coq Require Import Ascii String NArith ZArith Bool List.
From Verif Require Import Base M_Std M_Helper M_Header M_Url M_Http1 M_Ws M_Hpack M_Frame.
Import ListNotations.
Local Open Scope N_scope.

(** A reader of [&mut B: Bt]: the octets that remain in the buffer, and the outcome. *)
Definition out (A : Type) : Type := bytes * res A.
(** The operator [?]: an error leaves the function with the buffer as it is. *)
Definition c_bind {A B} (m : out A) (k : A -> bytes -> out B) : out B :=
  match m with
  | (r, Ok a) => k a r
  | (r, Err e) => (r, Err e)
  | (r, Panic) => (r, Panic)
  | (r, Diverge) => (r, Diverge)
  end.
(** The same in a method that also changes an object [s]. *)
Definition c_try {S A B} (s : S) (m : out A) (k : A -> bytes -> bytes * (S * res B)) : bytes * (S * res B) :=
  match m with
  | (r, Ok a) => k a r
  | (r, Err e) => (r, (s, Err e))
  | (r, Panic) => (r, (s, Panic))
  | (r, Diverge) => (r, (s, Diverge))
  end.

(** ** src/helper.rs and src/macros.rs *)
(** macros.rs 21-28 next!: get_next gives None and moves nothing at the end. *)
Definition c_next (l : bytes) : out N :=
  match l with
  | b :: r => (r, Ok b)
  | [] => ([], partial)
  end.
(** macros.rs 53-64 expect!: the octet is taken before it is compared. *)
Definition c_expect (b : N) (e : werr) (l : bytes) : out unit :=
  c_bind (c_next l) (fun c r => (r, if c =? b then Ok tt else Err e)).
(** helper.rs 316-328: skip_new_line. *)
Definition c_new_line (l : bytes) : out unit :=
  c_bind (c_next l) (fun b r =>
    if b =? 13 then c_expect 10 (EHttp NewLine) r
    else if b =? 10 then (r, Ok tt)
    else if b =? 32 then (r, Ok tt)
    else (r, partial)).
(** 331-348: skip_empty_lines; the octet is peeked at first. *)
Fixpoint c_empty_lines (l : bytes) : out unit :=
  match l with
  | [] => ([], partial)
  | b :: l1 =>
    if b =? 13 then
      match l1 with
      | [] => ([], partial)
      | c :: l2 => if c =? 10 then c_empty_lines l2 else (l2, Err (EHttp NewLine))
      end
    else if b =? 10 then c_empty_lines l1
    else (l, Ok tt)
  end.
(** 351-364: skip_spaces. *)
Fixpoint c_spaces (l : bytes) : out unit :=
  match l with
  | [] => ([], partial)
  | b :: l1 => if b =? 32 then c_spaces l1 else (l, Ok tt)
  end.
(** 246-273: parse_token_by_func_empty. The scan runs on a reference of its own (249), so a token
    that is not finished, or that is missing, leaves the buffer where it was. *)
Definition c_token_by (f : N -> bool) (err : werr) (empty : bool) (l : bytes) : out bytes :=
  match scan f l with
  | None => (l, partial)
  | Some ([], r) => if empty then c_bind (c_next r) (fun _ r' => (r', Ok [])) else (l, Err err)
  | Some (t, r) => (r, Ok t)
  end.
(** 280-313 *)
Definition c_token := c_token_by is_token (EHttp Token) false.
Definition c_status_token := c_token_by is_status_token (EHttp Token) false.
Definition c_header_name := c_token_by is_header_name_token (EHttp HeaderNameErr) false.
Definition c_header_value := c_token_by is_header_value_token (EHttp HeaderValueErr) true.
Definition c_scheme_token := c_token_by is_scheme_token (EHttp HeaderValueErr) false.
(** 218-242: parse_method, parse_status, parse_version: a token, then a lookup that does not see the buffer. *)
Definition c_method (l : bytes) : out method := c_bind (c_token l) (fun t r => (r, method_of_str t)).
Definition c_version (l : bytes) : out version :=
  c_bind (c_token l) (fun t r => (r,
    if beq t (str "HTTP/1.0") then Ok V10
    else if beq t (str "HTTP/1.1") then Ok V11
    else if beq t (str "HTTP/2") then Ok V2
    else if beq t (str "HTTP/3") then Ok V3
    else Err (EHttp VersionErr))).
Definition c_status (l : bytes) : out N := c_bind (c_token l) (fun t r => (r, status_from_bytes t)).
(** 382-387: one header line. *)
Definition c_header_line (l : bytes) : out (bytes * bytes) :=
  c_bind (c_header_name l) (fun name r1 =>
  c_bind (c_spaces r1) (fun _ r2 =>
  c_bind (c_expect 58 (EHttp HeaderNameErr) r2) (fun _ r3 =>
  c_bind (c_spaces r3) (fun _ r4 =>
  c_bind (c_header_value r4) (fun value r5 =>
  c_bind (c_new_line r5) (fun _ r6 => (r6, Ok (name, value)))))))).
(** 367-390: parse_header; [fuel] as in [parse_header_loop]. *)
Fixpoint c_header_loop (fuel : nat) (h : headers) (l : bytes) : bytes * (headers * res unit) :=
  match fuel with
  | O => (l, (h, Diverge))
  | S fuel' =>
    match l with
    | [] => ([], (h, partial))
    | b :: l1 =>
      if b =? 13 then c_try h (c_expect 10 (EHttp NewLine) l1) (fun _ r => (r, (h, Ok tt)))
      else if b =? 10 then (l1, (h, Ok tt))
      else c_try h (c_header_line l) (fun '(name, value) r => c_header_loop fuel' (hm_insert h name value) r)
    end
  end.
Definition c_header (l : bytes) : bytes * (headers * res unit) := c_header_loop (S (length l)) [] l.
(** 392-404: parse_chunk_data reads a reference of its own (394): the buffer of the caller never moves. *)
Definition c_chunk_data (l : bytes) : out (N * N) := (l, parse_chunk_data l).

(** ** src/http/request.rs 552-598: parse_buffer, with the size that it returns. *)
Definition c_request (q : request) (l : bytes) : bytes * (request * res N) :=
  let q0 := req_set_partial q true in
  c_try q0 (c_empty_lines l) (fun _ l1 =>
  c_try q0 (c_method l1) (fun m l2 =>
  let q1 := req_set_method q0 m in
  c_try q1 (c_spaces l2) (fun _ l3 =>
  c_try q1 (c_token l3) (fun path l4 =>
  c_try q1 (c_spaces l4) (fun _ l5 =>
  c_try q1 (c_version l5) (fun v l6 =>
  let q2 := req_set_version q1 v in
  c_try q2 (c_new_line l6) (fun _ l7 =>
  let '(l8, (h, o)) := c_header l7 in
  let q3 := req_set_header q2 h in
  c_try q3 (l8, o) (fun _ l8 =>
  let q4 := req_set_partial q3 false in
  c_try q4 (l8, req_url_of m path h) (fun u l8 =>
  (l8, (req_set_url q4 u, Ok (blen l - blen l8)))))))))))).

(** ** src/http/response.rs 706-720: parse_buffer. *)
Definition c_response (p : response) (l : bytes) : bytes * (response * res N) :=
  let p0 := resp_set_partial p true in
  c_try p0 (c_empty_lines l) (fun _ l1 =>
  c_try p0 (c_version l1) (fun v l2 =>
  let p1 := resp_set_version p0 v in
  c_try p1 (c_spaces l2) (fun _ l3 =>
  c_try p1 (c_status l3) (fun s l4 =>
  let p2 := resp_set_status p1 s in
  c_try p2 (c_spaces l4) (fun _ l5 =>
  c_try p2 (c_status_token l5) (fun _ l6 =>
  c_try p2 (c_new_line l6) (fun _ l7 =>
  let '(l8, (h, o)) := c_header l7 in
  let p3 := resp_set_header p2 h in
  c_try p3 (l8, o) (fun _ l8 =>
  (l8, (resp_set_partial p3 false, Ok (blen l - blen l8))))))))))).

(** ** src/url/scheme.rs 63-69: parse_scheme. *)
Definition c_scheme (l : bytes) : out scheme :=
  c_bind (c_scheme_token l) (fun t r => (r, if 64 <? blen t then Err (EHttp SchemeTooLong) else scheme_of_str t)).

(** ** src/ws *)
(** The buffer crate's try_get_u8, try_get_u16 and try_get_u64: the length is checked before anything is
    taken (an assumption about that crate, as in Base.v), so a short buffer stays where it is. *)
Definition c_get (n : nat) (l : bytes) : out N :=
  match take_n n l with
  | Some (a, r) => (r, Ok (be_dec a))
  | None => (l, Err (EIo UnexpectedEof))
  end.
(** frame_header.rs 80-98: the length. *)
Definition c_len (b1 : N) (l : bytes) : out N :=
  let l7 := N.land b1 127 in
  if l7 <=? 125 then (l, Ok l7)
  else if l7 =? 126 then
    c_bind (c_get 2 l) (fun len r =>
      (r, if len <=? 125 then Err (EWs (DataFrameError "Invalid data frame length")) else Ok len))
  else
    c_bind (c_get 8 l) (fun len r =>
      (r, if len <=? 65535 then Err (EWs (DataFrameError "Invalid data frame length")) else Ok len)).
(** 108-117: the masking key, octet by octet. *)
Definition c_key (b1 : N) (l : bytes) : out (option mkey) :=
  if N.land b1 128 =? 128 then
    c_bind (c_get 1 l) (fun a l1 =>
    c_bind (c_get 1 l1) (fun b l2 =>
    c_bind (c_get 1 l2) (fun c l3 =>
    c_bind (c_get 1 l3) (fun d l4 => (l4, Ok (Some (a, b, c, d)))))))
  else (l, Ok None).
(** 70-125: read_header. *)
Definition c_ws_header (l : bytes) : out ws_header :=
  c_bind (c_get 1 l) (fun byte0 l1 =>
  c_bind (c_get 1 l1) (fun byte1 l2 =>
  let flags := flags_truncate byte0 in
  let opcode := N.land byte0 15 in
  c_bind (c_len byte1 l2) (fun len l3 =>
  if (8 <=? opcode) && (126 <=? len)
  then (l3, Err (EWs (DataFrameError "Control frame length too long")))
  else if (8 <=? opcode) && negb (fcontains flags FIN)
  then (l3, Err (EWs (ProtocolError "Illegal fragmented control frame")))
  else
    c_bind (c_key byte1 l3) (fun mask l4 =>
    (l4, Ok {| wh_flags := flags; wh_opcode := opcode; wh_mask := mask; wh_len := len |}))))).
(** dataframe.rs 76-86 read_dataframe ([limit] = None) and 89-111 read_dataframe_with_limit. *)
Definition c_frame (limit : option N) (l : bytes) : out dataframe :=
  c_bind (c_ws_header l) (fun h l1 =>
  if match limit with Some n => n <? wh_len h | None => false end then (l1, Err (EIo InvalidData)) else
  match take_N (wh_len h) l1 with
  | None => (l1, Err (EIo UnexpectedEof))
  | Some (data, l2) => (l2, read_dataframe_body h data)
  end).

(** ** src/http/http2/frame/frame.rs 226-241: FrameHeader::parse. *)
Definition c_frame_header (l : bytes) : out fheader :=
  if blen l <? FRAME_HEADER_BYTES then (l, Err (EHttp2 Short))
  else
    let '(len, l1) := read_u24 l in
    c_bind (match take_n 1 l1 with Some (a, r) => (r, Ok (be_dec a)) | None => (l1, Panic) end) (fun k l2 =>
    c_bind (match take_n 1 l2 with Some (a, r) => (r, Ok (be_dec a)) | None => (l2, Panic) end) (fun f l3 =>
    match flag_new f with
    | None => (l3, Err (EHttp2 (BadFlag f)))
    | Some fl => let '(id, l4) := stream_parse l3 in (l4, Ok (mkFH len (kind_new k) fl id))
    end)).

(** ** src/http/http2/hpack/decoder.rs 115-175: decode_with_cb: the table and the buffer afterwards, the
    headers handed to the callback, and the outcome. The buffer moves (171) only after a representation
    has been read as a whole. *)
Fixpoint c_decode_loop (fuel : nat) (t : hindex) (buf : bytes) : hindex * bytes * list field * res unit :=
  match fuel with
  | O => (t, buf, [], Diverge)
  | S f =>
    match buf with
    | [] => (t, [], [], Ok tt)
    | _ =>
      match decode_one t buf with
      | Ok (t', o, k) =>
        let '(t2, r, fs, x) := c_decode_loop f t' (skipn (N.to_nat k) buf) in
        (t2, r, match o with Some h => h :: fs | None => fs end, x)
      | Err e => (t, buf, [], Err e)
      | Panic => (t, buf, [], Panic)
      | Diverge => (t, buf, [], Diverge)
      end
    end
  end.
Definition c_decode (t : hindex) (buf : bytes) : hindex * bytes * list field * res unit :=
  c_decode_loop (S (length buf)) t buf.
