(** Model of src/http/http2/frame/headers.rs and of the type Frame of frame/frame.rs.  The HPACK encoder
    and decoder are their tables ([hindex], M_Hpack) and the encoder's max_frame_size is a parameter. *)
From Coq Require Import Ascii String NArith Bool List.
From Verif Require Import Base M_Header M_Url M_Http1 M_Huffman M_Hpack M_Frame.
Import ListNotations.
Local Open Scope N_scope.

(** headers.rs:65-74 Parts *)
Record parts := mkParts {
  pt_method : option method;
  pt_scheme : option scheme;
  pt_authority : option bytes;
  pt_path : option bytes;
  pt_status : option N }.
Definition parts_default : parts := mkParts None None None None None.
Definition pt_set_method (p : parts) v := mkParts v (pt_scheme p) (pt_authority p) (pt_path p) (pt_status p).
Definition pt_set_scheme (p : parts) v := mkParts (pt_method p) v (pt_authority p) (pt_path p) (pt_status p).
Definition pt_set_authority (p : parts) v := mkParts (pt_method p) (pt_scheme p) v (pt_path p) (pt_status p).
Definition pt_set_path (p : parts) v := mkParts (pt_method p) (pt_scheme p) (pt_authority p) v (pt_status p).
Definition pt_set_status (p : parts) v := mkParts (pt_method p) (pt_scheme p) (pt_authority p) (pt_path p) v.

(** headers.rs:34-46 Headers with 77-86 HeaderBlock (is_over_size is always false and left out) *)
Record headersf := mkHeaders {
  hf_id : N;
  hf_dep : option stream_dep;
  hf_fields : headers;
  hf_parts : parts;
  hf_flags : N }.
(** headers.rs:103-114 new, 90-101 trailers *)
Definition headers_new (h : fheader) (fields : headers) : headersf :=
  mkHeaders (fh_id h) None fields parts_default (fh_flag h).
Definition headers_trailers (id : N) (p : parts) (fields : headers) : headersf :=
  mkHeaders id None fields p flag_zero.
Definition hf_set_dep (h : headersf) d := mkHeaders (hf_id h) d (hf_fields h) (hf_parts h) (hf_flags h).
Definition hf_set_fields (h : headersf) f := mkHeaders (hf_id h) (hf_dep h) f (hf_parts h) (hf_flags h).
Definition hf_set_parts (h : headersf) p := mkHeaders (hf_id h) (hf_dep h) (hf_fields h) p (hf_flags h).
Definition hf_set_flags (h : headersf) f := mkHeaders (hf_id h) (hf_dep h) (hf_fields h) (hf_parts h) f.

(** headers.rs:147-172: what parse does with one decoded header (without the size check) *)
Definition hdr_field (h : headersf) (f : bytes * bytes) : res headersf :=
  let '(n, v) := f in
  let insert := Ok (hf_set_fields h (hm_insert (hf_fields h) n v)) in
  let p := hf_parts h in
  if name_is_spec n then
    let s := utf8_lossy v in
    if beq n (str ":authority") then Ok (hf_set_parts h (pt_set_authority p (Some s)))
    else if beq n (str ":method") then m <- method_of_str s ;; Ok (hf_set_parts h (pt_set_method p (Some m)))
    else if beq n (str ":path") then Ok (hf_set_parts h (pt_set_path p (Some s)))
    else if beq n (str ":scheme") then c <- scheme_of_str s ;; Ok (hf_set_parts h (pt_set_scheme p (Some c)))
    else if beq n (str ":status") then c <- status_from_bytes s ;; Ok (hf_set_parts h (pt_set_status p (Some c)))
    else insert
  else insert.

(** headers.rs:141-173: the loop with the running size (its usize sum cannot overflow: it counts
    octets in memory) *)
Fixpoint hdr_collect (max size : N) (h : headersf) (l : list (bytes * bytes)) : headersf * res unit :=
  match l with
  | [] => (h, Ok tt)
  | f :: l' =>
    let size' := size + (blen (fst f) + blen (snd f) + 32) in
    if max <? size' then (h, Err (EHttp2 (DecoderErr HeaderIndexOutOfBounds)))
    else try_ h (hdr_field h f) (fun h' => hdr_collect max size' h' l')
  end.

(** headers.rs:129-175 parse: the decoder table, the frame and the number of octets of the block *)
Definition headers_parse (t : hindex) (h : headersf) (l : bytes) (max : N) : hindex * headersf * res N :=
  match (if is_priority (hf_flags h)
         then ' (d, r) <- dep_load l ;; Ok (hf_set_dep h (Some d), r)
         else Ok (h, l)) with
  | Ok (h1, l1) =>
    let '(t', r) := decode_headers t l1 in
    match r with
    | Ok fs =>
      let '(h2, c) := hdr_collect max 0 h1 fs in
      (t', h2, u <- c ;; Ok (blen l1))
    | Err e => (t', h1, Err e)
    | Panic => (t', h1, Panic)
    | Diverge => (t', h1, Diverge)
    end
  | Err e => (t, h, Err e)
  | Panic => (t, h, Panic)
  | Diverge => (t, h, Diverge)
  end.

(** headers.rs:608-621: the octet strings of the frames of a header block *)
Fixpoint block_chunks (max : N) (t : hindex) (l : headers) (cur : bytes) : res (hindex * list bytes) :=
  match l with
  | [] => Ok (t, [cur])
  | f :: l' =>
    let full := max <? blen (fst f) + blen (snd f) + blen cur in
    ' (t1, b) <- encode_header t f ;;
    ' (t2, cs) <- block_chunks max t1 l' ((if full then [] else cur) ++ b) ;;
    Ok (t2, if full then cur :: cs else cs)
  end.
(** headers.rs:622-646: the frames ([as u32] keeps the low 24 bits that are written) *)
Fixpoint cont_frames (flags id : N) (cs : list bytes) : bytes :=
  match cs with
  | [] => []
  | [c] => fh_encode (mkFH (blen c) KContinuation (set_end_headers flags) id) ++ c
  | c :: cs' => fh_encode (mkFH (blen c) KContinuation flag_zero id) ++ c ++ cont_frames flags id cs'
  end.
Definition block_frames (flags id : N) (cs : list bytes) : bytes :=
  match cs with
  | [] => []
  | [c] => fh_encode (mkFH (blen c) KHeaders (set_end_headers flags) id) ++ c
  | c :: cs' => fh_encode (mkFH (blen c) KHeaders flag_zero id) ++ c ++ cont_frames flags id cs'
  end.
(** headers.rs:603-649 HeaderBlock::encode *)
Definition block_encode (max : N) (t : hindex) (flags id : N) (fields : headers) : res (hindex * bytes) :=
  ' (t', cs) <- block_chunks max t fields [] ;; Ok (t', block_frames flags id cs).
(** headers.rs:297-303 Headers::encode: the parts are not written *)
Definition headers_encode (max : N) (t : hindex) (h : headersf) : res (hindex * bytes) :=
  block_encode max t (hf_flags h) (hf_id h) (hf_fields h).

(** ** Parts *)
(** headers.rs:520-540 request *)
Definition parts_request (m : method) (u : url) (protocol : option scheme) : parts :=
  mkParts (Some m)
    (if scheme_eqb (u_scheme u) ScNone then protocol else Some (u_scheme u))
    (u_domain u)
    (match u_path u with [] => None | p => Some p end)
    None.
(** headers.rs:542-550 response *)
Definition parts_response (status : N) : parts := mkParts None None None None (Some status).
(** headers.rs:569-585 encode_header (the parts become empty) *)
Definition opt_insert (h : headers) (n : string) (o : option bytes) : headers :=
  match o with Some v => hm_insert h (str n) v | None => h end.
Definition parts_encode_header (p : parts) (h : headers) : headers :=
  let h1 := opt_insert h ":method" (option_map method_str (pt_method p)) in
  let h2 := opt_insert h1 ":authority" (pt_authority p) in
  let h3 := opt_insert h2 ":scheme" (option_map scheme_str (pt_scheme p)) in
  let h4 := opt_insert h3 ":path" (pt_path p) in
  opt_insert h4 ":status" (option_map status_str (pt_status p)).
(** headers.rs:587-599 build_url *)
Definition parts_build_url (p : parts) : res url :=
  match pt_authority p with
  | None => Err (EHttp2 InvalidRequesetUrl)
  | Some a =>
    url_parse (scheme_str (match pt_scheme p with Some s => s | None => ScHttp end) ++ str "://" ++ a ++
               (match pt_path p with Some q => q | None => str "/" end))
  end.

(** request.rs:241-248 Builder::headers, response.rs:152-159 *)
Definition hm_insert_all (h : headers) (l : headers) : headers :=
  fold_left (fun acc f => hm_insert acc (fst f) (snd f)) l h.
(** headers.rs:274-283 into_request on a builder without error: request.rs:147-159 url (sets Host), 104-114
    method, 241-248 headers *)
Definition headers_into_request (h : headersf) (q : request) : res request :=
  u <- parts_build_url (hf_parts h) ;;
  let q1 := req_set_url (match url_connect u with
                         | Some c => req_set_header q (hm_insert (q_header q) (str "Host") c)
                         | None => q
                         end) u in
  let q2 := match pt_method (hf_parts h) with Some m => req_set_method q1 m | None => q1 end in
  Ok (req_set_header q2 (hm_insert_all (q_header q2) (hf_fields h))).
(** headers.rs:285-295 into_response on a builder without error; response.rs:93-98 method *)
Definition headers_into_response (h : headersf) (p : response) : response :=
  let p1 := match pt_method (hf_parts h) with
            | Some m => resp_set_header p (hm_insert (p_header p) (str ":method") (method_str m))
            | None => p
            end in
  let p2 := match pt_status (hf_parts h) with Some s => resp_set_status p1 s | None => p1 end in
  resp_set_header p2 (hm_insert_all (p_header p2) (hf_fields h)).

(** ** PUSH_PROMISE *)
(** headers.rs:49-61 *)
Record pushf := mkPush { pp_id : N; pp_promised : N; pp_fields : headers; pp_parts : parts; pp_flags : N }.
(** headers.rs:331-342 new, 444-455 parse: the header block is ignored *)
Definition push_new (h : fheader) (promised : N) (fields : headers) : pushf :=
  mkPush (fh_id h) promised fields parts_default (fh_flag h).
Definition push_parse (h : fheader) (l : bytes) : pushf :=
  let '(id, _) := stream_parse l in push_new h id [].
(** headers.rs:467-484: remove a pseudo header and encode it *)
Definition push_spec (s : hindex * headers * bytes) (n : string) : res (hindex * headers * bytes) :=
  let '(t, h, b) := s in
  let '(h', o) := hm_remove h (str n) in
  match o with
  | Some v => ' (t', e) <- encode_header t (str n, v) ;; Ok (t', h', b ++ e)
  | None => Ok (t, h', b)
  end.
(** headers.rs:461-497 encode *)
Definition push_encode (max : N) (t : hindex) (p : pushf) : res (hindex * bytes) :=
  let h0 := parts_encode_header (pp_parts p) (pp_fields p) in
  s1 <- push_spec (t, h0, []) ":method" ;;
  s2 <- push_spec s1 ":authority" ;;
  s3 <- push_spec s2 ":scheme" ;;
  ' (t4, h4, b) <- push_spec s3 ":path" ;;
  ' (t5, r) <- block_encode max t4 (pp_flags p) (pp_promised p) h4 ;;
  Ok (t5, fh_encode (mkFH (blen b + 4) KPushPromise (set_end_headers (pp_flags p)) (pp_id p)) ++
          stream_encode (pp_promised p) ++ b ++ r).

(** ** Frame (frame/frame.rs) *)
(** 37-47 *)
Inductive frame :=
| FData (d : dataf) | FHeaders (h : headersf) | FPriority (p : priority) | FPushPromise (p : pushf)
| FSettings (s : settings) | FPing (p : ping) | FGoAway (g : goaway) | FWindowUpdate (w : winupd)
| FReset (r : resetf).
(** 78-90 stream_id, 92-104 flags *)
Definition frame_stream_id (f : frame) : N :=
  match f with
  | FData d => da_id d
  | FHeaders h => hf_id h
  | FPriority _ => 0
  | FPushPromise p => pp_id p
  | FSettings _ => 0
  | FPing _ => 0
  | FGoAway _ => 0
  | FWindowUpdate w => wu_id w
  | FReset r => rs_id r
  end.
Definition frame_flags (f : frame) : N :=
  match f with
  | FData d => da_flags d
  | FHeaders h => hf_flags h
  | FPushPromise p => pp_flags p
  | FSettings s => st_flags s
  | FPriority _ | FPing _ | FGoAway _ | FWindowUpdate _ | FReset _ => flag_zero
  end.
(** 106-134 is_header, is_data, is_end_headers, is_end_stream *)
Definition frame_is_header (f : frame) : bool := match f with FHeaders _ => true | _ => false end.
Definition frame_is_data (f : frame) : bool := match f with FData _ => true | _ => false end.
Definition frame_is_end_headers (f : frame) : bool :=
  match f with FHeaders h => is_end_headers (hf_flags h) | _ => false end.
Definition frame_is_end_stream (f : frame) : bool :=
  match f with
  | FHeaders h => is_end_stream (hf_flags h)
  | FData d => is_end_stream (da_flags d)
  | _ => false
  end.
(** 136-152 encode *)
Definition frame_encode (max : N) (t : hindex) (f : frame) : res (hindex * bytes) :=
  match f with
  | FData d => b <- data_encode max d ;; Ok (t, b)
  | FHeaders h => headers_encode max t h
  | FPriority p => Ok (t, priority_encode p)
  | FPushPromise p => push_encode max t p
  | FSettings s => Ok (t, settings_encode s)
  | FPing p => Ok (t, ping_encode p)
  | FGoAway g => Ok (t, goaway_encode g)
  | FWindowUpdate w => Ok (t, winupd_encode w)
  | FReset r => Ok (t, reset_encode r)
  end.
(** 155-187 parse: the decoder table afterwards and the frame *)
Definition frame_parse (t : hindex) (h : fheader) (l : bytes) (max : N) : hindex * res frame :=
  match trim_padding h l with
  | Err e => (t, Err e)
  | Panic => (t, Panic)
  | Diverge => (t, Diverge)
  | Ok l1 =>
    match fh_kind h with
    | KData => (t, d <- data_new h l1 ;; Ok (FData d))
    | KHeaders =>
      let '(t', hf, r) := headers_parse t (headers_new h []) l1 max in
      (t', u <- r ;; Ok (FHeaders hf))
    | KPriority => (t, p <- priority_parse h l1 ;; Ok (FPriority p))
    | KReset => (t, r <- reset_parse h l1 ;; Ok (FReset r))
    | KSettings => (t, s <- settings_parse h l1 ;; Ok (FSettings s))
    | KPushPromise => (t, Ok (FPushPromise (push_parse h l1)))
    | KPing => (t, p <- ping_parse h l1 ;; Ok (FPing p))
    | KGoAway => (t, g <- goaway_parse l1 ;; Ok (FGoAway g))
    | KWindowUpdate => (t, w <- winupd_parse h l1 ;; Ok (FWindowUpdate w))
    | KContinuation | KUnregistered => (t, Err (EExtension ""))
    end
  end.
