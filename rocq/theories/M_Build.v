(** Model of the builders and of the text forms of messages: http/request.rs and http/response.rs (Builder,
    Display, replace_clone), http/header.rs (Display), frame/reason.rs and PushPromise::validate_request of
    frame/headers.rs.  The URL builder and [Url::merge] are in M_Url. *)
From Coq Require Import Ascii String NArith ZArith Bool List.
From Verif Require Import Base M_Std M_Helper M_Header M_Url M_Http1 M_Frame M_Ext.
Import ListNotations.
Local Open Scope N_scope.

(** ** request.rs Builder *)
(** The calls.  [method] and [url] take any type with a TryFrom: texts (method.rs 122-139, url.rs 374-401) and
    the values themselves (which cannot fail). *)
Inductive req_op :=
| RbMethod (v : bytes)
| RbMethodVal (m : method)
| RbUrl (v : bytes)
| RbUrlVal (u : url)
| RbVersion (v : version)
| RbHeader (n v : bytes)
| RbHeaders (h : headers)
| RbUpgrade (s : settings).

(** 345-352: Builder::default; the parts are kept in a [request]. *)
Definition req_builder_new : request := mkReq MGet V11 url_new [] false.
(** 152-158: the closure of [url]. *)
Definition rb_set_url (q : request) (u : url) : request :=
  let q1 := req_set_url q u in
  match url_connect u with
  | Some c => req_set_header q1 (hm_insert (q_header q1) (str "Host") c)
  | None => q1
  end.
(** 243-245: the loop of [headers]. *)
Definition hm_extend (h l : headers) : headers :=
  fold_left (fun acc nv => hm_insert acc (fst nv) (snd nv)) l h.
(** 325-333: upgrade_http2. *)
Definition rb_upgrade (h : headers) (s : settings) : headers :=
  hm_insert (hm_insert (hm_insert h (str "Connection") (str "Upgrade, HTTP2-Settings"))
                       (str "Upgrade") (str "h2c"))
            (str "HTTP2-Settings") (encode_http_settings s).
(** 104-114, 147-159, 190-195, 227-248, 325-333: the closures passed to and_then. *)
Definition req_op_apply (q : request) (o : req_op) : res request :=
  match o with
  | RbMethod v => m <- method_of_str v ;; Ok (req_set_method q m)
  | RbMethodVal m => Ok (req_set_method q m)
  | RbUrl v => u <- url_parse v ;; Ok (rb_set_url q u)
  | RbUrlVal u => Ok (rb_set_url q u)
  | RbVersion v => Ok (req_set_version q v)
  | RbHeader n v => Ok (req_set_header q (hm_insert (q_header q) n v))
  | RbHeaders h => Ok (req_set_header q (hm_extend (q_header q) h))
  | RbUpgrade s => Ok (req_set_header q (rb_upgrade (q_header q) s))
  end.
(** 335-342: and_then. *)
Definition req_builder_from (q : request) (ops : list req_op) : res request :=
  fold_left (fun r o => q <- r ;; req_op_apply q o) ops (Ok q).
Definition req_builder (ops : list req_op) : res request := req_builder_from req_builder_new ops.
(** 302-311: the closure of [body]. *)
Definition req_finish (q : request) : request :=
  let h := if hm_contains (q_header q) (str "User-Agent") then q_header q
           else hm_insert (q_header q) (str "User-Agent") (str "wenmeng") in
  req_set_partial (req_set_header q h) true.
(** 298-313: body. *)
Definition req_build (ops : list req_op) : res request := q <- req_builder ops ;; Ok (req_finish q).
(** 67-90: from_req (the URL is copied whole; header and extensions are not). *)
Definition method_eqb (a b : method) : bool :=
  match a, b with
  | MNone, MNone | MOptions, MOptions | MGet, MGet | MPost, MPost | MPut, MPut | MDelete, MDelete
  | MHead, MHead | MTrace, MTrace | MConnect, MConnect | MPatch, MPatch => true
  | MExt s, MExt t => beq s t
  | _, _ => false
  end.
Definition version_is_none (v : version) : bool := match v with VNone => true | _ => false end.
Definition req_builder_of (r : request) : request :=
  let q0 := req_builder_new in
  let q1 := if negb (method_eqb (q_method r) MNone) then req_set_method q0 (q_method r) else q0 in
  let q2 := if negb (version_is_none (q_version r)) then req_set_version q1 (q_version r) else q1 in
  req_set_url q2 (q_url r).
(** 129-131, 174-176, 210-212, 263-265: method_ref, url_ref, version_ref, headers_ref. *)
Definition ref {A B} (r : res A) (f : A -> B) : option B := match r with Ok a => Some (f a) | _ => None end.
Definition rb_method_ref (r : res request) := ref r q_method.
Definition rb_url_ref (r : res request) := ref r q_url.
Definition rb_version_ref (r : res request) := ref r q_version.
Definition rb_headers_ref (r : res request) := ref r q_header.
(** 317-323: get_body_len. *)
Definition rb_body_len (r : res request) : res Z :=
  match r with Ok q => hm_body_len (q_header q) | _ => Ok 0%Z end.

(** ** response.rs Builder *)
Inductive resp_op :=
| PbStatus (n : N)            (* TryFrom<u16> *)
| PbStatusText (v : bytes)    (* TryFrom<&str>, TryFrom<&[u8]> *)
| PbMethod (v : bytes)
| PbVersion (v : version)
| PbHeader (n v : bytes)
| PbHeaders (h : headers).
(** 82-91, 93-98, 114-119, 138-159: the closures. *)
Definition resp_op_apply (p : response) (o : resp_op) : res response :=
  match o with
  | PbStatus n => s <- status_from_u16 n ;; Ok (resp_set_status p s)
  | PbStatusText v => s <- status_from_bytes v ;; Ok (resp_set_status p s)
  | PbMethod v => Ok (resp_set_header p (hm_insert (p_header p) (str ":method") v))
  | PbVersion v => Ok (resp_set_version p v)
  | PbHeader n v => Ok (resp_set_header p (hm_insert (p_header p) n v))
  | PbHeaders h => Ok (resp_set_header p (hm_extend (p_header p) h))
  end.
(** 307-324: and_then, default. *)
Definition resp_builder (ops : list resp_op) : res response :=
  fold_left (fun r o => p <- r ;; resp_op_apply p o) ops (Ok resp_default).
(** 282-294: body. *)
Definition resp_finish (p : response) : response :=
  let h := if hm_contains (p_header p) (str "Server") then p_header p
           else hm_insert (p_header p) (str "Server") (str "wenmeng") in
  resp_set_partial (resp_set_header p h) false.
Definition resp_build (ops : list resp_op) : res response := p <- resp_builder ops ;; Ok (resp_finish p).
(** 347-381: text, json, status404, status503, status502, status500 as the calls they make
    (HeaderName::CONTENT_TYPE is "content-type", name.rs). *)
Definition resp_preset (code : N) (ctype : string) : list resp_op :=
  [PbStatus code; PbHeader (str "content-type") (str ctype)].
Definition resp_text := resp_preset 200 "text/plain; charset=utf-8".
Definition resp_json := resp_preset 200 "application/json; charset=utf-8".
Definition resp_status404 := resp_preset 404 "text/html; charset=utf-8".
Definition resp_status503 := resp_preset 503 "text/html; charset=utf-8".
Definition resp_status502 := resp_preset 502 "text/html; charset=utf-8".
Definition resp_status500 := resp_preset 500 "text/html; charset=utf-8".

(** ** Display *)
(** name.rs 147-151, value.rs 98-105 (a Stand value is valid UTF-8, for which [utf8_lossy] is the identity),
    header.rs 366-376. *)
Definition header_line_display (nv : bytes * bytes) : bytes := fst nv ++ [58; 32] ++ utf8_lossy (snd nv) ++ crlf.
Definition hm_display (h : headers) : bytes := concat (map header_line_display h) ++ crlf.
(** status.rs 226-235. *)
Definition status_display (n : N) : bytes :=
  dec_print n ++ 32 :: match canonical_reason n with Some s => s | None => str "<unknown status code>" end.
(** request.rs 704-718, with what the body's Display writes; method.rs 116-120, version.rs 84-88. *)
Definition req_display (q : request) (body : bytes) : bytes :=
  method_str (q_method q) ++ 32 :: u_path (q_url q) ++ 32 :: version_str (q_version q) ++ crlf ++
  hm_display (q_header q) ++ body.
(** response.rs 793-806. *)
Definition resp_display (p : response) (body : bytes) : bytes :=
  version_str (p_version p) ++ 32 :: status_display (p_status p) ++ crlf ++ hm_display (p_header p) ++ body.

(** ** Copies *)
(** request.rs 732-750, response.rs 759-776: cloning the parts keeps, of the extensions, the shared HPACK
    table only.  [IX] is the TypeId of Arc<RwLock<HeaderIndex>>; an Arc is its address. *)
Definition ext_clone {V} (IX : N) (e : extensions V) : extensions V :=
  match ext_get e IX with Some v => fst (ext_insert ext_new IX v) | None => ext_new end.
(** request.rs 652-661, response.rs 726-735: replace_clone on a message with head [H], extensions and body:
    the message afterwards and the one returned. *)
Definition replace_clone {H V B} (IX : N) (m : H * extensions V * B) (body : B) :
  (H * extensions V * B) * (H * extensions V * B) :=
  let '(h, e, b) := m in ((h, e, body), (h, ext_clone IX e, b)).
(** request.rs 518-534, response.rs 657-673: into; into_type. *)
Definition msg_into {H V B C} (m : H * extensions V * B) (body : C) : (H * extensions V * C) * B :=
  let '(h, e, b) := m in ((h, e, body), b).

(** ** reason.rs *)
(** 33-72: the constants. *)
Definition R_NO_ERROR : N := 0.
Definition R_PROTOCOL_ERROR : N := 1.
Definition R_INTERNAL_ERROR : N := 2.
Definition R_FLOW_CONTROL_ERROR : N := 3.
Definition R_SETTINGS_TIMEOUT : N := 4.
Definition R_STREAM_CLOSED : N := 5.
Definition R_FRAME_SIZE_ERROR : N := 6.
Definition R_REFUSED_STREAM : N := 7.
Definition R_CANCEL : N := 8.
Definition R_COMPRESSION_ERROR : N := 9.
Definition R_CONNECT_ERROR : N := 10.
Definition R_ENHANCE_YOUR_CALM : N := 11.
Definition R_INADEQUATE_SECURITY : N := 12.
Definition R_HTTP_1_1_REQUIRED : N := 13.
(** 75-96: description, which 142-146 Display writes. *)
Definition reason_description (r : N) : bytes := str
  (if r =? 0 then "not a result of an error"
   else if r =? 1 then "unspecific protocol error detected"
   else if r =? 2 then "unexpected internal error encountered"
   else if r =? 3 then "flow-control protocol violated"
   else if r =? 4 then "settings ACK not received in timely manner"
   else if r =? 5 then "received frame when stream half-closed"
   else if r =? 6 then "frame with invalid size"
   else if r =? 7 then "refused stream before processing any application logic"
   else if r =? 8 then "stream no longer needed"
   else if r =? 9 then "unable to maintain the header compression context"
   else if r =? 10 then "connection established in response to a CONNECT request was reset or abnormally closed"
   else if r =? 11 then "detected excessive load generating behavior"
   else if r =? 12 then "security properties do not meet minimum requirements"
   else if r =? 13 then "endpoint requires HTTP/1.1"
   else "unknown reason").
(** 99-109: From<u32>, Into<u32>. *)
Definition reason_from_u32 (n : N) : N := n.
Definition reason_to_u32 (r : N) : N := r.
(** 111-140: Debug; the inner LowerHex writes no leading zeros. *)
Definition reason_debug (r : N) : bytes :=
  if r =? 0 then str "NO_ERROR"
  else if r =? 1 then str "PROTOCOL_ERROR"
  else if r =? 2 then str "INTERNAL_ERROR"
  else if r =? 3 then str "FLOW_CONTROL_ERROR"
  else if r =? 4 then str "SETTINGS_TIMEOUT"
  else if r =? 5 then str "STREAM_CLOSED"
  else if r =? 6 then str "FRAME_SIZE_ERROR"
  else if r =? 7 then str "REFUSED_STREAM"
  else if r =? 8 then str "CANCEL"
  else if r =? 9 then str "COMPRESSION_ERROR"
  else if r =? 10 then str "CONNECT_ERROR"
  else if r =? 11 then str "ENHANCE_YOUR_CALM"
  else if r =? 12 then str "INADEQUATE_SECURITY"
  else if r =? 13 then str "HTTP_1_1_REQUIRED"
  else str "Reason(" ++ hex_print r ++ str ")".

(** ** frame/headers.rs *)
(** 430-434: safe_and_cacheable. *)
Definition safe_and_cacheable (m : method) : bool := method_eqb m MGet || method_eqb m MHead.
(** 412-428: validate_request. *)
Definition validate_request (q : request) : res unit :=
  n <- hm_body_len (q_header q) ;;
  if (n =? 0)%Z then Err (EHttp2 PayloadLengthTooShort)
  else if negb (safe_and_cacheable (q_method q)) then Err (EHttp2 PayloadLengthTooShort)
  else Ok tt.
