(** Model of src/http/method.rs, version.rs, status.rs, request.rs and
    response.rs: the HTTP/1 message heads. *)
From Coq Require Import Ascii String NArith ZArith Bool List.
From Verif Require Import Base M_Std M_Helper M_Header M_Url.
Import ListNotations.
Local Open Scope N_scope.

(** status.rs 333-526: canonical_reason. *)
Definition reason_table : list (N * string) := [
  (100, "Continue"%string);
  (101, "Switching Protocols"%string);
  (102, "Processing"%string);
  (200, "OK"%string);
  (201, "Created"%string);
  (202, "Accepted"%string);
  (203, "Non Authoritative Information"%string);
  (204, "No Content"%string);
  (205, "Reset Content"%string);
  (206, "Partial Content"%string);
  (207, "Multi-Status"%string);
  (208, "Already Reported"%string);
  (226, "IM Used"%string);
  (300, "Multiple Choices"%string);
  (301, "Moved Permanently"%string);
  (302, "Found"%string);
  (303, "See Other"%string);
  (304, "Not Modified"%string);
  (305, "Use Proxy"%string);
  (307, "Temporary Redirect"%string);
  (308, "Permanent Redirect"%string);
  (400, "Bad Request"%string);
  (401, "Unauthorized"%string);
  (402, "Payment Required"%string);
  (403, "Forbidden"%string);
  (404, "Not Found"%string);
  (405, "Method Not Allowed"%string);
  (406, "Not Acceptable"%string);
  (407, "Proxy Authentication Required"%string);
  (408, "Request Timeout"%string);
  (409, "Conflict"%string);
  (410, "Gone"%string);
  (411, "Length Required"%string);
  (412, "Precondition Failed"%string);
  (413, "Payload Too Large"%string);
  (414, "URI Too Long"%string);
  (415, "Unsupported Media Type"%string);
  (416, "Range Not Satisfiable"%string);
  (417, "Expectation Failed"%string);
  (418, "I'm a teapot"%string);
  (421, "Misdirected Request"%string);
  (422, "Unprocessable Entity"%string);
  (423, "Locked"%string);
  (424, "Failed Dependency"%string);
  (426, "Upgrade Required"%string);
  (428, "Precondition Required"%string);
  (429, "Too Many Requests"%string);
  (431, "Request Header Fields Too Large"%string);
  (451, "Unavailable For Legal Reasons"%string);
  (500, "Internal Server Error"%string);
  (501, "Not Implemented"%string);
  (502, "Bad Gateway"%string);
  (503, "Service Unavailable"%string);
  (504, "Gateway Timeout"%string);
  (505, "HTTP Version Not Supported"%string);
  (506, "Variant Also Negotiates"%string);
  (507, "Insufficient Storage"%string);
  (508, "Loop Detected"%string);
  (510, "Not Extended"%string);
  (511, "Network Authentication Required"%string)].
Fixpoint reason_lookup (t : list (N * string)) (n : N) : option bytes :=
  match t with
  | [] => None
  | (c, s) :: t' => if c =? n then Some (str s) else reason_lookup t' n
  end.
Definition canonical_reason (n : N) : option bytes := reason_lookup reason_table n.

(** status.rs 529-575: CODE_DIGITS. *)
Definition CODE_DIGITS : bytes := concat (map str [
  "100101102103104105106107108109110111112113114115116117118119120121122123124125126127128129"%string;
  "130131132133134135136137138139140141142143144145146147148149150151152153154155156157158159"%string;
  "160161162163164165166167168169170171172173174175176177178179180181182183184185186187188189"%string;
  "190191192193194195196197198199200201202203204205206207208209210211212213214215216217218219"%string;
  "220221222223224225226227228229230231232233234235236237238239240241242243244245246247248249"%string;
  "250251252253254255256257258259260261262263264265266267268269270271272273274275276277278279"%string;
  "280281282283284285286287288289290291292293294295296297298299300301302303304305306307308309"%string;
  "310311312313314315316317318319320321322323324325326327328329330331332333334335336337338339"%string;
  "340341342343344345346347348349350351352353354355356357358359360361362363364365366367368369"%string;
  "370371372373374375376377378379380381382383384385386387388389390391392393394395396397398399"%string;
  "400401402403404405406407408409410411412413414415416417418419420421422423424425426427428429"%string;
  "430431432433434435436437438439440441442443444445446447448449450451452453454455456457458459"%string;
  "460461462463464465466467468469470471472473474475476477478479480481482483484485486487488489"%string;
  "490491492493494495496497498499500501502503504505506507508509510511512513514515516517518519"%string;
  "520521522523524525526527528529530531532533534535536537538539540541542543544545546547548549"%string;
  "550551552553554555556557558559560561562563564565566567568569570571572573574575576577578579"%string;
  "580581582583584585586587588589590591592593594595596597598599600601602603604605606607608609"%string;
  "610611612613614615616617618619620621622623624625626627628629630631632633634635636637638639"%string;
  "640641642643644645646647648649650651652653654655656657658659660661662663664665666667668669"%string;
  "670671672673674675676677678679680681682683684685686687688689690691692693694695696697698699"%string;
  "700701702703704705706707708709710711712713714715716717718719720721722723724725726727728729"%string;
  "730731732733734735736737738739740741742743744745746747748749750751752753754755756757758759"%string;
  "760761762763764765766767768769770771772773774775776777778779780781782783784785786787788789"%string;
  "790791792793794795796797798799800801802803804805806807808809810811812813814815816817818819"%string;
  "820821822823824825826827828829830831832833834835836837838839840841842843844845846847848849"%string;
  "850851852853854855856857858859860861862863864865866867868869870871872873874875876877878879"%string;
  "880881882883884885886887888889890891892893894895896897898899900901902903904905906907908909"%string;
  "910911912913914915916917918919920921922923924925926927928929930931932933934935936937938939"%string;
  "940941942943944945946947948949950951952953954955956957958959960961962963964965966967968969"%string;
  "970971972973974975976977978979980981982983984985986987988989990991992993994995996997998999"%string]).

(** ** status.rs *)
(** 62-71: from_u16. A StatusCode is its number. *)
Definition status_from_u16 (n : N) : res N :=
  if (n <? 100) || (1000 <=? n) then Err (EHttp InvalidStatusCode) else Ok n.
(** 74-93: from_bytes (FromStr, TryFrom<&str>, TryFrom<&[u8]> call it);
    [wrapping_sub] on u8. *)
Definition wsub48 (b : N) : N := (b + 256 - 48) mod 256.
Definition status_from_bytes (l : bytes) : res N :=
  match l with
  | [x; y; z] =>
    let a := wsub48 x in let b := wsub48 y in let c := wsub48 z in
    if (a =? 0) || (9 <? a) || (9 <? b) || (9 <? c) then Err (EHttp InvalidStatusCode)
    else Ok (a * 100 + b * 10 + c)
  | _ => Err (EHttp InvalidStatusCode)
  end.
(** 125-142: as_str. *)
Definition status_str (n : N) : bytes := firstn 3 (skipn (N.to_nat ((n - 100) * 3)) CODE_DIGITS).
(** 166-193 *)
Definition is_informational (n : N) : bool := (n <? 200) && (100 <=? n).
Definition is_success (n : N) : bool := (n <? 300) && (200 <=? n).
Definition is_redirection (n : N) : bool := (n <? 400) && (300 <=? n).
Definition is_client_error (n : N) : bool := (n <? 500) && (400 <=? n).
Definition is_server_error (n : N) : bool := (n <? 600) && (500 <=? n).
(** 204-209: encode. *)
Definition status_encode (n : N) : res bytes :=
  match canonical_reason n with
  | Some s => Ok (status_str n ++ 32 :: s ++ crlf)
  | None => Err (EHttp InvalidStatusCode)
  end.

(** ** method.rs *)
(** 19-31 *)
Inductive method :=
| MNone | MOptions | MGet | MPost | MPut | MDelete | MHead | MTrace | MConnect | MPatch
| MExt (s : bytes).
(** 92-106: as_str *)
Definition method_str (m : method) : bytes :=
  match m with
  | MOptions => str "OPTIONS" | MGet => str "GET" | MPost => str "POST" | MPut => str "PUT"
  | MDelete => str "DELETE" | MHead => str "HEAD" | MTrace => str "TRACE"
  | MConnect => str "CONNECT" | MPatch => str "PATCH" | MNone => str "None"
  | MExt s => s
  end.
(** 73-90 *)
Definition is_nobody (m : method) : bool :=
  match m with MGet | MHead | MOptions | MConnect => true | _ => false end.
Definition res_nobody (m : method) : bool :=
  match m with MHead | MOptions | MConnect => true | _ => false end.
(** 108-113: encode *)
Definition method_encode (m : method) : res bytes :=
  match m with MNone => Err (ESerialize "method") | _ => Ok (method_str m) end.
(** 122-139: TryFrom<&str> *)
Definition method_of_str (v : bytes) : res method :=
  if beq v (str "GET") then Ok MGet
  else if beq v (str "POST") then Ok MPost
  else if beq v (str "PUT") then Ok MPut
  else if beq v (str "DELETE") then Ok MDelete
  else if beq v (str "HEAD") then Ok MHead
  else if beq v (str "OPTIONS") then Ok MOptions
  else if beq v (str "CONNECT") then Ok MConnect
  else if beq v (str "PATCH") then Ok MPatch
  else if beq v (str "TRACE") then Ok MTrace
  else Err (EHttp MethodErr).

(** ** version.rs *)
(** 19-25 *)
Inductive version := VNone | V10 | V11 | V2 | V3.
(** 39-47 *)
Definition version_str (v : version) : bytes :=
  match v with
  | V10 => str "HTTP/1.0" | V11 => str "HTTP/1.1" | V2 => str "HTTP/2" | V3 => str "HTTP/3"
  | VNone => str "None"
  end.
(** 49-54 *)
Definition version_encode (v : version) : res bytes :=
  match v with VNone => Err (ESerialize "version") | _ => Ok (version_str v) end.
(** 72-82: From<&str> *)
Definition version_of_str (v : bytes) : version :=
  if beq v (str "HTTP/1.0") then V10
  else if beq v (str "HTTP/1.1") then V11
  else if beq v (str "HTTP/2") then V2
  else if beq v (str "HTTP/3") then V3
  else VNone.

(** ** helper.rs 218-242: parse_method, parse_status, parse_version. *)
Definition parse_method (l : bytes) : res (method * bytes) :=
  ' (t, l1) <- parse_token l ;; m <- method_of_str t ;; Ok (m, l1).
Definition parse_status (l : bytes) : res (N * bytes) :=
  ' (t, l1) <- parse_token l ;; s <- status_from_bytes t ;; Ok (s, l1).
Definition parse_version (l : bytes) : res (version * bytes) :=
  ' (t, l1) <- parse_token l ;;
  if beq t (str "HTTP/1.0") then Ok (V10, l1)
  else if beq t (str "HTTP/1.1") then Ok (V11, l1)
  else if beq t (str "HTTP/2") then Ok (V2, l1)
  else if beq t (str "HTTP/3") then Ok (V3, l1)
  else Err (EHttp VersionErr).

(** ** request.rs *)
(** 32-44: Request and Parts, without the body and the extensions. *)
Record request := mkReq {
  q_method : method;
  q_version : version;
  q_url : url;
  q_header : headers;
  q_partial : bool }.
(** 720-730 and Default for Request. *)
Definition req_default : request := mkReq MNone V11 url_new [] false.

Definition req_set_method (q : request) m := mkReq m (q_version q) (q_url q) (q_header q) (q_partial q).
Definition req_set_version (q : request) v := mkReq (q_method q) v (q_url q) (q_header q) (q_partial q).
Definition req_set_url (q : request) u := mkReq (q_method q) (q_version q) u (q_header q) (q_partial q).
Definition req_set_header (q : request) h := mkReq (q_method q) (q_version q) (q_url q) h (q_partial q).
Definition req_set_partial (q : request) p := mkReq (q_method q) (q_version q) (q_url q) (q_header q) p.

(** The [?] operator in a method taking &mut self: the state reached so far is
    what the caller keeps. *)
Definition try_ {S A B} (st : S) (r : res A) (k : A -> S * res B) : S * res B :=
  match r with
  | Ok a => k a
  | Err e => (st, Err e)
  | Panic => (st, Panic)
  | Diverge => (st, Diverge)
  end.

(** 536-550: parse_connect_by_host (the From<ParseIntError> conversion of
    error.rs gives Extension("parse int error")). *)
Definition parse_connect_by_host (u : url) (h : bytes) : res url :=
  let '(mkUrl sc pa us pw dom po q) := u in
  match split_on 58 h with
  | [d] => Ok (mkUrl sc pa us pw (Some d) (Some 80) q)
  | [d; p] => match parse_uint 65536 p with
              | Some n => Ok (mkUrl sc pa us pw (Some d) (Some n) q)
              | None => Err (EExtension "parse int error")
              end
  | _ => Err EInto
  end.

(** 564-596: the URL of the request from its target and headers. *)
Definition req_complete_url (path : bytes) (h : headers) : res url :=
  u <- url_parse path ;;
  u1 <- (if is_some (u_domain u) then Ok u
         else match hm_get_host h with
              | Some hs => parse_connect_by_host u hs
              | None => Ok u
              end) ;;
  let '(mkUrl sc pa us pw dom po q) := u1 in
  let sc' := if scheme_is_none sc
             then match hm_get h (str ":scheme") with
                  | Some v => match scheme_of_str (utf8_lossy v) with
                              | Ok s => s
                              | _ => ScHttp
                              end
                  | None => ScHttp
                  end
             else sc in
  Ok (mkUrl sc' pa us pw dom po q).
Definition req_url_of (m : method) (path : bytes) (h : headers) : res url :=
  match m with
  | MConnect => parse_connect_by_host url_new path
  | _ => req_complete_url path h
  end.

(** 552-598: parse_buffer; the result carries the rest of the buffer, the
    returned size is computed by [req_parse]. *)
Definition req_parse_buffer (q : request) (l : bytes) : request * res bytes :=
  let q0 := req_set_partial q true in
  try_ q0 (skip_empty_lines l) (fun '(_, l1) =>
  try_ q0 (parse_method l1) (fun '(m, l2) =>
  let q1 := req_set_method q0 m in
  try_ q1 (skip_spaces l2) (fun '(_, l3) =>
  try_ q1 (parse_token l3) (fun '(path, l4) =>
  try_ q1 (skip_spaces l4) (fun '(_, l5) =>
  try_ q1 (parse_version l5) (fun '(v, l6) =>
  let q2 := req_set_version q1 v in
  try_ q2 (skip_new_line l6) (fun '(_, l7) =>
  let '(h, r) := parse_header l7 in
  let q3 := req_set_header q2 h in
  try_ q3 r (fun rest =>
  let q4 := req_set_partial q3 false in
  try_ q4 (req_url_of m path h) (fun u =>
  (req_set_url q4 u, Ok rest)))))))))).

(** 600-604: parse: the size is len - remaining. *)
Definition req_parse (q : request) (l : bytes) : request * res N :=
  let '(q', r) := req_parse_buffer q l in
  (q', rest <- r ;; Ok (blen l - blen rest)).

(** 640-650: encode_header. *)
Definition req_encode_header (q : request) : res bytes :=
  m <- method_encode (q_method q) ;;
  v <- version_encode (q_version q) ;;
  Ok (m ++ 32 :: u_path (q_url q) ++ 32 :: v ++ crlf ++ hm_encode (q_header q)).
(** 625-630: http1_data; [body] is what the body's Serialize writes. *)
Definition req_http1_data (q : request) (body : bytes) : res bytes :=
  h <- req_encode_header q ;; Ok (h ++ body).

(** 385-393: set_url. *)
Definition req_update_url (q : request) (u : url) : request :=
  let q1 := match url_connect u with
            | Some c => if hm_contains (q_header q) (str "Host") then q
                        else req_set_header q (hm_insert (q_header q) (str "Host") c)
            | None => q
            end in
  req_set_url q1 u.

(** 669-674: get_host of Parts. *)
Definition req_get_host (q : request) : option bytes :=
  match u_domain (q_url q) with Some d => Some d | None => hm_get_host (q_header q) end.

(** ** response.rs *)
(** Response and Parts, without the body and the extensions; 748-757 default. *)
Record response := mkResp {
  p_status : N;
  p_version : version;
  p_header : headers;
  p_partial : bool }.
Definition resp_default : response := mkResp 200 V11 [] false.

Definition resp_set_partial (p : response) b := mkResp (p_status p) (p_version p) (p_header p) b.
Definition resp_set_version (p : response) v := mkResp (p_status p) v (p_header p) (p_partial p).
Definition resp_set_status (p : response) s := mkResp s (p_version p) (p_header p) (p_partial p).
Definition resp_set_header (p : response) h := mkResp (p_status p) (p_version p) h (p_partial p).

(** 706-720: parse_buffer. *)
Definition resp_parse_buffer (p : response) (l : bytes) : response * res bytes :=
  let p0 := resp_set_partial p true in
  try_ p0 (skip_empty_lines l) (fun '(_, l1) =>
  try_ p0 (parse_version l1) (fun '(v, l2) =>
  let p1 := resp_set_version p0 v in
  try_ p1 (skip_spaces l2) (fun '(_, l3) =>
  try_ p1 (parse_status l3) (fun '(s, l4) =>
  let p2 := resp_set_status p1 s in
  try_ p2 (skip_spaces l4) (fun '(_, l5) =>
  try_ p2 (parse_status_token l5) (fun '(_, l6) =>
  try_ p2 (skip_new_line l6) (fun '(_, l7) =>
  let '(h, r) := parse_header l7 in
  let p3 := resp_set_header p2 h in
  try_ p3 r (fun rest =>
  (resp_set_partial p3 false, Ok rest))))))))).
(** 700-704: parse. *)
Definition resp_parse (p : response) (l : bytes) : response * res N :=
  let '(p', r) := resp_parse_buffer p l in
  (p', rest <- r ;; Ok (blen l - blen rest)).

(** 691-698: encode_header; 782-795: serialize; 650-655: httpdata. *)
Definition resp_encode_header (p : response) : res bytes :=
  v <- version_encode (p_version p) ;;
  s <- status_encode (p_status p) ;;
  Ok (v ++ 32 :: s ++ hm_encode (p_header p)).
Definition resp_httpdata (p : response) (body : bytes) : res bytes :=
  h <- resp_encode_header p ;; Ok (h ++ body).
