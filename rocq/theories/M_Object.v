(** Request and Response as objects: head, extensions and body together, the setters and the mutable references, and
    the conversions that take a message apart (src/http/request.rs, src/http/response.rs).  Writing through a mutable
    reference is the function that the caller applies to what it points to. *)
From Coq Require Import Ascii String NArith ZArith Bool List.
From Verif Require Import Base M_Std M_Header M_Url M_Http1 M_Ext M_Write M_Build.
Import ListNotations.
Local Open Scope N_scope.

(** request.rs 25-33 Request, 35-42 Parts *)
Record reqo (V B : Type) := mkReqo { ro_head : request; ro_ext : extensions V; ro_body : B }.
Arguments mkReqo {V B}. Arguments ro_head {V B}. Arguments ro_ext {V B}. Arguments ro_body {V B}.
(** response.rs: Response and Parts *)
Record respo (V B : Type) := mkRespo { po_head : response; po_ext : extensions V; po_body : B }.
Arguments mkRespo {V B}. Arguments po_head {V B}. Arguments po_ext {V B}. Arguments po_body {V B}.

(** ** request.rs *)
(** Calls on a Request that change it. *)
Inductive req_call (V B : Type) :=
| QMethod (m : method)                                    (* 409-412 set_method *)
| QVersion (v : version)                                  (* 419-422 set_version *)
| QPath (p : bytes)                                       (* 429-432 set_path *)
| QScheme (s : scheme)                                    (* 438-441 set_scheme *)
| QUrl (u : url)                                          (* 385-393 set_url *)
| QUrlMut (f : url -> url)                                (* 463-465 url_mut *)
| QHeadersMut (f : headers -> headers)                    (* 447-449 headers_mut *)
| QBodyMut (f : B -> B)                                   (* 636-638 body_mut *)
| QHeadersBodyMut (f : headers -> headers) (g : B -> B)   (* 455-457 headers_body_mut *)
| QExtMut (f : extensions V -> extensions V)              (* 620-623 extensions_mut *)
| QReplaceClone (b : B).                                  (* 652-661 replace_clone: the effect on the message itself *)
Arguments QMethod {V B}. Arguments QVersion {V B}. Arguments QPath {V B}. Arguments QScheme {V B}. Arguments QUrl {V B}.
Arguments QUrlMut {V B}. Arguments QHeadersMut {V B}. Arguments QBodyMut {V B}. Arguments QHeadersBodyMut {V B}.
Arguments QExtMut {V B}. Arguments QReplaceClone {V B}.
Definition url_set_path (u : url) (p : bytes) : url :=
  mkUrl (u_scheme u) p (u_user u) (u_pass u) (u_domain u) (u_port u) (u_query u).
Definition url_set_scheme (u : url) (s : scheme) : url :=
  mkUrl s (u_path u) (u_user u) (u_pass u) (u_domain u) (u_port u) (u_query u).
Definition req_call_run {V B} (r : reqo V B) (c : req_call V B) : reqo V B :=
  let '(mkReqo q e b) := r in
  match c with
  | QMethod m => mkReqo (req_set_method q m) e b
  | QVersion v => mkReqo (req_set_version q v) e b
  | QPath p => mkReqo (req_set_url q (url_set_path (q_url q) p)) e b
  | QScheme s => mkReqo (req_set_url q (url_set_scheme (q_url q) s)) e b
  | QUrl u => mkReqo (req_update_url q u) e b
  | QUrlMut f => mkReqo (req_set_url q (f (q_url q))) e b
  | QHeadersMut f => mkReqo (req_set_header q (f (q_header q))) e b
  | QBodyMut f => mkReqo q e (f b)
  | QHeadersBodyMut f g => mkReqo (req_set_header q (f (q_header q))) e (g b)
  | QExtMut f => mkReqo q (f e) b
  | QReplaceClone b' => mkReqo q e b'
  end.
Definition req_calls {V B} (r : reqo V B) (cs : list (req_call V B)) : reqo V B := fold_left req_call_run cs r.

(** 355-361 new; 694-702 default *)
Definition reqo_new {V} : reqo V unit := mkReqo req_default ext_new tt.
(** 35-42: Parts as a value: method, header, version, url, extensions *)
Definition parts (V : Type) : Type := (method * headers * version * url * extensions V)%type.
(** 396-403 parts, parts_mut (what they point to) *)
Definition req_parts {V B} (r : reqo V B) : parts V :=
  (q_method (ro_head r), q_header (ro_head r), q_version (ro_head r), q_url (ro_head r), ro_ext r).
(** 363-369 new_by_parts *)
Definition req_new_by_parts {V} (p : parts V) : reqo V unit :=
  let '(m, h, v, u, e) := p in mkReqo (mkReq m v u h false) e tt.
(** 518-525 into; 527-534 into_type with the From conversion [f] *)
Definition req_into {V B C} (r : reqo V B) (c : C) : reqo V C * B := (mkReqo (ro_head r) (ro_ext r) c, ro_body r).
Definition req_into_type {V B C} (f : B -> C) (r : reqo V B) : reqo V C := mkReqo (ro_head r) (ro_ext r) (f (ro_body r)).
(** 652-661 replace_clone: the returned message.  [IX] as in M_Build.v. *)
Definition req_replace_clone {V B} (IX : N) (r : reqo V B) : reqo V B := mkReqo (ro_head r) (ext_clone IX (ro_ext r)) (ro_body r).
(** 381-383 is_http2; 510-516 is_partial, is_complete; 491-493 get_body_len; 496-508: get_authority, get_scheme, is_keep_alive *)
Definition req_is_http2 {V B} (r : reqo V B) : bool := match q_version (ro_head r) with V2 => true | _ => false end.
Definition req_is_partial {V B} (r : reqo V B) : bool := q_partial (ro_head r).
Definition req_is_complete {V B} (r : reqo V B) : bool := negb (q_partial (ro_head r)).
Definition req_body_len {V B} (r : reqo V B) : res Z := hm_body_len (q_header (ro_head r)).
(** 298-313 Builder::body on a builder in the state [r]; the extensions of a builder are empty (345-352, 67-91) *)
Definition rb_body {V B} (r : res request) (b : B) : res (reqo V B) := q <- r ;; Ok (mkReqo (req_finish q) ext_new b).

(** ** response.rs *)
Inductive resp_call (V B : Type) :=
| PStatusMut (f : N -> N)                                 (* 460-463 status_mut *)
| PVersionMut (f : version -> version)                    (* 489-492 version_mut *)
| PHeadersMut (f : headers -> headers)                    (* 518-521 headers_mut *)
| PBodyMut (f : B -> B)                                   (* 582-585 body_mut *)
| PHeadersBodyMut (f : headers -> headers) (g : B -> B)   (* 591-593 headers_body_mut *)
| PExtMut (f : extensions V -> extensions V)              (* 537-540 extensions_mut *)
| PReplaceBody (b : B)                                    (* 722-724 replace_body *)
| PReplaceClone (b : B).                                  (* 726-735 replace_clone: the effect on the message itself *)
Arguments PStatusMut {V B}. Arguments PVersionMut {V B}. Arguments PHeadersMut {V B}. Arguments PBodyMut {V B}.
Arguments PHeadersBodyMut {V B}. Arguments PExtMut {V B}. Arguments PReplaceBody {V B}. Arguments PReplaceClone {V B}.
Definition resp_call_run {V B} (r : respo V B) (c : resp_call V B) : respo V B :=
  let '(mkRespo p e b) := r in
  match c with
  | PStatusMut f => mkRespo (resp_set_status p (f (p_status p))) e b
  | PVersionMut f => mkRespo (resp_set_version p (f (p_version p))) e b
  | PHeadersMut f => mkRespo (resp_set_header p (f (p_header p))) e b
  | PBodyMut f => mkRespo p e (f b)
  | PHeadersBodyMut f g => mkRespo (resp_set_header p (f (p_header p))) e (g b)
  | PExtMut f => mkRespo p (f e) b
  | PReplaceBody b' | PReplaceClone b' => mkRespo p e b'
  end.
Definition resp_calls {V B} (r : respo V B) (cs : list (resp_call V B)) : respo V B := fold_left resp_call_run cs r.
(** 399-406 new; 738-746 default *)
Definition respo_new {V B} (b : B) : respo V B := mkRespo resp_default ext_new b.
Definition resp_parts (V : Type) : Type := (N * headers * version * extensions V)%type.
(** 621-623 into_parts; 424-430 from_parts *)
Definition resp_into_parts {V B} (r : respo V B) : resp_parts V * B :=
  ((p_status (po_head r), p_header (po_head r), p_version (po_head r), po_ext r), po_body r).
Definition resp_from_parts {V B} (p : resp_parts V) (b : B) : respo V B :=
  let '(s, h, v, e) := p in mkRespo (mkResp s v h false) e b.
(** 606-608 into_body; 640-649 map; 657-673 into, into_type; 675-684 into_binary *)
Definition resp_into_body {V B} (r : respo V B) : B := po_body r.
Definition resp_map {V B C} (f : B -> C) (r : respo V B) : respo V C := mkRespo (po_head r) (po_ext r) (f (po_body r)).
Definition resp_into {V B C} (r : respo V B) (c : C) : respo V C * B := (mkRespo (po_head r) (po_ext r) c, po_body r).
Definition resp_into_type {V B C} (f : B -> C) (r : respo V B) : respo V C := mkRespo (po_head r) (po_ext r) (f (po_body r)).
Definition resp_into_binary {V} (r : respo V body) : respo V body := mkRespo (po_head r) (po_ext r) (into_binary (po_body r)).
(** 432-434 is_partial; 687-689 get_body_len *)
Definition resp_is_partial {V B} (r : respo V B) : bool := p_partial (po_head r).
Definition resp_body_len {V B} (r : respo V B) : res Z := hm_body_len (p_header (po_head r)).
(** 297-303 Builder::get_body_len *)
Definition pb_body_len (r : res response) : res Z := match r with Ok p => hm_body_len (p_header p) | _ => Ok 0%Z end.

(** 217-225 Builder::extension, 198-200 Builder::headers_mut (nothing to write through once a call has failed), and the
    calls of M_Build.v; 240-242 extensions_ref *)
Inductive pb_call (V : Type) := PbCall (o : resp_op) | PbExtension (T : N) (v : V) | PbHeadersMut (f : headers -> headers).
Arguments PbCall {V}. Arguments PbExtension {V}. Arguments PbHeadersMut {V}.
Definition pb_step {V} (r : res (response * extensions V)) (c : pb_call V) : res (response * extensions V) :=
  ' (p, e) <- r ;;
  match c with
  | PbCall o => p' <- resp_op_apply p o ;; Ok (p', e)
  | PbExtension T v => Ok (p, fst (ext_insert e T v))
  | PbHeadersMut f => Ok (resp_set_header p (f (p_header p)), e)
  end.
Definition pb_run {V} (cs : list (pb_call V)) : res (response * extensions V) := fold_left pb_step cs (Ok (resp_default, ext_new)).
Definition pb_extensions_ref {V} (r : res (response * extensions V)) : option (extensions V) := ref r snd.
Definition pb_body {V B} (r : res (response * extensions V)) (b : B) : res (respo V B) :=
  ' (p, e) <- r ;; Ok (mkRespo (resp_finish p) e b).
