(** The writing side as the caller sees it: what has been appended to the caller's buffer, also when the call fails,
    and the number that the call returns.  Models the [encode], [serialize] and [write_to] functions statement by
    statement ([size += ...]); M_Header.v, M_Http1.v, M_Frame.v and M_H2.v have the octets only. *)
From Coq Require Import Ascii String NArith Bool List.
From Verif Require Import Base M_Std M_Helper M_Header M_Url M_Http1 M_Hpack M_Frame M_H2 M_Ws.
Import ListNotations.
Local Open Scope N_scope.

(** What was appended and what was returned. *)
Definition wr := (bytes * res N)%type.
(** buffer.put_u8, put_u16, put_u32, put_slice (external): append and return the number of octets *)
Definition put (b : bytes) : wr := (b, Ok (blen b)).
(** Octets written one way, a literal count returned. *)
Definition put_as (n : N) (b : bytes) : wr := (b, Ok n).
(** A failing [?] before anything is written. *)
Definition fail (e : werr) : wr := ([], Err e).
(** [size += a?; size += b?] *)
Definition wseq (a b : wr) : wr :=
  match snd a with
  | Ok n => (fst a ++ fst b, m <- snd b ;; Ok (n + m))
  | Err e => (fst a, Err e)
  | Panic => (fst a, Panic)
  | Diverge => (fst a, Diverge)
  end.
Infix ";+" := wseq (at level 61, right associativity).
Definition wnone : wr := ([], Ok 0).
Definition wall {A} (f : A -> wr) (l : list A) : wr := fold_right (fun a r => f a ;+ r) wnone l.

(** ** serialize.rs *)
(** 21-67: the types that a body can have.  A Binary or BinaryMut is what remains of it. *)
Inductive body := BStr (s : bytes) | BString (s : bytes) | BUnit | BVec (v : bytes) | BSlice (v : bytes) | BBinary (v : bytes) | BBinaryMut (v : bytes).
(** The body afterwards (chunk() does not advance) and the write. *)
Definition body_write (b : body) : body * wr :=
  match b with
  | BStr s | BString s => (b, put s)
  | BUnit => (b, ([], Ok 0))
  | BVec v | BSlice v => (b, put v)
  | BBinary v | BBinaryMut v => (b, put_as (blen v) v)
  end.

(** ** HTTP/1 *)
(** name.rs 133-138, value.rs 73-78 *)
Definition name_write (n : bytes) : wr := put n.
Definition value_write (v : bytes) : wr := put v.
(** method.rs 108-113, version.rs 49-54, status.rs 204-209, url/scheme.rs 126-133 *)
Definition method_write (m : method) : wr := match m with MNone => fail (ESerialize "method") | _ => put (method_str m) end.
Definition version_write (v : version) : wr := match v with VNone => fail (ESerialize "version") | _ => put (version_str v) end.
Definition status_write (n : N) : wr :=
  match canonical_reason n with
  | Some s => put (status_str n ++ 32 :: s ++ crlf)
  | None => fail (EHttp InvalidStatusCode)
  end.
Definition scheme_write (s : scheme) : wr := match s with ScNone => fail (ESerialize "scheme") | _ => put (scheme_str s) end.
(** header.rs 287-297 *)
Definition header_write (h : headers) : wr :=
  wall (fun nv => name_write (fst nv) ;+ put [58; 32] ;+ value_write (snd nv) ;+ put crlf) h ;+ put crlf.
(** request.rs 640-650 *)
Definition req_write (q : request) : wr :=
  method_write (q_method q) ;+ put [32] ;+ put (u_path (q_url q)) ;+ put [32] ;+ version_write (q_version q) ;+ put crlf ;+ header_write (q_header q).
(** response.rs 691-698 encode_header, 782-790 serialize *)
Definition resp_write (p : response) : wr :=
  version_write (p_version p) ;+ put [32] ;+ status_write (p_status p) ;+ header_write (p_header p).
Definition resp_serialize (p : response) (b : body) : body * wr :=
  let '(b', w) := body_write b in
  (b', version_write (p_version p) ;+ put [32] ;+ status_write (p_status p) ;+ header_write (p_header p) ;+ w).
(** request.rs 625-630 http1_data, response.rs 651-655 httpdata: a buffer of their own, dropped on failure *)
Definition req_data (q : request) (b : body) : body * res bytes :=
  match snd (req_write q) with
  | Ok _ => let '(b', w) := body_write b in (b', _ <- snd w ;; Ok (fst (req_write q) ++ fst w))
  | Err e => (b, Err e)
  | Panic => (b, Panic)
  | Diverge => (b, Diverge)
  end.
Definition resp_data (p : response) (b : body) : body * res bytes :=
  let '(b', w) := resp_serialize p b in (b', _ <- snd w ;; Ok (fst w)).
(** response.rs 675-684 into_binary: the new body *)
Definition into_binary (b : body) : body := BBinary (fst (snd (body_write b))).
(** helper.rs 409-416 *)
Definition chunk_write (d : bytes) : wr := put (hex_print (blen d)) ;+ put crlf ;+ put d ;+ put crlf.

(** ** HTTP/2 frames *)
(** frame/mod.rs 138-143 encode_u24, 80-83 StreamIdentifier::encode, 153-156 and 160-162 SizeIncrement, 182-185 ErrorCode *)
Definition u24_write (v : N) : wr := put_as 3 (encode_u24 v).
Definition stream_write (id : N) : wr := put_as 4 (be_enc 4 id).
Definition increment_encode (v : N) : wr := put_as 4 (be_enc 4 v).
Definition increment_serialize (v : N) : wr := put (be_enc 4 v).
Definition error_code_serialize (v : N) : wr := put_as 4 (be_enc 4 v).
(** frame/mod.rs 149-151 SizeIncrement::parse, 175-178 ErrorCode::parse; get_u32 and advance panic at the end of the buffer *)
Definition increment_parse (l : bytes) : res (N * bytes) := get 4 l.
Definition error_code_parse (l : bytes) : res (N * bytes) :=
  match take_n 4 l with Some (_, r) => Ok (0, r) | None => Panic end.
(** frame/frame.rs 259-266 *)
Definition fh_write (h : fheader) : wr :=
  u24_write (fh_length h) ;+ put [kind_encode (fh_kind h)] ;+ put [fh_flag h] ;+ stream_write (fh_id h).
(** settings.rs 127-143, 334-347 *)
Definition setting_write (s : setting) : wr := put_as 6 (setting_encode s).
Definition settings_write (s : settings) : wr :=
  fh_write (fh_set_length (fh_new KSettings (st_flags s) 0) (settings_payload_len s)) ;+ wall setting_write (settings_list s).
(** data.rs 93-112: what is left in the frame, and the write *)
Fixpoint data_write_loop (fuel : nat) (max id flags : N) (l : bytes) : bytes * wr :=
  match fuel with
  | O => (l, ([], Diverge))
  | S k =>
    let now := N.min (blen l) max in
    if now <? blen l then
      let '(rest, w) := data_write_loop k max id flags (skipn (N.to_nat now) l) in
      (rest, fh_write (mkFH now KData (unset_end_stream flags) id) ;+ put (firstn (N.to_nat now) l) ;+ w)
    else (l, fh_write (mkFH now KData flags id) ;+ put_as (blen l) l)
  end.
Definition data_write (max : N) (d : dataf) : dataf * wr :=
  let '(rest, w) := data_write_loop (S (length (da_data d))) max (da_id d) (da_flags d) (da_data d) in
  (mkData (da_id d) rest (da_flags d), w).
(** ping.rs 106-113 encode, 117-122 serialize; go_away.rs 82-89; reset.rs 60-66; window_update.rs 72-79 *)
Definition ping_write (p : ping) : wr :=
  fh_write (mkFH (blen (pg_payload p)) KPing (if pg_ack p then ACK else flag_zero) 0) ;+ put (pg_payload p).
Definition goaway_write (g : goaway) : wr :=
  fh_write (mkFH (8 + blen (ga_debug g)) KGoAway flag_zero 0) ;+ put (be_enc 4 (ga_last g)) ;+ put (be_enc 4 (ga_code g)) ;+ put (ga_debug g).
Definition reset_write (r : resetf) : wr := fh_write (mkFH 4 KReset flag_zero (rs_id r)) ;+ put (be_enc 4 (rs_code r)).
Definition winupd_write (w : winupd) : wr := fh_write (mkFH 4 KWindowUpdate flag_zero (wu_id w)) ;+ put (be_enc 4 (wu_inc w)).
(** priority.rs 117-121, 72-79 *)
Definition dep_write (d : stream_dep) : wr := put_as 5 (fst (stream_write (dp_id d)) ++ [dp_weight d]).
Definition priority_write (p : priority) : wr := fh_write (fh_new KPriority flag_zero (pr_id p)) ;+ dep_write (pr_dep p).
(** headers.rs 622-648: one frame of a header block (BinaryMut::serialize); the loop over the rest, with END_HEADERS and
    the flags on the last *)
Definition block_write_one (k : kind) (flags id : N) (c : bytes) : wr := fh_write (mkFH (blen c) k flags id) ;+ put_as (blen c) c.
Fixpoint cont_write (flags id : N) (cs : list bytes) : wr :=
  match cs with
  | [] => wnone
  | [c] => block_write_one KContinuation (set_end_headers flags) id c
  | c :: cs' => block_write_one KContinuation flag_zero id c ;+ cont_write flags id cs'
  end.
Definition block_write_frames (flags id : N) (cs : list bytes) : wr :=
  match cs with
  | [] => wnone
  | [c] => block_write_one KHeaders (set_end_headers flags) id c
  | c :: cs' => block_write_one KHeaders flag_zero id c ;+ cont_write flags id cs'
  end.
(** headers.rs 603-649 *)
Definition block_write (max : N) (t : hindex) (flags id : N) (fields : headers) : res (hindex * wr) :=
  ' (t', cs) <- block_chunks max t fields [] ;; Ok (t', block_write_frames flags id cs).
(** headers.rs 461-497 *)
Definition push_write (max : N) (t : hindex) (p : pushf) : res (hindex * wr) :=
  let h0 := parts_encode_header (pp_parts p) (pp_fields p) in
  s1 <- push_spec (t, h0, []) ":method" ;;
  s2 <- push_spec s1 ":authority" ;;
  s3 <- push_spec s2 ":scheme" ;;
  ' (t4, h4, b) <- push_spec s3 ":path" ;;
  ' (t5, r) <- block_write max t4 (pp_flags p) (pp_promised p) h4 ;;
  Ok (t5, fh_write (mkFH (blen b + 4) KPushPromise (set_end_headers (pp_flags p)) (pp_id p)) ;+
          stream_write (pp_promised p) ;+ put_as (blen b) b ;+ r).
(** frame/frame.rs 136-152 encode (the name it logs is left out) *)
Definition frame_write (max : N) (t : hindex) (f : frame) : res (hindex * wr) :=
  match f with
  | FData d => Ok (t, snd (data_write max d))
  | FHeaders h => block_write max t (hf_flags h) (hf_id h) (hf_fields h)
  | FPriority p => Ok (t, priority_write p)
  | FPushPromise p => push_write max t p
  | FSettings s => Ok (t, settings_write s)
  | FPing p => Ok (t, ping_write p)
  | FGoAway g => Ok (t, goaway_write g)
  | FWindowUpdate w => Ok (t, winupd_write w)
  | FReset r => Ok (t, reset_write r)
  end.
(** frame/frame.rs 205-214 Serialize for Frame, 190-193 encoded_len *)
Definition frame_serialize (f : frame) : wr := ([], Ok 0).
Definition frame_encoded_len (f : frame) : N := 0.
(** frame/frame.rs 64-76 display_name *)
Definition show_frame (n : string) (id : N) : bytes := str n ++ [40] ++ dec_print id ++ [41].
Definition frame_display_name (f : frame) : bytes :=
  match f with
  | FData d => show_frame "Data" (da_id d)
  | FHeaders h => show_frame "Headers" (hf_id h)
  | FPriority p => show_frame "Priority" (pr_id p)
  | FPushPromise p => show_frame "PushPromise" (pp_id p)
  | FSettings _ => show_frame "Settings" 0
  | FPing _ => show_frame "Ping" 0
  | FGoAway _ => show_frame "GoAway" 0
  | FWindowUpdate w => show_frame "WindowUpdate" (wu_id w)
  | FReset r => show_frame "Reset" (rs_id r)
  end.
(** frame/frame.rs 284-321 PriorityFrame: order and equality by the weight *)
Record pframe := mkPF { pf_frame : frame; pf_weight : N }.
Definition pf_cmp (a b : pframe) : comparison := pf_weight a ?= pf_weight b.
Definition pf_eq (a b : pframe) : bool := pf_weight a =? pf_weight b.

(** ** WebSocket *)
(** ws/dataframe.rs 153-190: the octets are collected in a vector first; the result is 0 *)
Definition ws_write (d : dfable) (key : option mkey) : wr :=
  match write_to d key with
  | Ok b => (b, Ok 0)
  | Err e => fail e
  | Panic => ([], Panic)
  | Diverge => ([], Diverge)
  end.
