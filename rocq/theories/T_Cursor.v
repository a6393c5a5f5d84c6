(** C105: what a reader leaves in the caller's buffer, and whether the call can be repeated. *)
From Coq Require Import Ascii String NArith ZArith Lia Bool List.
From Verif Require Import Base P_Base M_Std M_Helper M_Header M_Url M_Http1 S_Http1 S_Http1Api S_Url M_Ws S_Ws S_WsApi M_Huffman M_Hpack S_Hpack S_HpackAll S_HpackApi M_Frame S_Frame S_WsAll S_Reject
  M_Cursor S_Cursor P_HpackTable P_WsAll P_Cursor P_Cursor2 P_Cursor3.
Import ListNotations.
Local Open Scope N_scope.

(** ** HTTP/1 *)
(** Whatever the outcome, the buffer afterwards is the end of the buffer before; a head that is read takes
    exactly the octets that the call counts. *)
Theorem C105_request_taken q l : tail_of l (fst (c_request q l)) /\
  snd (c_request q l) = req_parse q l /\
  forall z q' n, c_request q l = (z, (q', Ok n)) -> exists a, l = a ++ z /\ blen a = n.
Proof. exact (request_taken q l). Qed.
Print Assumptions C105_request_taken.
Theorem C105_response_taken p l : tail_of l (fst (c_response p l)) /\
  snd (c_response p l) = resp_parse p l /\
  forall z p' n, c_response p l = (z, (p', Ok n)) -> exists a, l = a ++ z /\ blen a = n.
Proof. exact (response_taken p l). Qed.
Print Assumptions C105_response_taken.
(** Every failed call: the request object, the error and the octets that are left, exactly. *)
Theorem C105_request_left q l q' e z : bytes_ok l -> (c_request q l = (z, (q', Err e)) <-> request_left q l q' e z).
Proof. exact (request_left_iff q l q' e z). Qed.
Print Assumptions C105_request_left.
Theorem C105_response_left p l p' e z : bytes_ok l -> (c_response p l = (z, (p', Err e)) <-> response_left p l p' e z).
Proof. exact (response_left_iff p l p' e z). Qed.
Print Assumptions C105_response_left.
(** A failed call leaves the buffer alone exactly when the first word is not finished, or missing. *)
Theorem C105_request_unmoved q l e : bytes_ok l ->
  ((exists q', c_request q l = (l, (q', Err e))) <->
   (e = unfinished /\ Forall vchar l) \/ (e = EHttp Token /\ exists b r, l = b :: r /\ ~ vchar b /\ b <> CR /\ b <> LF)).
Proof. exact (request_unmoved_iff q l e). Qed.
Print Assumptions C105_request_unmoved.
Theorem C105_response_unmoved p l e : bytes_ok l ->
  ((exists p', c_response p l = (l, (p', Err e))) <->
   (e = unfinished /\ Forall vchar l) \/ (e = EHttp Token /\ exists b r, l = b :: r /\ ~ vchar b /\ b <> CR /\ b <> LF)).
Proof. exact (response_unmoved_iff p l e). Qed.
Print Assumptions C105_response_unmoved.
(** Repeating the call on what is left and what comes then: as good as one call while only blank lines and a part of the
    first word have come. *)
Theorem C105_request_repeat_partial q bl w s : blanks bl -> Forall vchar w ->
  exists q', c_request q (bl ++ w) = (w, (q', Err unfinished)) /\ outcome (c_request q' (w ++ s)) = outcome (c_request q (bl ++ w ++ s)).
Proof. exact (request_repeat q bl w s). Qed.
Print Assumptions C105_request_repeat_partial.
Theorem C105_response_repeat_partial p bl w s : blanks bl -> Forall vchar w ->
  exists p', c_response p (bl ++ w) = (w, (p', Err unfinished)) /\ outcome (c_response p' (w ++ s)) = outcome (c_response p (bl ++ w ++ s)).
Proof. exact (response_repeat p bl w s). Qed.
Print Assumptions C105_response_repeat_partial.
Theorem C105_request_repeat_cr_partial q bl s : blanks bl ->
  exists q', c_request q (bl ++ [CR]) = ([], (q', Err unfinished)) /\ outcome (c_request q' (LF :: s)) = outcome (c_request q (bl ++ CR :: LF :: s)).
Proof. exact (request_repeat_cr q bl s). Qed.
Print Assumptions C105_request_repeat_cr_partial.
Theorem C105_response_repeat_cr_partial p bl s : blanks bl ->
  exists p', c_response p (bl ++ [CR]) = ([], (p', Err unfinished)) /\ outcome (c_response p' (LF :: s)) = outcome (c_response p (bl ++ CR :: LF :: s)).
Proof. exact (response_repeat_cr p bl s). Qed.
Print Assumptions C105_response_repeat_cr_partial.
(** Later it is not.  When a request has come up to the value of a header, nothing at all is left. *)
Theorem C105_request_forgets q bl m i t j v eo fs hs n a b :
  blanks bl -> In m known_methods -> word t -> In v known_versions -> eol eo -> header_lines fs hs -> name_ok n ->
  bytes_ok (bl ++ method_str m ++ spaces (S i) ++ t ++ spaces (S j) ++ version_str v ++ eo ++ fs ++ n ++ spaces a ++ COLON :: spaces b) ->
  c_request q (bl ++ method_str m ++ spaces (S i) ++ t ++ spaces (S j) ++ version_str v ++ eo ++ fs ++ n ++ spaces a ++ COLON :: spaces b) =
    ([], (mkReq m v (q_url q) (add_fields [] hs) true, Err unfinished)).
Proof. exact (request_forgets q bl m i t j v eo fs hs n a b). Qed.
Print Assumptions C105_request_forgets.
(** So the header value that comes next is read as a request: one request on the wire, another one in the program. *)
Theorem C105_request_repeat_refuted :
  exists p s q1 q2 q3 z,
    c_request req_default p = (z, (q1, Err unfinished)) /\
    outcome (c_request req_default (p ++ s)) = ([], q2, Ok tt) /\ u_path (q_url q2) = str "/safe" /\ q_method q2 = MGet /\
    outcome (c_request q1 (z ++ s)) = ([], q3, Ok tt) /\ u_path (q_url q3) = str "/admin" /\ q_method q3 = MDelete.
Proof.
  exists (str "GET /safe HTTP/1.1" ++ CRLF ++ str "Note: "), (str "DELETE /admin HTTP/1.1" ++ CRLF ++ str "Host: b" ++ CRLF ++ CRLF).
  eexists _, _, _, _. split; [vm_compute; reflexivity|]. split; [vm_compute; reflexivity|]. split; [vm_compute; reflexivity|]. split; [vm_compute; reflexivity|].
  split; [vm_compute; reflexivity|]. split; vm_compute; reflexivity.
Qed.
Print Assumptions C105_request_repeat_refuted.
Theorem C105_response_repeat_refuted :
  exists p s p1 p2 p3 z,
    c_response resp_default p = (z, (p1, Err unfinished)) /\
    outcome (c_response resp_default (p ++ s)) = ([], p2, Ok tt) /\ p_status p2 = 404 /\
    outcome (c_response p1 (z ++ s)) = ([], p3, Ok tt) /\ p_status p3 = 200.
Proof.
  exists (str "HTTP/1.1 404 Not Found" ++ CRLF ++ str "Note: "), (str "HTTP/1.1 200 OK" ++ CRLF ++ CRLF).
  eexists _, _, _, _. split; [vm_compute; reflexivity|]. split; [vm_compute; reflexivity|]. split; [vm_compute; reflexivity|].
  split; vm_compute; reflexivity.
Qed.
Print Assumptions C105_response_repeat_refuted.

(** ** The scheme of a URL *)
Theorem C105_scheme_left l e r : bytes_ok l -> (c_scheme l = (r, Err e) <-> scheme_left l e r).
Proof. exact (scheme_left_iff l e r). Qed.
Print Assumptions C105_scheme_left.

(** ** WebSocket *)
(** The reader of the buffer and the reader of M_Ws.v agree; every failed call leaves exactly this. *)
Theorem C105_ws_same limit l :
  match read_frame limit l with
  | Ok (d, r) => c_frame limit l = (r, Ok d)
  | Err e => snd (c_frame limit l) = Err e
  | Panic => snd (c_frame limit l) = Panic
  | Diverge => snd (c_frame limit l) = Diverge
  end.
Proof. exact (frame_agree limit l). Qed.
Print Assumptions C105_ws_same.
Theorem C105_ws_left limit l e r : bytes_ok l -> (c_frame limit l = (r, Err e) <-> frame_left limit l e r).
Proof. exact (frame_left_iff limit l e r). Qed.
Print Assumptions C105_ws_left.
(** A failed call that was given anything has taken some of it. *)
Theorem C105_ws_taken limit l e r : bytes_ok l -> l <> [] -> c_frame limit l = (r, Err e) -> tail_of l r /\ (length r < length l)%nat.
Proof. exact (frame_left_taken limit l e r). Qed.
Print Assumptions C105_ws_taken.
(** An unmasked frame that has not come as a whole cannot be read by calling again: only if nothing had come yet. *)
Theorem C105_ws_repeat_partial limit fin r1 r2 r3 o data p s r e x :
  bytes_ok (p ++ s ++ x) -> spec_frame fin r1 r2 r3 (opcode_u8 o) None data = p ++ s -> control_ok fin (opcode_u8 o) (blen data) -> blen data < 2 ^ 64 ->
  (forall lim, limit = Some lim -> blen data <= lim) -> c_frame limit p = (r, Err e) ->
  (c_frame limit (r ++ s ++ x) = (x, Ok {| d_fin := fin; d_rsv := (r1, r2, r3); d_op := o; d_data := data |}) <-> p = []).
Proof. exact (frame_repeat limit fin r1 r2 r3 o data p s r e x). Qed.
Print Assumptions C105_ws_repeat_partial.
(** The data is then read as a frame: a text of four letters, cut after its header, is a ping in the second call. *)
Theorem C105_ws_repeat_refuted :
  exists p s r, c_frame None (p ++ s) = ([], Ok {| d_fin := true; d_rsv := (false, false, false); d_op := OText; d_data := [137; 2; 104; 105] |}) /\
    c_frame None p = (r, Err more_data) /\
    c_frame None (r ++ s) = ([], Ok {| d_fin := true; d_rsv := (false, false, false); d_op := OPing; d_data := [104; 105] |}).
Proof.
  exists [129; 4], [137; 2; 104; 105], []. repeat split; vm_compute; reflexivity.
Qed.
Print Assumptions C105_ws_repeat_refuted.

(** ** HTTP/2 *)
Theorem C105_frame_header_left l e r : bytes_ok l -> (c_frame_header l = (r, Err e) <-> prefix_left l e r).
Proof. exact (prefix_left_iff l e r). Qed.
Print Assumptions C105_frame_header_left.
(** Header blocks: the table, the octets and the fields handed out after every failed call. *)
Theorem C105_block_left t l fs e r t' : idx_inv t -> bytes_ok l ->
  (c_decode t l = (t', r, fs, Err e) <->
   exists dyn', block_left (hi_max t) (hi_table t) l fs e dyn' r /\ t' = mkIdx dyn' (total_size dyn') (hi_max t)).
Proof. exact (block_left_iff t l fs e r t'). Qed.
Print Assumptions C105_block_left.
Theorem C105_block_same t l : idx_inv t -> let '(t', r, fs, x) := c_decode t l in
  decode_headers t l = (t', bind x (fun _ => Ok fs)) /\ tail_of l r.
Proof. exact (block_same t l). Qed.
Print Assumptions C105_block_same.
(** Here the call can always be repeated: with the octets that come later, the second call goes on where the first stopped,
    and both together do what one call does. *)
Theorem C105_block_repeat t l s t' r fs e : idx_inv t -> c_decode t l = (t', r, fs, Err e) ->
  c_decode t (l ++ s) = let '(t2, r2, fs2, x) := c_decode t' (r ++ s) in (t2, r2, fs ++ fs2, x).
Proof. exact (block_repeat t l s t' r fs e). Qed.
Print Assumptions C105_block_repeat.

(** ** The hypotheses are met *)
Example C105_unmoved_meets : c_request req_default (str "GE") = (str "GE", (req_set_partial req_default true, Err unfinished)).
Proof. reflexivity. Qed.
Example C105_target_meets : exists q, c_request req_default (str "GET /index") = (str "/index", (q, Err unfinished)).
Proof. eexists. vm_compute. reflexivity. Qed.
Example C105_header_meets : exists q, c_request req_default (str "GET / HTTP/1.1" ++ CRLF ++ str "Host example") = (str "xample", (q, Err (EHttp HeaderNameErr))).
Proof. eexists. vm_compute. reflexivity. Qed.
Example C105_scheme_meets : c_scheme (repeat 97 65 ++ [58]) = ([58], Err (EHttp SchemeTooLong)) /\ c_scheme (str "htt") = (str "htt", Err unfinished).
Proof. split; reflexivity. Qed.
Example C105_ws_meets : c_frame None [129; 126; 1] = ([1], Err more_data) /\ c_frame None [129; 133; 1; 2; 3] = ([], Err more_data) /\ c_frame (Some 3) [129; 5; 104] = ([104], Err (EIo InvalidData)).
Proof. repeat split; reflexivity. Qed.
(** A masked frame can come out right by chance: the key and the data happen to be a frame of their own. *)
Example C105_ws_chance : exists r d, c_frame None [129; 128; 7; 7] = (r, Err more_data) /\ c_frame None ([129; 128; 7; 7] ++ [129; 0]) = ([], Ok d) /\ c_frame None (r ++ [129; 0]) = ([], Ok d).
Proof. eexists _, _. repeat split; vm_compute; reflexivity. Qed.
Example C105_frame_header_meets : c_frame_header [0; 0; 1; 0; 2; 0; 0; 0; 1; 9] = ([0; 0; 0; 1; 9], Err (EHttp2 (BadFlag 2))).
Proof. reflexivity. Qed.
Example C105_block_meets : exists t, c_decode (mkIdx [] 0 4096) [130; 0; 1; 120] = (t, [0; 1; 120], [(str ":method", str "GET")], Err (EHttp2 (DecoderErr (IntegerDecodingError NotEnoughOctetsI)))).
Proof. eexists. vm_compute. reflexivity. Qed.
