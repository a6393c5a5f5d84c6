(** C96: message objects; and the builders' other ways in and out (C70, C77). *)
From Coq Require Import Ascii String NArith ZArith Bool List.
From Verif Require Import Base P_Base M_Std M_Helper M_Header M_Url M_Http1 M_Ext M_Write M_Build M_Object
  S_Http1 S_Http1Api S_Map S_Url S_Write S_Build S_Ext S_Object P_Ext P_Write P_Build P_Object.
Import ListNotations.
Local Open Scope N_scope.

(** ** C96: after any calls each part of a message is what the calls on that part have made of it, and nothing else has
    changed it. *)
Theorem C96_request : forall (V B : Type) (cs : list (req_call V B)) (r : reqo V B), let r' := req_calls r cs in
  q_method (ro_head r') = changed on_method cs (q_method (ro_head r)) /\
  q_version (ro_head r') = changed on_version cs (q_version (ro_head r)) /\
  q_url (ro_head r') = changed on_url cs (q_url (ro_head r)) /\
  q_header (ro_head r') = changed on_headers cs (q_header (ro_head r)) /\
  q_partial (ro_head r') = q_partial (ro_head r) /\
  ro_ext r' = changed on_ext cs (ro_ext r) /\
  ro_body r' = changed on_body cs (ro_body r).
Proof. intros V B cs r. apply req_calls_parts. Qed.
Print Assumptions C96_request.
Theorem C96_response : forall (V B : Type) (cs : list (resp_call V B)) (r : respo V B), let r' := resp_calls r cs in
  p_status (po_head r') = changed pon_status cs (p_status (po_head r)) /\
  p_version (po_head r') = changed pon_version cs (p_version (po_head r)) /\
  p_header (po_head r') = changed pon_headers cs (p_header (po_head r)) /\
  p_partial (po_head r') = p_partial (po_head r) /\
  po_ext r' = changed pon_ext cs (po_ext r) /\
  po_body r' = changed pon_body cs (po_body r).
Proof. intros V B cs r. apply resp_calls_parts. Qed.
Print Assumptions C96_response.
(** What is then sent has these parts. *)
Theorem C96_request_sent : forall (V : Type) (cs : list (req_call V bytes)) (r : reqo V bytes),
  let m := changed on_method cs (q_method (ro_head r)) in
  let v := changed on_version cs (q_version (ro_head r)) in
  let u := changed on_url cs (q_url (ro_head r)) in
  let h := changed on_headers cs (q_header (ro_head r)) in
  m <> MNone -> v <> VNone ->
  req_http1_data (ro_head (req_calls r cs)) (ro_body (req_calls r cs)) =
    Ok (request_text (method_str m) (u_path u) (version_str v) h ++ changed on_body cs (ro_body r)).
Proof.
  intros V cs r m v u h. destruct (req_calls_parts cs r) as (E1 & E2 & E3 & E4 & _ & _ & E7).
  unfold m, v, u, h. rewrite <- E1, <- E2, <- E3, <- E4, <- E7. apply head_sent.
Qed.
Print Assumptions C96_request_sent.

(** Taking a message apart and putting it together. *)
Theorem C96_request_parts : forall (V B C : Type) (r : reqo V B) (c : C) (f : B -> C),
  req_into r c = (mkReqo (ro_head r) (ro_ext r) c, ro_body r) /\
  ro_head (req_into_type f r) = ro_head r /\ ro_ext (req_into_type f r) = ro_ext r /\ ro_body (req_into_type f r) = f (ro_body r) /\
  req_parts (req_new_by_parts (req_parts r)) = req_parts r /\
  same_head (ro_head (req_new_by_parts (req_parts r))) (ro_head r).
Proof. intros V B C [[m v u h p] e b] c f. repeat split. Qed.
Print Assumptions C96_request_parts.
Theorem C96_response_parts : forall (V B C D : Type) (r : respo V B) (f : B -> C) (g : C -> D) (c : C),
  snd (resp_into_parts r) = resp_into_body r /\ resp_into_body r = po_body r /\
  (resp_from_parts (fst (resp_into_parts r)) (snd (resp_into_parts r)) = r <-> resp_is_partial r = false) /\
  (forall p b, resp_into_parts (@resp_from_parts V B p b) = (p, b)) /\
  resp_map (fun b : B => b) r = r /\ resp_map g (resp_map f r) = resp_map (fun b => g (f b)) r /\
  resp_into_type f r = resp_map f r /\ resp_into r c = (resp_map (fun _ => c) r, po_body r).
Proof.
  intros V B C D r f g c. split; [reflexivity|]. split; [reflexivity|]. split.
  - destruct r as [[s v h p] e b]. cbn. split; intros H; [congruence|]. unfold resp_is_partial in H. cbn in H. subst p. reflexivity.
  - split; [intros [[[s h] v] e] b; reflexivity|]. destruct r as [[s v h p] e b]. repeat split.
Qed.
Print Assumptions C96_response_parts.
Theorem C96_into_binary : forall (V : Type) (r : respo V body),
  po_head (resp_into_binary r) = po_head r /\ po_ext (resp_into_binary r) = po_ext r /\
  snd (resp_data (po_head (resp_into_binary r)) (po_body (resp_into_binary r))) = snd (resp_data (po_head r) (po_body r)).
Proof.
  intros V [p e b]. split; [reflexivity|]. split; [reflexivity|]. unfold resp_into_binary. cbn [po_head po_body].
  rewrite !resp_data_octets. cbn [snd]. rewrite into_binary_same. reflexivity.
Qed.
Print Assumptions C96_into_binary.
(** Parts do not remember whether the head was complete: a response put together again, and a request made from the
    parts of an incomplete one, claim to be complete. *)
Theorem C96_parts_partial_refuted : exists (r : respo N unit) (q : reqo N unit),
  resp_is_partial r = true /\ resp_is_partial (resp_from_parts (fst (resp_into_parts r)) (snd (resp_into_parts r))) = false /\
  req_is_complete q = false /\ req_is_complete (req_new_by_parts (req_parts q)) = true.
Proof.
  exists (mkRespo (fst (resp_parse resp_default (str "HTTP/1.1 2"))) ext_new tt).
  exists (mkReqo (fst (req_parse req_default (str "GET / HT"))) ext_new tt). vm_compute. auto.
Qed.
Print Assumptions C96_parts_partial_refuted.
(** New messages: a request without method, a response with status 200; both HTTP/1.1, complete, without fields and
    extensions. *)
Theorem C96_new : forall (V B : Type) (b : B),
  let q := @reqo_new V in let p := @respo_new V B b in
  q_method (ro_head q) = MNone /\ q_version (ro_head q) = V11 /\ q_header (ro_head q) = [] /\ req_is_partial q = false /\
  p_status (po_head p) = 200 /\ p_version (po_head p) = V11 /\ p_header (po_head p) = [] /\ resp_is_partial p = false /\
  po_body p = b /\ (forall T, ext_get (ro_ext q) T = None) /\ (forall T, ext_get (po_ext p) T = None).
Proof. intros V B b. repeat split. Qed.
Print Assumptions C96_new.
(** [is_complete] is the opposite of [is_partial], [is_http2] tells the version. *)
Theorem C96_predicates : forall (V B : Type) (r : reqo V B),
  req_is_complete r = negb (req_is_partial r) /\ (req_is_http2 r = true <-> q_version (ro_head r) = V2).
Proof.
  intros V B r. split; [reflexivity|]. unfold req_is_http2.
  destruct (q_version (ro_head r)); split; intros H; try discriminate H; reflexivity.
Qed.
Print Assumptions C96_predicates.
(** [==] on methods and schemes is equality. *)
Theorem C96_equality : (forall a b, method_eqb a b = true <-> a = b) /\ (forall a b, scheme_eqb a b = true <-> a = b).
Proof. exact (conj method_eqb_ok scheme_eqb_ok). Qed.
Print Assumptions C96_equality.

Definition sample_calls : list (req_call N bytes) :=
  [QMethod MPut; QPath (str "/x"); QUrl (mkUrl ScHttp (str "/y") None None (Some (str "h")) (Some 8080) None);
   QScheme ScWs; QHeadersMut (fun h => hm_insert h (str "A") (str "1")); QMethod MPost; QBodyMut (fun b => b ++ str "!");
   QExtMut (fun e => fst (ext_insert e 3 7)); QUrlMut (fun u => url_set_path u (str "/z")); QReplaceClone (str "new"); QBodyMut (fun b => b ++ str "?")].
Example C96_nonvacuous : let r := req_calls (mkReqo req_default ext_new (str "old")) sample_calls in
  req_http1_data (ro_head r) (ro_body r) = Ok (str "POST /z HTTP/1.1" ++ CRLF ++ str "Host: h:8080" ++ CRLF ++ str "A: 1" ++ CRLF ++ CRLF ++ str "new?") /\
  u_scheme (q_url (ro_head r)) = ScWs /\ ext_get (ro_ext r) 3 = Some 7.
Proof. split; [vm_compute; reflexivity|]. split; reflexivity. Qed.

(** ** C70: a builder that starts from a request takes over method, version and URL (GET and HTTP/1.1 stand for none)
    and no header field; the calls then do what they do on a new builder. *)
Theorem C70_from_req_partial : forall r ops q, req_builder_from (req_builder_of r) ops = Ok q ->
  last_set given_method ops (match q_method r with MNone => MGet | m => m end) (q_method q) /\
  last_set given_version ops (match q_version r with VNone => V11 | v => v end) (q_version q) /\
  last_set given_url ops (q_url r) (q_url q) /\
  q_header q = fold_left (fun acc nv => hm_insert acc (fst nv) (snd nv)) (flat_map given_fields ops) [].
Proof.
  intros r ops q E. apply req_builder_from_parts in E.
  destruct (builder_of_parts r) as (E1 & E2 & E3 & E4 & _). rewrite E1, E2, E3, E4 in E. exact E.
Qed.
Print Assumptions C70_from_req_partial.
(** So the fields of the request, Host included, are not in the new one. *)
Theorem C70_from_req_refuted : exists r, req_parse req_default (str "GET /x HTTP/1.1" ++ CRLF ++ str "Host: h" ++ CRLF ++ CRLF) = (r, Ok 28) /\
  exists q, req_builder_from (req_builder_of r) [] = Ok q /\ q_url q = q_url r /\
  hm_get (q_header r) (str "Host") = Some (str "h") /\ hm_get (q_header (req_finish q)) (str "Host") = None.
Proof. eexists. split; [vm_compute; reflexivity|]. eexists. split; [vm_compute; reflexivity|]. repeat split; vm_compute; reflexivity. Qed.
Print Assumptions C70_from_req_refuted.
(** What the builder shows is what the built request has, body length included. *)
Theorem C70_shown : forall (V B : Type) ops (b : B) r, rb_body (req_builder ops) b = Ok r ->
  rb_method_ref (req_builder ops) = Some (q_method (ro_head r)) /\
  rb_url_ref (req_builder ops) = Some (q_url (ro_head r)) /\
  rb_version_ref (req_builder ops) = Some (q_version (ro_head r)) /\
  rb_body_len (req_builder ops) = req_body_len r /\ ro_body r = b /\ ro_ext r = @ext_new V.
Proof.
  intros V B ops b r E. unfold rb_body in E. destruct (req_builder ops) as [q|e| |]; try discriminate E.
  cbn [bind] in E. injection E as <-. unfold req_body_len. cbn [ro_head rb_body_len]. rewrite req_finish_body_len. repeat split.
Qed.
Print Assumptions C70_shown.
Theorem C70_body_len_failed : forall ops e, req_builder ops = Err e -> rb_body_len (req_builder ops) = Ok 0%Z.
Proof. intros ops e E. rewrite E. reflexivity. Qed.
Print Assumptions C70_body_len_failed.
Example C70_shown_nonvacuous : exists r, @rb_body N bytes (req_builder [RbHeader (str "Content-Length") (str "3"); RbMethod (str "POST")]) (str "abc") = Ok r /\
  rb_body_len (req_builder [RbHeader (str "Content-Length") (str "3"); RbMethod (str "POST")]) = Ok 3%Z /\
  q_header (ro_head r) = [(str "Content-Length", str "3"); (str "User-Agent", str "wenmeng")].
Proof. eexists. split; [vm_compute; reflexivity|]. split; vm_compute; reflexivity. Qed.

(** ** C77: the response builder with extensions: they neither influence the head nor are influenced by it, and the
    last one of each type counts. *)
Theorem C77_extension_head : forall (V : Type) (cs : list (pb_call V)),
  (r <- pb_run cs ;; Ok (fst r)) = fold_left (fun a o => p <- a ;; o p) (map pb_head_step cs) (Ok resp_default).
Proof. intros V cs. unfold pb_run. rewrite pb_run_head. reflexivity. Qed.
Print Assumptions C77_extension_head.
Theorem C77_extension : forall (V B : Type) (cs : list (pb_call V)) (b : B) r, pb_body (pb_run cs) b = Ok r ->
  pb_extensions_ref (pb_run cs) = Some (po_ext r) /\ po_body r = b /\
  forall T, last_set (gives_extension T) cs None (ext_get (po_ext r) T).
Proof.
  intros V B cs b r E. unfold pb_body in E. destruct (pb_run cs) as [[p e]|x| |] eqn:R; try discriminate E.
  cbn [bind] in E. injection E as <-. split; [reflexivity|]. split; [reflexivity|]. intros T. cbn [po_ext].
  destruct (pb_run_ext cs resp_default ext_new (fun _ => None) p e bt_new R) as (m & Hb & L).
  rewrite (get_spec e m (built_inv e m Hb) T). apply L.
Qed.
Print Assumptions C77_extension.
Theorem C77_shown_len : forall p, pb_body_len (Ok p) = hm_body_len (p_header (resp_finish p)).
Proof. intros p. rewrite resp_finish_body_len. reflexivity. Qed.
Print Assumptions C77_shown_len.
Theorem C77_body_len_failed : forall e, pb_body_len (Err e) = Ok 0%Z.
Proof. reflexivity. Qed.
Print Assumptions C77_body_len_failed.
Example C77_extension_nonvacuous : exists r, @pb_body N bytes (pb_run [PbExtension 4 1; PbCall (PbStatus 404); PbExtension 4 2; PbExtension 5 3; PbHeadersMut (fun h => hm_insert h (str "a") (str "b"))]) [] = Ok r /\
  p_status (po_head r) = 404 /\ ext_get (po_ext r) 4 = Some 2 /\ ext_get (po_ext r) 5 = Some 3 /\ ext_get (po_ext r) 6 = None /\
  hm_get (p_header (po_head r)) (str "a") = Some (str "b").
Proof. eexists. split; [vm_compute; reflexivity|]. repeat split; vm_compute; reflexivity. Qed.
