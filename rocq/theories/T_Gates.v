(** C132: messages through any row of gateways, over HTTP/1 and HTTP/2. *)
From Coq Require Import Ascii String NArith ZArith Lia Bool List ZifyBool ZifyNat ZifyN.
From Verif Require Import Base P_Base M_Std M_Helper M_Header M_Url M_Http1 S_Http1Api S_Map P_Map P_Msg S_Stream S_Via M_Hpack S_Hpack M_Frame M_H2 S_Rfc9112 S_RfcMeans S_RfcAsk S_RfcShow S_RfcVia P_RfcMeans P_Build4 S_Gates P_Gates S_Http1.
Import ListNotations.
Local Open Scope N_scope.

(** Whatever row of gateways there is, in any order: the request arrives, with its method, URL and content; and with its header, or, if one
    of the connections is HTTP/2, with the same fields with the Host field first and the other names in lower case. *)
Theorem C132_requests : forall gs q b d, request_ready (q, b) d -> Forall (limit_fits (total_size (request_fields q))) gs ->
  pass_all pass_request gs (q, b) =
    Ok (mkReq (q_method q) (q_version q) (q_url q) (if existsb is_http2 gs then (str "Host", d) :: others (map lower_field (q_header q)) else q_header q) (q_partial q), b).
Proof.
  intros gs q b d R F. rewrite (pass_row gs (q, b) d R F). unfold arrived, passed_on, host_first. cbn [fst snd]. destruct R as ((_ & _ & V & P & _) & _). cbn [fst] in V, P.
  destruct (existsb is_http2 gs); [rewrite V, P; reflexivity|]. destruct q. reflexivity.
Qed.
Print Assumptions C132_requests.
(** The same for responses. *)
Theorem C132_responses : forall gs p b, response_ready (p, b) -> Forall (limit_fits (total_size (response_fields p))) gs ->
  pass_all pass_response gs (p, b) =
    Ok (mkResp (p_status p) (p_version p) (if existsb is_http2 gs then map lower_field (p_header p) else p_header p) (p_partial p), b).
Proof.
  intros gs p b R F. rewrite (pass_answers gs (p, b) R F). unfold answered. cbn [fst snd]. destruct R as (V & P & _). cbn [fst] in V, P.
  destruct (existsb is_http2 gs); [rewrite V, P; reflexivity|]. destruct p. reflexivity.
Qed.
Print Assumptions C132_responses.

(** The scheme https is lost over HTTP/1, ... *)
Definition fh5 : fheader := mkFH 0 KHeaders 5 1.
Definition secret_request : request := mkReq MGet V11 (mkUrl ScHttps (str "/") None None (Some (str "a")) (Some 443) None) [(str "Host", str "a")] false.
Theorem C132_scheme_refuted : exists q, pass_all pass_request [OverHttp2 1000 fh5] (secret_request, []) = Ok (secret_request, []) /\
  pass_all pass_request [OverHttp2 1000 fh5; OverHttp1] (secret_request, []) = Ok (q, []) /\ u_scheme (q_url q) = ScHttp /\ u_port (q_url q) = Some 80.
Proof. eexists. split; [vm_compute; reflexivity|]. split; [vm_compute; reflexivity|]. split; reflexivity. Qed.
Print Assumptions C132_scheme_refuted.
(** and a field whose name only compares equal to content-length is the length over HTTP/1, but not any more behind HTTP/2: what was the content is then read as another request. *)
Definition alias_request : request := mkReq MPost V11 (mkUrl ScHttp (str "/") None None (Some (str "a")) (Some 80) None) [(str "Host", str "a"); (str "contentMlength", str "32")] false.
Definition inner_request : bytes := str "GET /admin HTTP/1.1" ++ CRLF ++ str "Host: a" ++ CRLF ++ CRLF.
Theorem C132_alias_refuted : pass_all pass_request [OverHttp1] (alias_request, inner_request) = Ok (alias_request, inner_request) /\
  exists q w q1 q2, pass_all pass_request [OverHttp1; OverHttp2 1000 fh5] (alias_request, inner_request) = Ok (q, inner_request) /\
    req_http1_data q inner_request = Ok w /\ read_messages parse_request q_header 2 w = Ok ([(q1, []); (q2, [])], []) /\ u_path (q_url q1) = str "/" /\ u_path (q_url q2) = str "/admin".
Proof.
  split; [vm_compute; reflexivity|]. eexists _, _, _, _. split; [vm_compute; reflexivity|]. split; [vm_compute; reflexivity|]. split; [vm_compute; reflexivity|]. split; reflexivity.
Qed.
Print Assumptions C132_alias_refuted.

(** Non-vacuity: a request and a response over five connections. *)
Definition gate_row : list gate := [OverHttp1; OverHttp2 500 fh5; OverHttp2 600 fh5; OverHttp1; OverHttp2 500 fh5].
Definition gate_request : request := mkReq MPost V11 (mkUrl ScHttp (str "/a/b") None None (Some (str "h.example")) (Some 80) None)
  [(str "Accept", str "*/*"); (str "hOst", str "h.example"); (str "Content-Length", str "2")] false.
Definition gate_response : response := mkResp 404 V11 [(str "Server", str "x"); (str "Content-Length", str "2")] false.
Lemma two_value a w c : vchar a -> vchar c -> Forall vchar w -> rfc_value (a :: w ++ [c]).
Proof.
  intros A C W. right. right. exists a, w, c. split; [reflexivity|]. split; [left; exact A|]. split; [left; exact C|].
  eapply Forall_impl; [|exact W]. intros x X. left. left. exact X.
Qed.
Lemma gate_fields : ready_fields (q_header gate_request) /\ ready_fields (p_header gate_response).
Proof.
  assert (V2 : rfc_value (str "2")) by (right; left; exists 50; split; [reflexivity|left; unfold vchar; lia]).
  assert (VX : rfc_value (str "x")) by (right; left; exists 120; split; [reflexivity|left; unfold vchar; lia]).
  assert (VA : rfc_value (str "*/*")) by (apply (two_value 42 [47] 42); unfold vchar; try lia; constructor; [lia|constructor]).
  assert (VH : rfc_value (str "h.example")).
  { apply (two_value 104 (str ".exampl") 101); unfold vchar; try lia. vm_compute (str _). repeat (apply Forall_cons; [lia|]). apply Forall_nil. }
  unfold ready_fields, gate_request, gate_response. cbn [q_header p_header]. split.
  - split; [apply fields_okb_ok; vm_compute; reflexivity|]. split; [repeat (apply Forall_cons; [cbn [snd]; assumption|]); apply Forall_nil|].
    split; [repeat split; repeat (apply Forall_cons; [reflexivity|]); try apply Forall_nil|]. split.
    + repeat (apply Forall_cons; [intros k [<-|[<-|[]]] E; vm_compute in E; first [discriminate E|reflexivity]|]). apply Forall_nil.
    + repeat (apply Forall_cons; [split; [vm_compute; intuition discriminate|vm_compute; discriminate]|]). apply Forall_nil.
  - split; [apply fields_okb_ok; vm_compute; reflexivity|]. split; [repeat (apply Forall_cons; [cbn [snd]; assumption|]); apply Forall_nil|].
    split; [repeat split; repeat (apply Forall_cons; [reflexivity|]); try apply Forall_nil|]. split.
    + repeat (apply Forall_cons; [intros k [<-|[<-|[]]] E; vm_compute in E; first [discriminate E|reflexivity]|]). apply Forall_nil.
    + repeat (apply Forall_cons; [split; [vm_compute; intuition discriminate|vm_compute; discriminate]|]). apply Forall_nil.
Qed.
Example C132_met : request_ready (gate_request, str "hi") (str "h.example") /\ Forall (limit_fits (total_size (request_fields gate_request))) gate_row /\
  response_ready (gate_response, str "no") /\ Forall (limit_fits (total_size (response_fields gate_response))) gate_row.
Proof.
  destruct gate_fields as [G1 G2].
  assert (H : Forall (fun b => unreserved b \/ sub_delim b) (str "h.example")).
  { vm_compute (str _). repeat (apply Forall_cons; [left; first [left; unfold alpha, upper, lower; lia|right; right; cbn; tauto]|]). apply Forall_nil. }
  assert (D : forall b, blen b = 2 -> decimal (str "2") (blen b)) by (intros b ->; split; [discriminate|]; split; [change (str "2") with [50]; apply Forall_cons; [unfold digit; lia|apply Forall_nil]|reflexivity]).
  split; [split; [|split; [exact G1|split]]|split; [|split; [split; [|split; [|split; [|split; [|split; [exact G2|split]]]]]|]]].
  - unfold ready_target, gate_request. cbn [fst q_method q_version q_partial q_url u_path q_header].
    split; [right; right; left; reflexivity|]. split; [discriminate|]. split; [reflexivity|]. split; [reflexivity|]. split; [reflexivity|]. split; [reflexivity|].
    split. { vm_compute (str "/a/b"). repeat (apply Forall_cons; [split; [first [right; reflexivity|left; left; left; unfold alpha, upper, lower; lia]|discriminate]|]). apply Forall_nil. }
    split; [discriminate|]. split; [split; [left; apply (reg_text _ H)|vm_compute; intuition discriminate]|]. split; [vm_compute; intuition discriminate|].
    split; [|right; left; reflexivity].
    repeat (apply Forall_cons; [unfold same_host; vm_compute; first [discriminate|reflexivity]|]). apply Forall_nil.
  - repeat (apply Forall_cons; [intros n I; cbn in I; repeat (destruct I as [<-|I]; [reflexivity|]); destruct I|]). apply Forall_nil.
  - apply (fr_length _ _ (str "2")); [reflexivity|reflexivity|apply D; reflexivity|reflexivity].
  - repeat (apply Forall_cons; [vm_compute; first [exact I|discriminate]|]). apply Forall_nil.
  - reflexivity.
  - reflexivity.
  - eexists. reflexivity.
  - cbn. lia.
  - repeat (apply Forall_cons; [reflexivity|]). apply Forall_nil.
  - apply (fr_length _ _ (str "2")); [reflexivity|reflexivity|apply D; reflexivity|reflexivity].
  - repeat (apply Forall_cons; [vm_compute; first [exact I|discriminate]|]). apply Forall_nil.
Qed.
