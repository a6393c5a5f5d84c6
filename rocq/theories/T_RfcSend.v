(** C117: the HTTP/1 messages that the crate writes, compared with RFC 9112. *)
From Coq Require Import Ascii String NArith ZArith Lia Bool List.
From Verif Require Import Base S_Utf8 P_Base M_Std M_Helper M_Header M_Url M_Http1 S_Hex S_Http1Api P_Msg S_Map P_Map S_Url M_Build S_Build S_Rfc9112 S_RfcBody S_RfcMessage S_RfcReply S_Rfc3986 S_RfcSend P_RfcSend S_Http1.
Import ListNotations.
Local Open Scope N_scope.

(** What http1_data writes is a conforming request that means the request object and carries the body given, exactly if the method is a
    token other than CONNECT, the version HTTP/1.0 or 1.1, the path made of path characters without escapes (or OPTIONS with "*"), no query,
    names tokens and values as in RFC 9110, one right Host field in HTTP/1.1, no Transfer-Encoding, and a Content-Length that is the length
    of the body (none for no body). *)
Theorem C117_request : forall q body w, req_http1_data q body = Ok w -> (request_said q body w <-> request_fine q body).
Proof. exact request_exact. Qed.
Print Assumptions C117_request.
(** What httpdata writes is a conforming response, to a request with the method k. *)
Theorem C117_response : forall k p body w, 100 <= p_status p <= 999 -> resp_httpdata p body = Ok w -> (response_said k p body w <-> response_fine k p body).
Proof. exact response_exact. Qed.
Print Assumptions C117_response.
(** Pieces written one after the other with encode_chunk_data, and an empty one at the end, are a chunked body with these pieces exactly if
    none of them is empty. *)
Theorem C117_chunks : forall ds, (exists c, chunked_ok c /\ chunked_text c = concat (map encode_chunk_data ds) ++ encode_chunk_data [] /\ chunked_data c = ds) <->
  Forall (fun d => d <> []) ds.
Proof. exact chunks_exact. Qed.
Print Assumptions C117_chunks.
(** A request built from a method and the text of a URL, or from a Url, and sent without a body. *)
Theorem C117_built : forall m t u d n, In m known_methods -> url_parse t = Ok u -> u_domain u = Some d -> u_port u = Some n ->
  exists q w, req_build [RbMethod (method_str m); RbUrl t] = Ok q /\ req_build [RbMethodVal m; RbUrlVal u] = Ok q /\ req_http1_data q [] = Ok w /\
    (request_said q [] w <-> host_fine d /\ path_fine (method_str m) u).
Proof.
  intros m t u d n M E D P. destruct (built_runs m t u d n M E D P) as [B1 B2]. destruct (built_exact m t u d n M E D P) as (w & W & K).
  exists (built m u d n), w. auto.
Qed.
Print Assumptions C117_built.

(** So these never are what they should be: CONNECT requests, ... *)
Theorem C117_connect_refuted : forall q body w, q_method q = MConnect -> req_http1_data q body = Ok w -> ~ request_said q body w.
Proof. intros q body w M W K. apply (C117_request _ _ _ W) in K as (_ & _ & (K & _) & _). rewrite M in K. apply K. reflexivity. Qed.
Print Assumptions C117_connect_refuted.
(** ... requests for a URL with a query, ... *)
Theorem C117_query_refuted : forall q body w, u_query (q_url q) <> None -> req_http1_data q body = Ok w -> ~ request_said q body w.
Proof. intros q body w M W K. apply (C117_request _ _ _ W) in K as (_ & _ & (_ & K & _) & _). contradiction. Qed.
Print Assumptions C117_query_refuted.
(** ... and with a path that needs escapes, ... *)
Theorem C117_path_refuted : forall q body w b, In b (u_path (q_url q)) -> b <= 32 \/ b = 37 \/ b = 63 \/ 127 <= b -> req_http1_data q body = Ok w -> ~ request_said q body w.
Proof.
  intros q body w b I R W K. apply (C117_request _ _ _ W) in K as (_ & _ & (_ & _ & K) & _). destruct K as [[_ K]|[_ K]].
  - rewrite Forall_forall in K. apply K in I. destruct I as [I| ->]; [|lia]. apply P_Rfc9112.pchar_vchar in I. unfold vchar in I. lia.
  - rewrite K in I. change (str "*") with [42] in I. destruct I as [<-|[]]. lia.
Qed.
Print Assumptions C117_path_refuted.
(** ... messages that say Transfer-Encoding: chunked: the body is not put into chunks, ... *)
Theorem C117_coded_refuted : forall q body w, te_of (q_header q) <> None -> req_http1_data q body = Ok w -> ~ request_said q body w.
Proof. intros q body w M W K. apply (C117_request _ _ _ W) in K as (_ & _ & _ & _ & (K & _) & _). contradiction. Qed.
Print Assumptions C117_coded_refuted.
Theorem C117_chunked_refuted : forall k p body w v, 100 <= p_status p <= 999 -> ~ bodiless k (p_status p) -> te_of (p_header p) = Some v -> finally_chunked v ->
  resp_httpdata p body = Ok w -> ~ response_said k p body w.
Proof. intros k p body w v R B T F W K. apply (C117_response k _ _ _ R W) in K as (_ & _ & _ & K). destruct (K B) as [K' _]. exact (K' v T F). Qed.
Print Assumptions C117_chunked_refuted.
(** ... and messages of HTTP/2 and HTTP/3 objects, which are written all the same. *)
Theorem C117_version_refuted : forall q body, In (q_version q) [V2; V3] -> q_method q <> MNone ->
  exists w, req_http1_data q body = Ok w /\ ~ request_said q body w.
Proof.
  intros q body V M. assert (W : exists w, req_http1_data q body = Ok w).
  { unfold req_http1_data, req_encode_header. destruct V as [<-|[<-|[]]]; destruct (q_method q); try contradiction; cbn [method_encode version_encode bind]; eauto. }
  destruct W as (w & W). exists w. split; [exact W|]. intros K. apply (C117_request _ _ _ W) in K as (_ & K & _).
  destruct V as [V|[V|[]]]; rewrite <- V in K; destruct K as [K|K]; discriminate K.
Qed.
Print Assumptions C117_version_refuted.
(** A body is written behind a response that cannot have one; the client takes it for the next response. *)
Theorem C117_nobody_refuted : exists p w, resp_httpdata p (str "x") = Ok w /\ p_status p = 204 /\ ~ response_said MGet p (str "x") w.
Proof.
  exists (mkResp 204 V11 [] false). eexists. split; [vm_compute; reflexivity|]. split; [reflexivity|]. intros K.
  eapply C117_response in K; [|cbn; lia|vm_compute; reflexivity]. destruct K as (_ & _ & K & _). discriminate K. right. right. left. reflexivity.
Qed.
Print Assumptions C117_nobody_refuted.

(** The conditions are met. *)
Example C117_met : exists q w, req_build [RbMethod (str "GET"); RbUrl (str "http://h.x:8080/a/b;c=1")] = Ok q /\
  req_http1_data q [] = Ok w /\ w = str "GET /a/b;c=1 HTTP/1.1" ++ CRLF ++ str "Host: h.x:8080" ++ CRLF ++ str "User-Agent: wenmeng" ++ CRLF ++ CRLF /\ request_said q [] w.
Proof.
  destruct (C117_built MGet (str "http://h.x:8080/a/b;c=1") (mkUrl ScHttp (str "/a/b;c=1") None None (Some (str "h.x")) (Some 8080) None) (str "h.x") 8080) as (q & w & E1 & _ & E2 & K);
    [cbn; auto|vm_compute; reflexivity|reflexivity|reflexivity|].
  exists q, w. split; [exact E1|]. split; [exact E2|]. split.
  - assert (Q : q = built MGet (mkUrl ScHttp (str "/a/b;c=1") None None (Some (str "h.x")) (Some 8080) None) (str "h.x") 8080).
    { assert (X : Ok q = Ok (built MGet (mkUrl ScHttp (str "/a/b;c=1") None None (Some (str "h.x")) (Some 8080) None) (str "h.x") 8080)) by (rewrite <- E1; vm_compute; reflexivity). injection X. auto. }
    rewrite Q in E2. vm_compute in E2. injection E2 as <-. vm_compute. reflexivity.
  - apply K. split.
    + split; [left; change (str "h.x") with [104; 46; 120]|cbn; lia]. unfold reg_name.
      repeat (apply pt_char; [unfold unreserved, sub_delim, alpha, upper, lower, digit; cbn; lia|]). apply pt_nil.
    + split; [discriminate|]. split; [reflexivity|]. left. split; [reflexivity|]. cbn [u_path]. change (str "/a/b;c=1") with [47; 97; 47; 98; 59; 99; 61; 49].
      repeat (apply Forall_cons; [unfold pchar, unreserved, sub_delim, alpha, upper, lower, digit; cbn; lia|]). apply Forall_nil.
Qed.
Example C117_response_met : exists w, resp_httpdata (mkResp 200 V11 [(str "Content-Length", str "2")] false) (str "ok") = Ok w /\
  response_said MGet (mkResp 200 V11 [(str "Content-Length", str "2")] false) (str "ok") w.
Proof.
  eexists. split; [vm_compute; reflexivity|]. apply (C117_response MGet _ (str "ok")); [cbn; lia|vm_compute; reflexivity|]. split; [right; reflexivity|]. split.
  - constructor; [split; [apply name_okb_ok; reflexivity|]|constructor]. right. left. exists 50. split; [reflexivity|left; unfold vchar; lia].
  - split; [intros K|intros _]. { exfalso. destruct K as [K|[K|[K|[K|[K _]]]]]; cbn in K; try discriminate K; lia. }
    split; [discriminate|]. intros _ v E. vm_compute in E. injection E as <-. split; [discriminate|]. split; [constructor; [unfold digit; lia|constructor]|reflexivity].
Qed.
