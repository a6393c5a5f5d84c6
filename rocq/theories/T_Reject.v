(** C103: every octet string that Request::parse, Response::parse, Url::parse or the chunk reader does not accept is
    refused with the error that names its first defect; which error that is, and what is then left in the object. *)
From Coq Require Import Ascii String NArith ZArith Lia Bool List.
From Verif Require Import Base S_Utf8 P_Base M_Helper M_Header M_Url M_Http1 S_Http1 S_Http1Api P_Http1 P_Msg S_Hex P_Chunk S_Url P_UrlForm S_UrlAll P_UrlAll S_Wait S_Reject P_Reject.
Import ListNotations.
Local Open Scope N_scope.

Theorem C103_request_exact : forall q l q' e, bytes_ok l -> (req_parse q l = (q', Err e) <-> request_bad q l q' e).
Proof. exact request_bad_iff. Qed.
Print Assumptions C103_request_exact.
Theorem C103_response_exact : forall p l p' e, bytes_ok l -> (resp_parse p l = (p', Err e) <-> response_bad p l p' e).
Proof. exact response_bad_iff. Qed.
Print Assumptions C103_response_exact.
Theorem C103_url_exact : forall l e, bytes_ok l -> (url_parse l = Err e <-> url_bad l e).
Proof. exact url_bad_iff. Qed.
Print Assumptions C103_url_exact.
Theorem C103_chunk_exact : forall l e, parse_chunk_data l = Err e <-> chunk_bad l e.
Proof. exact chunk_bad_iff. Qed.
Print Assumptions C103_chunk_exact.
Theorem C103_chunk_panics : forall l, parse_chunk_data l = Panic <-> chunk_crash l.
Proof. exact chunk_crash_iff. Qed.
Print Assumptions C103_chunk_panics.

(** With C02, C23 and C13 the specifications cover every input, and no two of them the same. *)
Definition a_request (l : bytes) : Prop := exists wire rest m t v hs u, l = wire ++ rest /\ In m known_methods /\ In v known_versions /\
  request_head wire (method_str m) t (version_str v) hs /\ wire_url m t (add_fields [] hs) u.
Definition a_response (l : bytes) : Prop := exists wire rest v c hs, l = wire ++ rest /\ In v known_versions /\ 100 <= c <= 999 /\
  response_head wire (version_str v) (status_str c) hs.
Definition a_chunk (l : bytes) : Prop := exists line rest n, l = line ++ rest /\ size_line line n /\ n + 2 < 2 ^ 64 /\ n + 2 <= blen rest.
Theorem C103_request_complete : forall q l, bytes_ok l ->
  (a_request l /\ ~ exists q' e, request_bad q l q' e) \/ (~ a_request l /\ exists q' e, request_bad q l q' e).
Proof.
  intros q l B. destruct (req_parse q l) as [q' r] eqn:E. destruct (req_total q l) as [T1 T2]. rewrite E in T1, T2. cbn [snd] in T1, T2.
  destruct r as [n|e| |]; [left|right|contradiction..].
  - split.
    + apply request_exact in E as (wire & rest & m & t & v & hs & u & El & _ & Hm & Hv & Hh & Hu & _); [|exact B]. exists wire, rest, m, t, v, hs, u. auto.
    + intros (q1 & e & K). apply request_bad_iff in K; [congruence|exact B].
  - split; [|exists q', e; apply request_bad_iff; assumption].
    intros (wire & rest & m & t & v & hs & u & El & Hm & Hv & Hh & Hu).
    assert (K : req_parse q l = (mkReq m v u (add_fields [] hs) false, Ok (blen wire))).
    { apply request_exact; [exact B|]. exists wire, rest, m, t, v, hs, u. repeat split; assumption. }
    congruence.
Qed.
Print Assumptions C103_request_complete.
Theorem C103_response_complete : forall p l, bytes_ok l ->
  (a_response l /\ ~ exists p' e, response_bad p l p' e) \/ (~ a_response l /\ exists p' e, response_bad p l p' e).
Proof.
  intros p l B. destruct (resp_parse p l) as [p' r] eqn:E. destruct (resp_total p l) as [T1 T2]. rewrite E in T1, T2. cbn [snd] in T1, T2.
  destruct r as [n|e| |]; [left|right|contradiction..].
  - split.
    + apply response_exact in E as (wire & rest & v & c & hs & El & _ & Hv & Hc & Hh & _); [|exact B]. exists wire, rest, v, c, hs. auto.
    + intros (q1 & e & K). apply response_bad_iff in K; [congruence|exact B].
  - split; [|exists p', e; apply response_bad_iff; assumption].
    intros (wire & rest & v & c & hs & El & Hv & Hc & Hh).
    assert (K : resp_parse p l = (mkResp c v (add_fields [] hs) false, Ok (blen wire))).
    { apply response_exact; [exact B|]. exists wire, rest, v, c, hs. repeat split; try assumption; apply Hc. }
    congruence.
Qed.
Print Assumptions C103_response_complete.
Theorem C103_url_complete : forall l, bytes_ok l ->
  ((exists u, url_means l u) /\ ~ exists e, url_bad l e) \/ ((~ exists u, url_means l u) /\ exists e, url_bad l e).
Proof.
  intros l B. destruct (url_parse_returns l) as [T1 T2]. destruct (url_parse l) as [u|e| |] eqn:E; [left|right|contradiction..].
  - split; [exists u; apply url_means_iff; assumption|]. intros (e & K). apply url_bad_iff in K; [congruence|exact B].
  - split; [|exists e; apply url_bad_iff; assumption]. intros (u & K). apply url_means_iff in K; [congruence|exact B].
Qed.
Print Assumptions C103_url_complete.
Theorem C103_chunk_complete : forall l,
  (a_chunk l /\ (~ exists e, chunk_bad l e) /\ ~ chunk_crash l) \/
  (~ a_chunk l /\ (exists e, chunk_bad l e) /\ ~ chunk_crash l) \/
  (~ a_chunk l /\ (~ exists e, chunk_bad l e) /\ chunk_crash l).
Proof.
  intros l. assert (A : a_chunk l <-> exists x, parse_chunk_data l = Ok x).
  { split.
    - intros (line & rest & n & El & L & H1 & H2). exists (blen line, n). apply chunk_exact. exists line, rest. auto.
    - intros ([off n] & E). apply chunk_exact in E as (line & rest & El & L & _ & H1 & H2). exists line, rest, n. auto. }
  assert (R : (exists e, chunk_bad l e) <-> exists e, parse_chunk_data l = Err e).
  { split; intros (e & H); exists e; apply chunk_bad_iff; exact H. }
  rewrite A, R, <- chunk_crash_iff. pose proof (chunk_no_diverge l) as D. destruct (parse_chunk_data l) as [x|e| |].
  - left. split; [eauto|]. split; [intros (e & H); discriminate H|discriminate].
  - right. left. split; [intros (x & H); discriminate H|]. split; [eauto|discriminate].
  - right. right. split; [intros (x & H); discriminate H|]. split; [intros (e & H); discriminate H|reflexivity].
  - contradiction.
Qed.
Print Assumptions C103_chunk_complete.

(** Each input has one error and leaves one object. *)
Theorem C103_one_error : forall q p l, bytes_ok l ->
  (forall q1 q2 e1 e2, request_bad q l q1 e1 -> request_bad q l q2 e2 -> q1 = q2 /\ e1 = e2) /\
  (forall p1 p2 e1 e2, response_bad p l p1 e1 -> response_bad p l p2 e2 -> p1 = p2 /\ e1 = e2) /\
  (forall e1 e2, url_bad l e1 -> url_bad l e2 -> e1 = e2) /\
  (forall e1 e2, chunk_bad l e1 -> chunk_bad l e2 -> e1 = e2).
Proof.
  intros q p l B. split; [|split; [|split]].
  - intros q1 q2 e1 e2 H K. apply request_bad_iff in H, K; try exact B. split; congruence.
  - intros q1 q2 e1 e2 H K. apply response_bad_iff in H, K; try exact B. split; congruence.
  - intros e1 e2 H K. apply url_bad_iff in H, K; try exact B. congruence.
  - intros e1 e2 H K. apply chunk_bad_iff in H, K. congruence.
Qed.
Print Assumptions C103_one_error.

(** The errors that occur at all: an octet that no header value may hold, for one, is never reported. *)
Theorem C103_request_errors : forall q l q' e, bytes_ok l -> req_parse q l = (q', Err e) ->
  In e [EHttp Partial; EHttp NewLine; EHttp Token; EHttp MethodErr; EHttp VersionErr; EHttp HeaderNameErr; EHttp SchemeTooLong;
        EUrl UrlInvalid; EInto; EExtension "parse int error"].
Proof. intros q l q' e B H. apply request_bad_iff in H; [|exact B]. apply request_bad_in in H. exact H. Qed.
Print Assumptions C103_request_errors.
Theorem C103_response_errors : forall p l p' e, bytes_ok l -> resp_parse p l = (p', Err e) ->
  In e [EHttp Partial; EHttp NewLine; EHttp Token; EHttp VersionErr; EHttp InvalidStatusCode; EHttp HeaderNameErr].
Proof. intros p l p' e B H. apply response_bad_iff in H; [|exact B]. apply response_bad_in in H. exact H. Qed.
Print Assumptions C103_response_errors.
Theorem C103_url_errors : forall l e, bytes_ok l -> url_parse l = Err e -> In e [EHttp Partial; EHttp SchemeTooLong; EUrl UrlInvalid].
Proof. intros l e B H. apply url_bad_iff in H; [|exact B]. destruct H; cbn [In]; auto. Qed.
Print Assumptions C103_url_errors.
Theorem C103_chunk_errors : forall l e, parse_chunk_data l = Err e -> In e [EHttp Partial; EHttp NewLine; EHttp Token].
Proof. intros l e H. apply chunk_bad_iff in H. apply chunk_bad_in in H. exact H. Qed.
Print Assumptions C103_chunk_errors.

(** A refused request keeps the URL it had, also where the method, the version and the header fields are already new. *)
Theorem C103_url_kept : forall q l q' e, bytes_ok l -> req_parse q l = (q', Err e) -> q_url q' = q_url q.
Proof. intros q l q' e B H. apply request_bad_iff in H; [|exact B]. destruct H; reflexivity. Qed.
Print Assumptions C103_url_kept.
(** And it counts as complete, by is_partial, although there is an error, exactly when its head is complete and its target is the reason. *)
Theorem C103_partial_flag : forall q l q' e, bytes_ok l -> req_parse q l = (q', Err e) ->
  (q_partial q' = false <-> exists wire rest m t v hs, l = wire ++ rest /\ In m known_methods /\ In v known_versions /\
     request_head wire (method_str m) t (version_str v) hs /\ target_bad m t (add_fields [] hs) e).
Proof.
  intros q l q' e B H. pose proof H as H'. apply request_bad_iff in H; [|exact B]. split.
  - intros P. destruct H as [bl x e Hb L|bl b r e Hb N1 N2 L|bl m x y e Hb Hm X Y L|bl m i t x y e Hb Hm Ht X Y L|bl m i t j v x e Hb Hm Ht Hv X L|bl m i t j v eo x hs e Hb Hm Ht Hv He L|wire m t v hs r e Hh Hm Hv L];
      try discriminate P. exists wire, r, m, t, v, hs. auto.
  - intros (wire & rest & m & t & v & hs & El & Hm & Hv & Hh & L).
    assert (K : request_bad q l (mkReq m v (q_url q) (add_fields [] hs) false) e) by (rewrite El; apply (rb_url q wire m t); assumption).
    apply request_bad_iff in K; [|exact B]. rewrite K in H'. injection H' as <-. reflexivity.
Qed.
Print Assumptions C103_partial_flag.

(** One case for each error and more, computed by the model; the theorems above say which rule gives it. *)
Definition ln (s : string) : bytes := str s ++ [CR; LF].
Definition req_err (l : bytes) : res N := snd (req_parse req_default l).
Definition resp_err (l : bytes) : res N := snd (resp_parse resp_default l).
Example C103_ex_requests :
  map req_err [str "GET / HTTP/1.1"; ln "GET / HTTP/1.1" ++ str "a: b"; ln "GET / HTTP/1.1" ++ ln "a: b"; ln "GET /%4 HTTP/1.1" ++ ln "";
               str "GET / HTTP/1.1" ++ [CR; 65]; [CR; 65]; ln "GET / HTTP/1.1" ++ str "a: b" ++ [CR; 65];
               ln ""  ++ [0]; ln "GET "; ln "GET /";
               ln "GETS / HTTP/1.1"; str "get "; ln "GET / HTTP/1.2"; ln "GET / http/1.1";
               ln "GET / HTTP/1.1" ++ ln "(a): b"; ln "GET / HTTP/1.1" ++ ln "a b: c"; ln "GET / HTTP/1.1" ++ ln "a";
               ln "GET x/y HTTP/1.1" ++ ln ""; ln "GET * HTTP/1.1" ++ ln ""; ln "GET /%zz HTTP/1.1" ++ ln ""; ln "GET http://a:b/ HTTP/1.1" ++ ln "";
               str "GET " ++ repeat 97 65 ++ ln "://a HTTP/1.1" ++ ln "";
               ln "CONNECT a:b HTTP/1.1" ++ ln ""; ln "CONNECT a:1:2 HTTP/1.1" ++ ln "";
               ln "GET / HTTP/1.1" ++ ln "Host: [::1]" ++ ln ""; ln "GET / HTTP/1.1" ++ ln "Host: a:99999" ++ ln ""]
  = [Err (EHttp Partial); Err (EHttp Partial); Err (EHttp Partial); Err (EHttp Partial);
     Err (EHttp NewLine); Err (EHttp NewLine); Err (EHttp NewLine);
     Err (EHttp Token); Err (EHttp Token); Err (EHttp Token);
     Err (EHttp MethodErr); Err (EHttp MethodErr); Err (EHttp VersionErr); Err (EHttp VersionErr);
     Err (EHttp HeaderNameErr); Err (EHttp HeaderNameErr); Err (EHttp HeaderNameErr);
     Err (EUrl UrlInvalid); Err (EUrl UrlInvalid); Err (EUrl UrlInvalid); Err (EUrl UrlInvalid);
     Err (EHttp SchemeTooLong);
     Err (EExtension "parse int error"); Err EInto; Err EInto; Err (EExtension "parse int error")].
Proof. vm_compute. reflexivity. Qed.
Example C103_ex_responses :
  map resp_err [str "HTTP/1.1 200 OK"; str "HTTP/1.1 200" ++ [CR; LF]; str "HTTP/1.1 200 OK" ++ [CR; 65]; ln "HTTP/1.1"; ln "HTTP/4 200 OK";
                ln "HTTP/1.1 99 OK"; ln "HTTP/1.1 0200 OK"; ln "HTTP/1.1 200 OK" ++ ln ": b"; ln "HTTP/1.1 200 OK" ++ str "a: b" ++ [0; 200]]
  = [Err (EHttp Partial); Err (EHttp Token); Err (EHttp NewLine); Err (EHttp Token); Err (EHttp VersionErr);
     Err (EHttp InvalidStatusCode); Err (EHttp InvalidStatusCode); Err (EHttp HeaderNameErr); Err (EHttp Partial)].
Proof. vm_compute. reflexivity. Qed.
Example C103_ex_urls :
  map (fun s => match url_parse s with Ok _ => None | Err e => Some e | _ => None end)
    [[]; str "htt"; str "http"; str "http:"; str "http:/"; str "http://a%4"; str "http://%4@b"; str "http:x"; str "http://a:b"; str "a@b"; str "/a@b"; str "/%zz%4"; str "/%4%zz";
     repeat 97 64; repeat 97 65; repeat 97 65 ++ [58]]
  = [Some (EHttp Partial); Some (EHttp Partial); Some (EHttp Partial); Some (EHttp Partial); Some (EHttp Partial); Some (EHttp Partial); Some (EUrl UrlInvalid); Some (EUrl UrlInvalid); Some (EUrl UrlInvalid);
     Some (EUrl UrlInvalid); Some (EUrl UrlInvalid); Some (EUrl UrlInvalid); Some (EUrl UrlInvalid);
     Some (EHttp Partial); Some (EHttp Partial); Some (EHttp SchemeTooLong)].
Proof. vm_compute. reflexivity. Qed.
Example C103_ex_chunks :
  map parse_chunk_data [[]; str "3"; ln "3"; ln "3" ++ str "abc" ++ [CR]; ln "3" ++ str "abc" ++ [65; 66]; ln "x"; str "3" ++ [CR; 65]; str "3;a"; ln "10000000000000000"; ln "fffffffffffffffe"]
  = [Err (EHttp Partial); Err (EHttp Partial); Err (EHttp Partial); Err (EHttp Partial); Ok (3, 3); Err (EHttp Token); Err (EHttp NewLine); Err (EHttp Partial); Panic; Panic].
Proof. vm_compute. reflexivity. Qed.
(** A refused request after a good one: everything but the URL is new, and [is_partial] answers no. *)
Definition old_req : request := fst (req_parse req_default (ln "GET /old HTTP/1.0" ++ ln "A: b" ++ ln "")).
Example C103_ex_kept :
  (q_method old_req, u_path (q_url old_req)) = (MGet, str "/old") /\
  req_parse old_req (ln "PUT x HTTP/1.1" ++ ln "C: d" ++ ln "") = (mkReq MPut V11 (q_url old_req) [(str "C", str "d")] false, Err (EHttp Partial)) /\
  req_parse old_req (ln "PUT /%zz HTTP/1.1" ++ ln "C: d" ++ ln "") = (mkReq MPut V11 (q_url old_req) [(str "C", str "d")] false, Err (EUrl UrlInvalid)).
Proof. vm_compute. repeat split. Qed.
