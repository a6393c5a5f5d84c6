(** C115: the requests and responses of RFC 9113 section 8.3, compared with what comes out of HEADERS frames. *)
From Coq Require Import Ascii String NArith ZArith Lia Bool List Permutation.
From Verif Require Import Base S_Utf8 P_Base M_Header M_Url M_Http1 S_Http1Api S_Url M_Std P_Msg M_Hpack S_Hpack S_HpackApi S_HpackAll P_HpackTable
  M_Frame M_H2 S_Frame S_H2Api S_Build S_FrameAll S_Rfc9112 S_Rfc9113 T_Rfc9113 S_RfcMeans P_RfcMeans S_Http1.
Import ListNotations.
Local Open Scope N_scope.

(** A conforming request for an http or https URI becomes the request that it means exactly if its method is one of the
    nine, its escapes stand for UTF-8, its host has no ':', its port is below 65536 and not empty, its target has no '@',
    no field but host is repeated, and the list is within the limit. *)
Theorem C115_request : forall L fh r fs, h2_request_ok r -> h2_request_list r fs ->
  ((exists q, read_request L fh fs = Ok q /\ request_meant r q) <-> request_readable L r fs).
Proof. exact request_exact. Qed.
Print Assumptions C115_request.
(** The same for CONNECT, *)
Theorem C115_connect : forall L fh h ds hs fs, connect_ok h ds hs -> connect_list h ds hs fs ->
  ((exists q, read_request L fh fs = Ok q /\ connect_meant h ds hs q) <->
   total_size fs <= L /\ text_has h /\ ~ In 58 h /\ num_of ds < 65536 /\ distinct_names (others hs)).
Proof. exact connect_exact. Qed.
Print Assumptions C115_connect.
(** and for responses. *)
Theorem C115_response : forall L fh code hs fs, Forall h2_field hs -> code < 1000 -> response_list code hs fs ->
  ((exists p, read_response L fh fs = Ok p /\ p_status p = code /\ p_header p = hs) <->
   total_size fs <= L /\ 100 <= code /\ distinct_names hs).
Proof. exact response_exact. Qed.
Print Assumptions C115_response.
(** All three from the octets of a HEADERS frame that has the whole block, in the HPACK of the RFC as far as the decoder
    knows it (C62): moreover there is to be no flag without meaning and no padding. *)
Theorem C115_request_frame : forall t L fl r id p od block rq fs dyn rest, h2_request_ok rq -> h2_request_list rq fs ->
  decoder_reach t -> bytes_ok (frame_octets 1 fl (r * 2147483648 + id) p ++ rest) ->
  blen p < 16777216 -> r <= 1 -> id < 2147483648 -> rfc_headers fl p od block ->
  block_repr rfc_lookup (fun i => i < 127 /\ i <> 15) (fun i => i <> 15) (hi_max t) (hi_table t) block fs dyn ->
  ((exists t' hf q, recv t L (frame_octets 1 fl (r * 2147483648 + id) p ++ rest) = (t', Ok (FHeaders hf, rest)) /\
     headers_into_request hf req_default = Ok q /\ request_meant rq q) <->
   defined_flags fl /\ (flag_on fl 3 -> hd_error p = Some 0) /\ request_readable L rq fs).
Proof. exact request_frame. Qed.
Print Assumptions C115_request_frame.
Theorem C115_connect_frame : forall t L fl r id p od block h ds hs fs dyn rest, connect_ok h ds hs -> connect_list h ds hs fs ->
  decoder_reach t -> bytes_ok (frame_octets 1 fl (r * 2147483648 + id) p ++ rest) ->
  blen p < 16777216 -> r <= 1 -> id < 2147483648 -> rfc_headers fl p od block ->
  block_repr rfc_lookup (fun i => i < 127 /\ i <> 15) (fun i => i <> 15) (hi_max t) (hi_table t) block fs dyn ->
  ((exists t' hf q, recv t L (frame_octets 1 fl (r * 2147483648 + id) p ++ rest) = (t', Ok (FHeaders hf, rest)) /\
     headers_into_request hf req_default = Ok q /\ connect_meant h ds hs q) <->
   defined_flags fl /\ (flag_on fl 3 -> hd_error p = Some 0) /\
   total_size fs <= L /\ text_has h /\ ~ In 58 h /\ num_of ds < 65536 /\ distinct_names (others hs)).
Proof. exact connect_frame. Qed.
Print Assumptions C115_connect_frame.
Theorem C115_response_frame : forall t L fl r id p od block code hs fs dyn rest, Forall h2_field hs -> code < 1000 -> response_list code hs fs ->
  decoder_reach t -> bytes_ok (frame_octets 1 fl (r * 2147483648 + id) p ++ rest) ->
  blen p < 16777216 -> r <= 1 -> id < 2147483648 -> rfc_headers fl p od block ->
  block_repr rfc_lookup (fun i => i < 127 /\ i <> 15) (fun i => i <> 15) (hi_max t) (hi_table t) block fs dyn ->
  ((exists t' hf, recv t L (frame_octets 1 fl (r * 2147483648 + id) p ++ rest) = (t', Ok (FHeaders hf, rest)) /\
     p_status (headers_into_response hf resp_default) = code /\ p_header (headers_into_response hf resp_default) = hs) <->
   defined_flags fl /\ (flag_on fl 3 -> hd_error p = Some 0) /\ total_size fs <= L /\ 100 <= code /\ distinct_names hs).
Proof. exact response_frame. Qed.
Print Assumptions C115_response_frame.
(** None of the conforming lists is malformed. *)
Theorem C115_conforming : forall r fs, h2_request_ok r -> h2_request_list r fs -> ~ malformed fs.
Proof. exact conforming_not_malformed. Qed.
Print Assumptions C115_conforming.

(** ** Where the reader departs from the RFC *)
(** 8.3.1: the path is to start with '/', but what does not is taken for the end of the host: with ":authority: bank" and
    ":path: .evil" the request goes to bank.evil.  So does the path "*" of OPTIONS. *)
Theorem C115_glued_refuted : forall L fh k m s h p hs fs, In (k, m) method_names -> In s [ScHttp; ScHttps] ->
  Forall (fun b => unreserved b \/ sub_delim b) h -> Forall (fun b => unreserved b \/ sub_delim b) p -> Forall h2_field hs ->
  fs = pseudo_request (str m) (scheme_str s) h p ++ hs -> total_size fs <= L ->
  exists q, read_request L fh fs = Ok q /\ q_method q = k /\ u_domain (q_url q) = Some (h ++ p) /\ u_path (q_url q) = str "/".
Proof. exact glued. Qed.
Print Assumptions C115_glued_refuted.
Definition fh0 : fheader := mkFH 0 KHeaders 4 1.
Definition get (a p : string) (hs : list hfield) : list hfield := pseudo_request (str "GET") (str "http") (str a) (str p) ++ hs.
(** The request of a list, if there is one: method, host, path and fields. *)
Definition seen (fs : list hfield) : option (bytes * option bytes * bytes * list hfield) :=
  match read_request 1000 fh0 fs with
  | Ok q => Some (method_str (q_method q), u_domain (q_url q), u_path (q_url q), q_header q)
  | _ => None
  end.
Definition field1 (n v : string) : hfield := (str n, str v).
(** Malformed lists that are taken for requests. *)
Definition accepted (fs : list hfield) : Prop := malformed fs /\ exists x, seen fs = Some x.
Theorem C115_malformed_refuted :
  accepted (get "a" "/" [field1 "Accept" "b"]) /\
  accepted (get "a" "/" [field1 "x y" "b"]) /\
  accepted (get "a" "/" [(str "x", [13; 10])]) /\
  accepted (get "a" "/" [field1 "x" "y"; field1 ":path" "/b"]) /\
  accepted (get "a" "/" [field1 ":path" "/b"]) /\
  accepted (get "a" "/" [field1 ":foo" "b"]) /\
  accepted (get "a" "/" [field1 ":status" "200"]) /\
  accepted (get "a" "/" [field1 "transfer-encoding" "chunked"]) /\
  accepted [field1 ":scheme" "http"; field1 ":authority" "a"; field1 ":path" "/"] /\
  accepted [field1 ":method" "GET"; field1 ":authority" "a"] /\
  accepted (get "a" "" []).
Proof.
  repeat match goal with |- _ /\ _ => split end; (split; [|eexists; vm_compute; reflexivity]).
  - apply (mf_upper _ (str "Accept") (str "b")); [cbn; auto 10|]. exists 65. split; [cbn; auto|unfold upper; lia].
  - apply (mf_name _ (str "x y") (str "b") 32); [cbn; auto 10|cbn; auto|]. unfold tchar, alpha, upper, lower, digit. cbn. lia.
  - apply (mf_value _ (str "x") [13; 10]); [cbn; auto 10|]. intros [K|[(b & K & _)|(b & w & c & K & Kb & _)]]; [discriminate..|].
    injection K as <- _. unfold field_vchar, vchar in Kb. lia.
  - apply (mf_late _ (get "a" "/" []) (field1 "x" "y") [] (field1 ":path" "/b") []); [reflexivity|discriminate|reflexivity].
  - apply (mf_twice _ (str ":path")); [vm_compute; auto|reflexivity].
  - apply (mf_unknown _ (str ":foo") (str "b")); [cbn; auto 10|reflexivity|]. cbn. intuition discriminate.
  - apply (mf_unknown _ (str ":status") (str "200")); [cbn; auto 10|reflexivity|]. cbn. intuition discriminate.
  - apply (mf_connection _ (str "transfer-encoding") (str "chunked")); cbn; auto 10.
  - apply mf_no_method. cbn. intuition discriminate.
  - apply mf_no_target; [|left]; cbn; intuition discriminate.
  - apply mf_no_path. cbn. auto 10.
Qed.
Print Assumptions C115_malformed_refuted.
(** Two hosts: the URL has one, the field Host the other. *)
Theorem C115_hosts_refuted : malformed (get "a" "/" [field1 "host" "b"]) /\
  seen (get "a" "/" [field1 "host" "b"]) = Some (str "GET", Some (str "a"), str "/", [(str "Host", str "b")]).
Proof. split; [|vm_compute; reflexivity]. apply (mf_hosts _ (str "a") (str "b")); [cbn; auto 10..|discriminate]. Qed.
Print Assumptions C115_hosts_refuted.
(** An '@' is an ordinary character of a path (RFC 3986, 3.3), but here what follows it is the host: a conforming
    request for http://good.com/a@evil.com goes to evil.com. *)
Theorem C115_at_refuted : forall L fh k m s h x e hs fs, In (k, m) method_names -> str m <> str "CONNECT" -> In s [ScHttp; ScHttps] -> h <> [] ->
  Forall (fun b => unreserved b \/ sub_delim b) h -> Forall (fun b => unreserved b \/ sub_delim b) x -> Forall (fun b => unreserved b \/ sub_delim b) e ->
  Forall h2_field hs -> Forall (same_host h) hs ->
  fs = pseudo_request (str m) (scheme_str s) h (47 :: x ++ 64 :: e) ++ hs -> total_size fs <= L ->
  h2_request_ok (mkH2Request (str m) s h [] (47 :: x ++ 64 :: e) [] hs) /\
  h2_request_list (mkH2Request (str m) s h [] (47 :: x ++ 64 :: e) [] hs) fs /\
  exists q, read_request L fh fs = Ok q /\ q_method q = k /\ u_domain (q_url q) = Some e.
Proof. exact at_host. Qed.
Print Assumptions C115_at_refuted.
Example C115_at_evil : seen (get "good.com" "/a@evil.com" []) = Some (str "GET", Some (str "evil.com"), str "/", [(str "Host", str "evil.com:80")]).
Proof. vm_compute. reflexivity. Qed.
(** The request says that it is of HTTP/1.1. *)
Theorem C115_version_refuted : forall L fh fs q, read_request L fh fs = Ok q -> q_version q = V11.
Proof. exact version_kept. Qed.
Print Assumptions C115_version_refuted.
(** Conforming requests that are refused or misread: another method, an IPv6 address, the crumbs of a cookie (8.2.3),
    and the path "*" of OPTIONS. *)
Theorem C115_refused_refuted :
  seen (pseudo_request (str "PROPFIND") (str "http") (str "a") (str "/")) = None /\
  seen (get "[::1]" "/" []) = None /\
  seen (get "a" "/" [field1 "cookie" "a=b"; field1 "cookie" "c=d"]) = Some (str "GET", Some (str "a"), str "/", [(str "Host", str "a:80"); field1 "cookie" "c=d"]) /\
  seen (pseudo_request (str "OPTIONS") (str "http") (str "a") (str "*")) = Some (str "OPTIONS", Some (str "a*"), str "/", [(str "Host", str "a*:80")]).
Proof. repeat split; vm_compute; reflexivity. Qed.
Print Assumptions C115_refused_refuted.

(** ** Non-vacuity *)
Definition c115_request : h2_request := mkH2Request (str "GET") ScHttps (str "h") [] (str "/") [] [field1 "a" "b"].
Lemma c115_field : h2_field (field1 "a" "b").
Proof.
  unfold h2_field, field1. cbn [fst snd]. change (str "a") with [97]. change (str "b") with [98].
  repeat match goal with |- _ /\ _ => split end.
  - split; [discriminate|]. apply Forall_cons; [|apply Forall_nil]. unfold tchar, alpha, lower, upper; lia.
  - right. left. exists 98. split; [reflexivity|]. unfold field_vchar, vchar; lia.
  - cbn. intuition discriminate.
  - discriminate.
Qed.
Lemma c115_host : Forall (fun b => unreserved b \/ sub_delim b) (str "h").
Proof. change (str "h") with [104]. apply Forall_cons; [|apply Forall_nil]. left. left. unfold alpha, lower; lia. Qed.
Example C115_nonvacuous : h2_request_ok c115_request /\ h2_request_list c115_request (c110_list ++ [(str "a", str "b")]) /\
  request_readable 1000 c115_request (c110_list ++ [(str "a", str "b")]) /\
  exists q, read_request 1000 fh0 (c110_list ++ [(str "a", str "b")]) = Ok q /\ request_meant c115_request q.
Proof.
  destruct (reg_text _ c115_host) as (Rh & Th & _).
  assert (A : h2_request_ok c115_request).
  { unfold h2_request_ok, c115_request, hr_authority. cbn [hr_method hr_scheme hr_host hr_port hr_path hr_query hr_fields].
    repeat match goal with |- _ /\ _ => split end; try discriminate; try assumption.
    - split; [discriminate|]. change (str "GET") with [71; 69; 84]. repeat (apply Forall_cons; [unfold tchar, alpha, upper; lia|]). apply Forall_nil.
    - cbn. auto.
    - left. exact Rh.
    - constructor.
    - constructor. constructor.
    - constructor.
    - apply Forall_cons; [exact c115_field|apply Forall_nil].
    - apply Forall_cons; [discriminate|apply Forall_nil]. }
  assert (B : h2_request_list c115_request (c110_list ++ [(str "a", str "b")])).
  { exists c110_list. split; [|reflexivity]. unfold c110_list, pseudo_request. cbn [c115_request hr_method hr_scheme hr_host hr_port hr_path hr_query hr_fields hr_authority].
    apply perm_skip, perm_skip. apply perm_swap. }
  assert (C : request_readable 1000 c115_request (c110_list ++ [(str "a", str "b")])).
  { unfold request_readable, target_readable. cbn [c115_request hr_method hr_scheme hr_host hr_port hr_path hr_query hr_fields].
    repeat match goal with |- _ /\ _ => split end.
    - vm_compute. discriminate.
    - exists MGet, "GET"%string. cbn. auto.
    - exists (str "h"). exact Th.
    - exists (str "/"). split; [apply pf_char; [discriminate|constructor]|apply utf8_valid_iff; reflexivity].
    - discriminate.
    - cbn. lia.
    - left. reflexivity.
    - cbn. lia.
    - cbn. repeat constructor. }
  split; [exact A|]. split; [exact B|]. split; [exact C|]. apply (C115_request 1000 fh0 _ _ A B). exact C.
Qed.
Example C115_frame_nonvacuous :
  headers_into_request (mkHeaders 5 (Some (mkDep 3 15 false)) [(str "a", str "b")] c110_parts 45) req_default =
    Ok (mkReq MGet V11 (mkUrl ScHttps (str "/") None None (Some (str "h")) (Some 443) None) [(str "Host", str "h:443"); (str "a", str "b")] false).
Proof. vm_compute. reflexivity. Qed.
Example C115_connect_nonvacuous : connect_ok (str "h") (str "443") [] /\
  connect_list (str "h") (str "443") [] [field1 ":method" "CONNECT"; field1 ":authority" "h:443"] /\
  seen [field1 ":method" "CONNECT"; field1 ":authority" "h:443"] = Some (str "CONNECT", Some (str "h"), str "/", [(str "Host", str "h:443")]).
Proof.
  destruct (reg_text _ c115_host) as (Rh & _). split; [|split; [|vm_compute; reflexivity]].
  - unfold connect_ok. repeat match goal with |- _ /\ _ => split end; try discriminate; try assumption; try apply Forall_nil.
    + left. exact Rh.
    + change (str "443") with [52; 52; 51]. repeat (apply Forall_cons; [unfold digit; lia|]). apply Forall_nil.
  - eexists. split; [apply Permutation_refl|reflexivity].
Qed.
Example C115_response_nonvacuous : Forall h2_field [field1 "a" "b"] /\ response_list 404 [field1 "a" "b"] [field1 ":status" "404"; field1 "a" "b"] /\
  read_response 1000 fh0 [field1 ":status" "404"; field1 "a" "b"] = Ok (mkResp 404 V11 [field1 "a" "b"] false).
Proof. split; [apply Forall_cons; [exact c115_field|apply Forall_nil]|]. split; vm_compute; reflexivity. Qed.
