(** C108: which of the heads that RFC 9112 allows are read as it means them. *)
From Coq Require Import Ascii String NArith ZArith Lia Bool List ZifyBool ZifyNat ZifyN.
From Verif Require Import Base S_Utf8 P_Base M_Std M_Helper M_Header M_Url M_Http1 S_Hex S_Http1 S_Http1Api S_Url S_UrlAll S_Rfc9112 P_Rfc9112.
Import ListNotations.
Local Open Scope N_scope.

(** A conforming request head is read as meant exactly if its method is one of nine, its version HTTP/1.0 or HTTP/1.1, its target has a URL,
    there are only spaces in front of the values and nothing behind them, and no name occurs twice. *)
Theorem C108_request : forall q m t v ls rest, bytes_ok (rfc_request_text m t v ls ++ rest) -> rfc_request m t v ls ->
  ((exists q', req_parse q (rfc_request_text m t v ls ++ rest) = (q', Ok (blen (rfc_request_text m t v ls))) /\
     method_str (q_method q') = m /\ version_str (q_version q') = v /\ q_header q' = map line_field ls) <->
   (exists k s u, In (k, s) method_names /\ m = str s /\ wire_url k t (map line_field ls) u) /\
   (v = str "HTTP/1.0" \/ v = str "HTTP/1.1") /\ Forall plain_line ls /\ distinct_names (map line_field ls)).
Proof. exact rfc_request_exact. Qed.
Print Assumptions C108_request.
(** Every other method and version is refused, *)
Theorem C108_method : forall q m t v ls rest, bytes_ok (rfc_request_text m t v ls ++ rest) -> rfc_request m t v ls ->
  (forall k s, In (k, s) method_names -> m <> str s) ->
  exists q', req_parse q (rfc_request_text m t v ls ++ rest) = (q', Err (EHttp MethodErr)).
Proof. exact rfc_unknown_method. Qed.
Print Assumptions C108_method.
Theorem C108_version : forall q m t v ls rest k s, bytes_ok (rfc_request_text m t v ls ++ rest) -> rfc_request m t v ls ->
  In (k, s) method_names -> m = str s -> v <> str "HTTP/1.0" -> v <> str "HTTP/1.1" ->
  exists q', req_parse q (rfc_request_text m t v ls ++ rest) = (q', Err (EHttp VersionErr)).
Proof. exact rfc_unknown_version. Qed.
Print Assumptions C108_version.
(** and with the others the request is read with the raw texts behind the colons, of fields with the same name only the last, if the target has a URL. *)
Theorem C108_read : forall q m t v ls rest k s k', rfc_request m t v ls -> In (k, s) method_names -> m = str s -> In k' known_versions -> v = version_str k' ->
  exists rs, Forall2 line_raw ls rs /\
    (forall u, wire_url k t (add_fields [] (combine (map ln_name ls) rs)) u ->
       req_parse q (rfc_request_text m t v ls ++ rest) = (mkReq k k' u (add_fields [] (combine (map ln_name ls) rs)) false, Ok (blen (rfc_request_text m t v ls)))) /\
    ((forall u, ~ wire_url k t (add_fields [] (combine (map ln_name ls) rs)) u) ->
       forall q' n, req_parse q (rfc_request_text m t v ls ++ rest) <> (q', Ok n)).
Proof. exact rfc_request_read. Qed.
Print Assumptions C108_read.

(** The targets of the four forms that have a URL, and their URLs.  Origin form: no '@', the escapes stand for UTF-8, and the Host field is fine. *)
Theorem C108_origin : forall k p q h u, k <> MConnect -> abs_path p -> query_text q ->
  (wire_url k (p ++ q) h u <->
   ~ In 64 (p ++ q) /\ text_of p (u_path u) /\ query_meant q (u_query u) /\ u_user u = None /\ u_pass u = None /\
   hosted h (u_domain u) (u_port u) /\ scheme_hint h (u_scheme u)).
Proof. exact origin_target. Qed.
Print Assumptions C108_origin.
(** Absolute form: the URL that is meant is the one that is read, if the host has no ':', the port is not empty, there is no '@', and no query without a path. *)
Theorem C108_absolute : forall k hs s s0 h po p q u d n, k <> MConnect -> (s = ScHttp /\ s0 = 80) \/ (s = ScHttps /\ s0 = 443) ->
  uri_host h -> port_opt po -> p = [] \/ abs_path p -> query_text q ->
  u_scheme u = s -> u_user u = None -> u_pass u = None -> u_domain u = Some d -> u_port u = Some n -> n < 65536 ->
  text_of h d -> port_meant s0 po n -> path_meant p (u_path u) -> query_meant q (u_query u) ->
  (wire_url k (scheme_str s ++ str "://" ++ h ++ po ++ p ++ q) hs u <->
   ~ In 58 h /\ po <> [58] /\ ~ In 64 (p ++ q) /\ (p = [] -> q = [])).
Proof. exact absolute_target. Qed.
Print Assumptions C108_absolute.
(** Asterisk form: never. *)
Theorem C108_asterisk : forall k h u, k <> MConnect -> ~ wire_url k (str "*") h u.
Proof. exact asterisk_target. Qed.
Print Assumptions C108_asterisk.
(** Authority form, and the value of a Host field: no ':' in the host (so no IPv6 address), and a port below 65536 that is not empty. *)
Theorem C108_host : forall h po d n, uri_host h -> port_opt po ->
  (host_parts (h ++ po) d n <-> ~ In COLON h /\ d = h /\
   ((po = [] /\ n = 80) \/ exists ds, po = COLON :: ds /\ ds <> [] /\ num_of ds < 65536 /\ n = num_of ds)).
Proof. exact host_named. Qed.
Print Assumptions C108_host.

(** A conforming response head is read as meant exactly if moreover its code is not below 100 and it has a reason in visible ASCII characters and spaces. *)
Theorem C108_response : forall p v c r ls rest, bytes_ok (rfc_response_text v c r ls ++ rest) -> rfc_response v c r ls ->
  ((exists p', resp_parse p (rfc_response_text v c r ls ++ rest) = (p', Ok (blen (rfc_response_text v c r ls))) /\
     version_str (p_version p') = v /\ three_digits (p_status p') = c /\ p_header p' = map line_field ls) <->
   (v = str "HTTP/1.0" \/ v = str "HTTP/1.1") /\ hd_error c <> Some 48 /\ (exists i x, r = spaces i ++ x /\ reason_ok x) /\
   Forall plain_line ls /\ distinct_names (map line_field ls)).
Proof. exact rfc_response_exact. Qed.
Print Assumptions C108_response.

(** Conforming heads that are refused or misread. *)
Definition said (m t v : string) (ls : list line) : bytes := rfc_request_text (str m) (str t) (str v) ls.
Definition host_line : line := mkLine (str "Host") [SP] (str "a") [].
Ltac all_list := repeat (apply Forall_cons; [solve [unfold tchar, alpha, upper, lower, digit, blank, TAB, SP, field_vchar, vchar; cbn; lia]|]); apply Forall_nil.
Ltac path_list := repeat (apply pt_char; [solve [unfold pchar, unreserved, sub_delim, alpha, upper, lower, digit; cbn; lia]|]); apply pt_nil.
Lemma host_line_ok : line_ok host_line.
Proof.
  split; [split; [discriminate|all_list]|]. split; [all_list|]. split; [|split; [constructor|discriminate]].
  right. left. exists 97. split; [reflexivity|unfold field_vchar, vchar; lia].
Qed.
Lemma slash_ok m : rfc_target m (str "/").
Proof. apply (rt_origin m [47] []); [constructor; constructor|constructor]. Qed.
Lemma ones_ok : rfc_version (str "HTTP/1.1").
Proof. apply (rv_intro 49 49); unfold digit; lia. Qed.
(** A method of another RFC, a later minor version, OPTIONS of the whole server, and an '@' in a path are refused; *)
Theorem C108_request_refuted :
  (rfc_request (str "PROPFIND") (str "/") (str "HTTP/1.1") [host_line] /\
   snd (req_parse req_default (said "PROPFIND" "/" "HTTP/1.1" [host_line])) = Err (EHttp MethodErr)) /\
  (rfc_request (str "GET") (str "/") (str "HTTP/1.2") [host_line] /\
   snd (req_parse req_default (said "GET" "/" "HTTP/1.2" [host_line])) = Err (EHttp VersionErr)) /\
  (rfc_request (str "OPTIONS") (str "*") (str "HTTP/1.1") [host_line] /\
   snd (req_parse req_default (said "OPTIONS" "*" "HTTP/1.1" [host_line])) = Err (EUrl UrlInvalid)) /\
  (rfc_request (str "GET") (str "/@a") (str "HTTP/1.1") [host_line] /\
   snd (req_parse req_default (said "GET" "/@a" "HTTP/1.1" [host_line])) = Err (EUrl UrlInvalid)).
Proof.
  assert (L : Forall line_ok [host_line]) by (constructor; [exact host_line_ok|constructor]).
  split; [split; [|vm_compute; reflexivity]|split; [split; [|vm_compute; reflexivity]|split; [split; [|vm_compute; reflexivity]|split; [|vm_compute; reflexivity]]]].
  - split; [split; [discriminate|all_list]|]. split; [apply slash_ok|]. split; [apply ones_ok|exact L].
  - split; [split; [discriminate|all_list]|]. split; [apply slash_ok|]. split; [apply (rv_intro 49 50); unfold digit; lia|exact L].
  - split; [split; [discriminate|all_list]|]. split; [apply rt_asterisk; reflexivity|]. split; [apply ones_ok|exact L].
  - split; [split; [discriminate|all_list]|]. split; [|split; [apply ones_ok|exact L]].
    apply (rt_origin _ (str "/@a") []); [constructor; cbn; path_list|constructor].
Qed.
Print Assumptions C108_request_refuted.
(** a tab behind the colon and blanks behind the value become part of it; of two fields of a list only the second is left. *)
Definition odd_lines : list line :=
  [host_line; mkLine (str "A") [TAB] (str "x") []; mkLine (str "B") [SP] (str "y") [SP]; mkLine (str "Accept") [SP] (str "p") []; mkLine (str "Accept") [SP] (str "q") []].
Theorem C108_fields_refuted : rfc_request (str "GET") (str "/") (str "HTTP/1.1") odd_lines /\
  q_header (fst (req_parse req_default (said "GET" "/" "HTTP/1.1" odd_lines))) =
    [(str "Host", str "a"); (str "A", [9; 120]); (str "B", [121; 32]); (str "Accept", str "q")].
Proof.
  split; [|vm_compute; reflexivity]. split; [split; [discriminate|all_list]|]. split; [apply slash_ok|]. split; [apply ones_ok|].
  assert (V : forall b, vchar b -> rfc_value [b]). { intros b H. right. left. exists b. split; [reflexivity|left; exact H]. }
  apply Forall_cons; [exact host_line_ok|].
  repeat (apply Forall_cons; [split; [split; [discriminate|all_list]|]; split; [all_list|]; split; [apply V; unfold vchar; cbn; lia|]; split; [all_list|discriminate]|]).
  apply Forall_nil.
Qed.
Print Assumptions C108_fields_refuted.
(** An address of IPv6 as the host, and a response without reason. *)
Theorem C108_others_refuted :
  (rfc_request (str "CONNECT") (str "[::1]:443") (str "HTTP/1.1") [] /\
   snd (req_parse req_default (said "CONNECT" "[::1]:443" "HTTP/1.1" [])) = Err EInto) /\
  (rfc_response (str "HTTP/1.1") (str "200") [] [] /\
   snd (resp_parse resp_default (rfc_response_text (str "HTTP/1.1") (str "200") [] [])) = Err (EHttp Token)).
Proof.
  split; (split; [|vm_compute; reflexivity]).
  - split; [split; [discriminate|all_list]|]. split; [|split; [apply ones_ok|constructor]].
    apply (rt_authority _ (str "[::1]") (str "443")); [reflexivity| |all_list].
    right. apply (ip_intro (str "::1")). cbn. repeat (apply Forall_cons; [unfold unreserved, digit; cbn; lia|]). apply Forall_nil.
  - split; [apply ones_ok|]. split; [reflexivity|]. split; [all_list|]. split; constructor.
Qed.
Print Assumptions C108_others_refuted.

(** A conforming head that is read as meant. *)
Example C108_example : rfc_request (str "GET") (str "/a%20b?c") (str "HTTP/1.1") [host_line] /\
  Forall plain_line [host_line] /\ distinct_names (map line_field [host_line]) /\
  q_header (fst (req_parse req_default (said "GET" "/a%20b?c" "HTTP/1.1" [host_line]))) = [(str "Host", str "a")] /\
  u_path (q_url (fst (req_parse req_default (said "GET" "/a%20b?c" "HTTP/1.1" [host_line])))) = str "/a b".
Proof.
  split; [|split; [|split; [|split; vm_compute; reflexivity]]].
  - split; [split; [discriminate|all_list]|]. split; [|split; [apply ones_ok|constructor; [exact host_line_ok|constructor]]].
    apply (rt_origin _ (str "/a%20b") (str "?c")).
    + constructor. cbn. apply pt_char; [unfold pchar, unreserved, alpha, lower; lia|]. apply pt_esc; [exists 2; left; reflexivity|exists 0; left; reflexivity|].
      apply pt_char; [unfold pchar, unreserved, alpha, lower; lia|]. constructor.
    + constructor. cbn. path_list.
  - constructor; [|constructor]. split; [constructor; [reflexivity|constructor]|reflexivity].
  - cbn. auto.
Qed.
Example C108_response_example : rfc_response (str "HTTP/1.1") (str "404") (str "Not Found") [host_line] /\
  snd (resp_parse resp_default (rfc_response_text (str "HTTP/1.1") (str "404") (str "Not Found") [host_line])) = Ok 35.
Proof.
  split; [|vm_compute; reflexivity]. split; [apply ones_ok|]. split; [reflexivity|]. split; [all_list|]. split; [all_list|]. constructor; [exact host_line_ok|constructor].
Qed.
