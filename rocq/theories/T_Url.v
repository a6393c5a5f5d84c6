(** C19-C24 and C56: percent-encoding, URLs and the URL of a request. *)
From Coq Require Import Ascii String NArith ZArith Bool List.
From Verif Require Import Base S_Utf8 P_Base M_Std M_Helper M_Header M_Url M_Http1 S_Http1 S_Http1Api S_Hex S_Map S_Url S_UrlAll P_Msg P_Map P_Url P_UrlForm P_UrlAll.
Import ListNotations.
Local Open Scope N_scope.

(** ** C19: decoding an encoded string. *)
Theorem C19_decode_encode : forall s, is_utf8 s -> url_decode (url_encode s) = Ok s.
Proof. exact url_roundtrip_utf8. Qed.
Print Assumptions C19_decode_encode.
(** For arbitrary bytes the result is the string a Rust String can hold. *)
Theorem C19_decode_encode_bytes : forall s, bytes_ok s -> url_decode (url_encode s) = Ok (utf8_lossy s).
Proof. exact url_roundtrip. Qed.
Print Assumptions C19_decode_encode_bytes.
Example C19_nonvacuous : is_utf8 (str "a b%/" ++ [195; 169; 0]) /\
  url_encode (str "a b%/" ++ [195; 169; 0]) = str "a%20b%25/%C3%A9%00".
Proof. split; [apply utf8_valid_iff; vm_compute; reflexivity|vm_compute; reflexivity]. Qed.

(** ** C20: the shape of encoded text. *)
Theorem C20_encode_exact : forall s l, bytes_ok s -> (url_encode s = l <-> escaped s l).
Proof. exact url_encode_spec. Qed.
Print Assumptions C20_encode_exact.
Theorem C20_encode_visible : forall s, bytes_ok s -> Forall (fun b => 33 <= b < 127) (url_encode s).
Proof. intros s H. apply (escaped_ascii s). apply url_encode_spec; [exact H|reflexivity]. Qed.
Print Assumptions C20_encode_visible.
Theorem C20_encode_injective : forall s s', bytes_ok s -> bytes_ok s' -> url_encode s = url_encode s' -> s = s'.
Proof. exact url_encode_inj. Qed.
Print Assumptions C20_encode_injective.
Example C20_nonvacuous : safe_char 47 /\ ~ safe_char 34 /\ url_encode (str "x""<>'") = str "x%22%3C%3E%27".
Proof.
  split; [apply safeb_ok; reflexivity|]. split; [|vm_compute; reflexivity]. intros H. apply safeb_ok in H. vm_compute in H. discriminate.
Qed.

(** ** C21: decoding arbitrary text. *)
Theorem C21_decode_exact : forall l s, url_decode l = Ok s <-> exists r, pct_form l r /\ s = utf8_lossy r.
Proof. exact url_decode_spec. Qed.
Print Assumptions C21_decode_exact.
Theorem C21_decode_rejects : forall l, (forall s, ~ pct_form l s) <-> url_decode l = Err (EUrl UrlCodeInvalid).
Proof. exact url_decode_err. Qed.
Print Assumptions C21_decode_rejects.
Theorem C21_decode_plain : forall l, is_utf8 l -> ~ In 37 l -> url_decode l = Ok l.
Proof.
  intros l H1 H2. apply url_decode_spec. exists l. split; [apply pct_form_plain, H2|].
  symmetry. apply utf8_lossy_valid, utf8_valid_iff, H1.
Qed.
Print Assumptions C21_decode_plain.
Example C21_nonvacuous : url_decode (str "%e4%BD%a0+%41") = Ok ([228; 189; 160] ++ str "+A") /\
  url_decode (str "ab%4") = Err (EUrl UrlCodeInvalid) /\ url_decode (str "%G1x") = Err (EUrl UrlCodeInvalid).
Proof. repeat split; vm_compute; reflexivity. Qed.

(** ** C22: Display and parse. *)
Theorem C22_display_parse : forall u, legal_url u -> url_parse (url_print u) = Ok u.
Proof. exact url_print_parse. Qed.
Print Assumptions C22_display_parse.
(** Origin-form targets. *)
Theorem C22_origin_display_parse : forall u, legal_origin u -> url_parse (url_print u) = Ok u.
Proof. exact url_print_parse_origin. Qed.
Print Assumptions C22_origin_display_parse.
(** '?' and '@' in a path, '@' in a query and ':' in a password are data that
    Display does not escape: the text denotes another URL or none. *)
Theorem C22_path_query_refuted : exists p u', free_of [] p /\ hd_error p = Some 47 /\
  url_parse (url_print (mkUrl ScHttp p None None (Some (str "h")) (Some 80) None)) = Ok u' /\ u_path u' <> p.
Proof.
  exists (str "/a?b"). eexists. split; [|split; [reflexivity|split; [vm_compute; reflexivity|discriminate]]].
  split; [apply utf8_valid_iff; reflexivity|intros b _ H; exact H].
Qed.
Print Assumptions C22_path_query_refuted.
Theorem C22_at_in_path_refuted : exists p u', free_of [] p /\ hd_error p = Some 47 /\
  url_parse (url_print (mkUrl ScHttp p None None (Some (str "good")) (Some 80) None)) = Ok u' /\ u_domain u' = Some (str "evil").
Proof.
  exists (str "/@evil"). eexists. split; [|split; [reflexivity|split; [vm_compute; reflexivity|reflexivity]]].
  split; [apply utf8_valid_iff; reflexivity|intros b _ H; exact H].
Qed.
Print Assumptions C22_at_in_path_refuted.
Theorem C22_password_refuted : exists pw, free_of [] pw /\
  url_parse (url_print (mkUrl ScHttp (str "/") (Some (str "u")) (Some pw) (Some (str "h")) (Some 80) None)) = Err (EUrl UrlInvalid).
Proof.
  exists (str "a:b"). split; [|vm_compute; reflexivity].
  split; [apply utf8_valid_iff; reflexivity|intros b _ H; exact H].
Qed.
Print Assumptions C22_password_refuted.
Definition sample_url2 : url :=
  mkUrl (ScExt (str "svn+ssh")) (str "/a b/" ++ [195; 169]) (Some (str "me%")) (Some []) (Some (str "example.com")) (Some 8022) (Some (str "k=v?/:")).
Example C22_nonvacuous : legal_url sample_url2 /\
  url_print sample_url2 = str "svn+ssh://me%25:@example.com:8022/a%20b/%C3%A9?k=v?/:".
Proof.
  assert (F : forall cs s, utf8_valid s = true -> forallb (fun b => negb (existsb (N.eqb b) cs)) s = true -> free_of cs s).
  { intros cs s H1 H2. split; [apply utf8_valid_iff, H1|]. intros b Hb K. rewrite forallb_forall in H2. apply H2 in Hb.
    apply negb_true_iff in Hb. assert (X : existsb (N.eqb b) cs = true) by (apply existsb_exists; exists b; split; [exact K|apply N.eqb_refl]). congruence. }
  split; [|vm_compute; reflexivity]. unfold legal_url, sample_url2. cbn [u_scheme u_domain u_port u_user u_pass u_path u_query]. split.
  - apply (lg_ext 115 (str "vn+ssh")).
    + apply alpha_iff. reflexivity.
    + apply Forall_forall. intros x Hx. apply scheme_token_iff; cbn in Hx; repeat destruct Hx as [<-|Hx]; reflexivity || contradiction.
    + vm_compute. repeat constructor.
    + vm_compute. intuition discriminate.
  - split; [exists (str "example.com"); split; [reflexivity|]|].
    { apply (forallb_Forall_iff (fun b => partb b && negb (b =? 37))); [|vm_compute; reflexivity].
      intros b. unfold host_char. rewrite <- partb_ok, andb_true_iff, negb_true_iff, N.eqb_neq. tauto. }
    split; [exists 8022; split; [reflexivity|reflexivity]|].
    split; [right; exists (str "me%"), []; split; [reflexivity|split; [reflexivity|split; apply F; vm_compute; reflexivity]]|].
    split; [split; [reflexivity|apply F; vm_compute; reflexivity]|].
    right. exists (str "k=v?/:"). split; [reflexivity|apply F; vm_compute; reflexivity].
Qed.

(** ** C23: parsing arbitrary bytes. *)
Theorem C23_parse_total : forall l, url_parse l <> Panic /\ url_parse l <> Diverge.
Proof. exact url_parse_returns. Qed.
Print Assumptions C23_parse_total.
Theorem C23_parsed_url : forall l u, bytes_ok l -> url_parse l = Ok u ->
  (exists p, u_port u = Some p /\ p < 65536) /\ is_utf8 (scheme_str (u_scheme u)) /\ is_utf8 (u_path u) /\
  opt_utf8 (u_user u) /\ opt_utf8 (u_pass u) /\ opt_utf8 (u_domain u) /\ opt_utf8 (u_query u).
Proof. exact url_parse_facts. Qed.
Print Assumptions C23_parsed_url.
(** The texts that are accepted, exactly, with their meaning. *)
Theorem C23_parse_meaning : forall l u, bytes_ok l -> (url_parse l = Ok u <-> url_means l u).
Proof. exact url_means_iff. Qed.
Print Assumptions C23_parse_meaning.
(** The same for texts without '@', in fewer words (for
    origin-form targets '@' need not be excluded). *)
Theorem C23_parse_exact : forall l u, bytes_ok l -> (hd_error l = Some 47 \/ ~ In 64 l) ->
  (url_parse l = Ok u <-> url_form l u).
Proof. exact url_exact. Qed.
Print Assumptions C23_parse_exact.
(** The path starts with '/'. Missing for the full statement: absolute URLs with
    an '@' behind the authority, where it fails. *)
Theorem C23_path_partial : forall l u, bytes_ok l -> (hd_error l = Some 47 \/ ~ In 64 l) ->
  url_parse l = Ok u -> hd_error (u_path u) = Some 47.
Proof. exact url_path_slash. Qed.
Print Assumptions C23_path_partial.
Theorem C23_login_path_partial : forall s k r u, legal_scheme s -> logins k -> ~ In 64 r ->
  url_parse (scheme_str s ++ str "://" ++ k ++ r) = Ok u -> hd_error (u_path u) = Some 47 /\ u_domain u <> None.
Proof. exact login_path. Qed.
Print Assumptions C23_login_path_partial.
Theorem C23_path_refuted : exists l u, bytes_ok l /\ url_parse l = Ok u /\ u_path u = [].
Proof.
  exists (str "http://a/b@?"). eexists. split; [apply bytes_okb_ok; reflexivity|]. split; [vm_compute; reflexivity|reflexivity].
Qed.
Print Assumptions C23_path_refuted.
(** An '@' behind the authority moves the authority. *)
Theorem C23_authority_refuted : exists u, url_parse (str "http://good.example/a/@evil.example") = Ok u /\
  u_domain u = Some (str "evil.example") /\ u_user u = Some (str "good.example") /\ u_path u = str "/".
Proof. eexists. split; [vm_compute; reflexivity|]. split; [reflexivity|]. split; reflexivity. Qed.
Print Assumptions C23_authority_refuted.
(** With an '@' in the query an absolute URL has no host at all. *)
Theorem C23_no_host_refuted : exists u, url_parse (str "http://good.example/a?to=x@y") = Ok u /\
  u_domain u = None /\ u_user u = Some (str "good.example") /\ u_pass u = Some (str "to=x") /\ u_query u = Some (str "y").
Proof. eexists. split; [vm_compute; reflexivity|]. repeat split. Qed.
Print Assumptions C23_no_host_refuted.
(** Of several logins the last counts, and the others need not even be well-formed. *)
Theorem C23_logins_refuted : exists u, url_parse (str "http://%zz:%@me:pw@h/") = Ok u /\ u_user u = Some (str "me") /\ u_pass u = Some (str "pw") /\ u_domain u = Some (str "h").
Proof. eexists. split; [vm_compute; reflexivity|]. repeat split. Qed.
Print Assumptions C23_logins_refuted.
(** '?' directly behind the host is taken for the port separator. *)
Theorem C23_query_refuted : exists u, url_parse (str "http://host?8?0") = Ok u /\ u_port u = Some 80 /\ u_query u = None /\
  url_parse (str "http://host?q") = Err (EUrl UrlInvalid).
Proof. eexists. split; [vm_compute; reflexivity|]. split; [reflexivity|]. split; [reflexivity|vm_compute; reflexivity]. Qed.
Print Assumptions C23_query_refuted.
Example C23_meaning_nonvacuous :
  url_means (str "http://a:b@h:81/p?q") (mkUrl ScHttp (str "/p") (Some (str "a")) (Some (str "b")) (Some (str "h")) (Some 81) (Some (str "q"))) /\
  url_means (str "http://a/b@c?d") (mkUrl ScHttp (str "c") (Some (str "a")) (Some (str "/b")) None (Some 80) (Some (str "d"))) /\
  forall u, ~ url_means (str "http://a@b/") u.
Proof.
  split; [|split].
  1,2: apply url_means_iff; [apply bytes_okb_ok; reflexivity|vm_compute; reflexivity].
  intros u H. apply url_means_iff in H; [vm_compute in H; discriminate|apply bytes_okb_ok; reflexivity].
Qed.
Example C23_nonvacuous :
  url_parse (str "https://h%41:0080/x%20y?z") =
    Ok (mkUrl ScHttps (str "/x y") None None (Some (str "hA")) (Some 80) (Some (str "z"))) /\
  url_form (str "https://h%41:0080/x%20y?z") (mkUrl ScHttps (str "/x y") None None (Some (str "hA")) (Some 80) (Some (str "z"))).
Proof.
  assert (E : url_parse (str "https://h%41:0080/x%20y?z") =
    Ok (mkUrl ScHttps (str "/x y") None None (Some (str "hA")) (Some 80) (Some (str "z")))) by (vm_compute; reflexivity).
  split; [exact E|]. apply url_exact; [apply bytes_okb_ok; reflexivity| |exact E].
  right. intros H. vm_compute in H. intuition discriminate.
Qed.

(** ** C24: ports. *)
Theorem C24_default_port : forall s h pa p qq q n,
  legal_scheme s -> Forall host_char h -> path_part pa p -> query_part qq q -> (pa = [] -> qq = []) ->
  (In (s, n) default_ports \/ ((forall m, ~ In (s, m) default_ports) /\ n = 0)) ->
  url_parse (scheme_str s ++ str "://" ++ h ++ pa ++ qq) = Ok (mkUrl s p None None (Some h) (Some n) q).
Proof. exact url_default_port. Qed.
Print Assumptions C24_default_port.
Theorem C24_explicit_port : forall s h ds pa p qq q n,
  legal_scheme s -> Forall host_char h -> decimal ds n -> n < 65536 -> path_part pa p -> query_part qq q -> (pa = [] -> qq = []) ->
  url_parse (scheme_str s ++ str "://" ++ h ++ 58 :: ds ++ pa ++ qq) = Ok (mkUrl s p None None (Some h) (Some n) q).
Proof.
  intros s h ds pa p qq q n Hs Hh Hd Hn Hp Hq He. apply url_explicit_port; try assumption.
  - apply digits_part, Hd.
  - apply decimal_port; assumption.
Qed.
Print Assumptions C24_explicit_port.
Theorem C24_large_port : forall s h ds pa p qq q n,
  legal_scheme s -> Forall host_char h -> decimal ds n -> 65536 <= n -> path_part pa p -> query_part qq q -> (pa = [] -> qq = []) ->
  url_parse (scheme_str s ++ str "://" ++ h ++ 58 :: ds ++ pa ++ qq) = Err (EUrl UrlInvalid).
Proof.
  intros s h ds pa p qq q n Hs Hh Hd Hn Hp Hq He. eapply url_bad_port; try eassumption.
  - apply digits_part, Hd.
  - eapply decimal_port; eassumption.
Qed.
Print Assumptions C24_large_port.
(** Any other port text is rejected too, the empty one included. *)
Theorem C24_bad_port : forall s h t pa p qq q,
  legal_scheme s -> Forall host_char h -> Forall host_char t -> path_part pa p -> query_part qq q -> (pa = [] -> qq = []) ->
  (forall n, ~ port_text t n) ->
  url_parse (scheme_str s ++ str "://" ++ h ++ 58 :: t ++ pa ++ qq) = Err (EUrl UrlInvalid).
Proof. exact url_bad_port. Qed.
Print Assumptions C24_bad_port.
Theorem C24_connect_url : forall u d n, u_domain u = Some d -> u_port u = Some n ->
  url_connect u = Some (d ++ 58 :: dec_print n) /\ decimal (dec_print n) n.
Proof. intros u d n H1 H2. unfold url_connect. rewrite H1, H2. split; [reflexivity|apply dec_print_decimal]. Qed.
Print Assumptions C24_connect_url.
Example C24_nonvacuous :
  url_parse (str "wss://h") = Ok (mkUrl ScWss (str "/") None None (Some (str "h")) (Some 443) None) /\
  url_parse (str "ftp://h:65535/x") = Ok (mkUrl ScFtp (str "/x") None None (Some (str "h")) (Some 65535) None) /\
  url_parse (str "ftp://h:65536/x") = Err (EUrl UrlInvalid) /\
  ~ port_text [] 0 /\ url_parse (str "http://h:/") = Err (EUrl UrlInvalid).
Proof. split; [vm_compute; reflexivity|]. split; [vm_compute; reflexivity|]. split; [vm_compute; reflexivity|].
  split; [apply empty_port|vm_compute; reflexivity]. Qed.

(** ** C56: the Host header completes the URL of a request. *)
(** Every field name but "zscheme" is harmless; see below. *)
Theorem C56_host_completes_partial : forall q m t v hs hn hv d n u body,
  In m known_methods -> m <> MConnect -> In v known_versions -> word t -> hd_error t = Some 47 -> url_form t u ->
  Forall (fun nv => name_ok (fst nv) /\ value_ok (snd nv)) hs -> distinct_names hs ->
  In (hn, hv) hs -> fold_name hn = str "host" -> is_utf8 hv -> host_parts hv d n ->
  (forall n v, In (n, v) hs -> fold_name n <> str "zscheme") ->
  req_parse q (request_text (method_str m) t (version_str v) hs ++ body) =
    (mkReq m v (mkUrl ScHttp (u_path u) None None (Some d) (Some n) (u_query u)) hs false,
     Ok (blen (request_text (method_str m) t (version_str v) hs))).
Proof. exact host_header_url. Qed.
Print Assumptions C56_host_completes_partial.
(** "Zscheme" is taken for ":scheme", "Zauthority" for ":authority". *)
Theorem C56_other_names_refuted : exists q1 q2 n1 n2,
  req_parse req_default (str "GET / HTTP/1.1" ++ CRLF ++ str "Host: h" ++ CRLF ++ str "Zscheme: ftp" ++ CRLF ++ CRLF) = (q1, Ok n1) /\
  u_scheme (q_url q1) = ScFtp /\
  req_parse req_default (str "GET / HTTP/1.1" ++ CRLF ++ str "Zauthority: evil:1" ++ CRLF ++ CRLF) = (q2, Ok n2) /\
  u_domain (q_url q2) = Some (str "evil").
Proof.
  do 4 eexists. split; [vm_compute; reflexivity|]. split; [reflexivity|]. split; [vm_compute; reflexivity|reflexivity].
Qed.
Print Assumptions C56_other_names_refuted.
Definition host_fields : list (bytes * bytes) := [(str "Accept", str "*/*"); (str "hOsT", str "example.com:8080"); (str "X-Z", str "1")].
Example C56_nonvacuous : word (str "/a%20b?c") /\
  url_form (str "/a%20b?c") (mkUrl ScNone (str "/a b") None None None (Some 0) (Some (str "c"))) /\
  Forall (fun nv => name_ok (fst nv) /\ value_ok (snd nv)) host_fields /\ distinct_names host_fields /\
  In (str "hOsT", str "example.com:8080") host_fields /\ fold_name (str "hOsT") = str "host" /\
  is_utf8 (str "example.com:8080") /\ host_parts (str "example.com:8080") (str "example.com") 8080 /\
  (forall n v, In (n, v) host_fields -> fold_name n <> str "zscheme").
Proof.
  split; [split; [discriminate|apply (forallb_Forall_iff M_Helper.is_token); [apply P_Helper.token_vchar|vm_compute; reflexivity]]|].
  split; [apply url_exact; [apply bytes_okb_ok; reflexivity|left; reflexivity|vm_compute; reflexivity]|].
  split; [apply fields_okb_ok; reflexivity|]. split; [cbn; repeat split; repeat constructor|].
  split; [right; left; reflexivity|]. split; [reflexivity|]. split; [apply utf8_valid_iff; reflexivity|].
  split.
  - apply (hp_port (str "example.com") (str "8080") 8080); [vm_compute; intuition discriminate..|].
    apply parse_uint_spec. reflexivity.
  - intros n v H. cbn in H. destruct H as [H|[H|[H|H]]]; [injection H as <- <-; discriminate..|contradiction].
Qed.
