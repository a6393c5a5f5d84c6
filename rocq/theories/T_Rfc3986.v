(** C116: the URIs of RFC 3986, compared with Url::parse and with Display. *)
From Coq Require Import Ascii String NArith ZArith Lia Bool List.
From Verif Require Import Base S_Utf8 P_Base M_Header M_Url M_Http1 S_Http1 S_Http1Api S_Hex S_Url M_Std P_Msg P_Chunk P_UrlForm S_Rfc9112 S_Rfc3986 P_Rfc3986.
Import ListNotations.
Local Open Scope N_scope.

(** A URI without a fragment is parsed to what it means exactly if its scheme is not too long, and in lower case if known,
    its user information has exactly one ':', its host none, its port is there and below 65536, its escapes stand for
    UTF-8, there is no '@' behind the host and no query without a path. *)
Theorem C116_uri : forall r, uri_ok r -> ui_frag r = [] -> ((exists u, url_parse (uri_text r) = Ok u /\ uri_meant r u) <-> uri_readable r).
Proof. exact uri_exact. Qed.
Print Assumptions C116_uri.
(** A URI with a fragment is never parsed to what it means (the '#' stays in the path, the query, the host or the port),
    *)
Theorem C116_fragment_refuted : forall r u, uri_ok r -> ui_frag r <> [] -> ~ In 64 (ui_path r ++ ui_query r ++ ui_frag r) ->
  url_parse (uri_text r) = Ok u -> ~ uri_meant r u.
Proof. exact fragment_lost. Qed.
Print Assumptions C116_fragment_refuted.
(** except by accident, when there is an '@' in the fragment. *)
Definition read (s : string) : option (option bytes * option bytes * option bytes * option N * bytes * option bytes) :=
  match url_parse (str s) with Ok u => Some (u_user u, u_pass u, u_domain u, u_port u, u_path u, u_query u) | _ => None end.
Theorem C116_accident : read "http://a:%2F%23f@a/#f@a" = Some (Some (str "a"), Some (str "/#f"), Some (str "a"), Some 80, str "/", None).
Proof. vm_compute. reflexivity. Qed.
Print Assumptions C116_accident.
(** Display writes a URI that means the URL, if the host is one of RFC 3986; *)
Theorem C116_display : forall u d, legal_url u -> u_domain u = Some d -> uri_host d -> (forall x, u_scheme u = ScExt x -> ~ In (map lower_byte x) known_schemes) ->
  exists r, uri_ok r /\ ui_frag r = [] /\ uri_text r = url_print u /\ uri_meant r u.
Proof. exact display_uri. Qed.
Print Assumptions C116_display.
(** other hosts are written as they are, with characters that no URI has. *)
Theorem C116_host_refuted : exists u, legal_url u /\ url_print u = str "http://a<b/" /\ url_parse (str "http://a<b/") = Ok u /\
  forall r, uri_ok r -> uri_text r <> url_print u.
Proof.
  exists (mkUrl ScHttp (str "/") None None (Some (str "a<b")) (Some 80) None). split; [|split; [reflexivity|split; [vm_compute; reflexivity|]]].
  - unfold legal_url. cbn [u_scheme u_domain u_port u_user u_pass u_path u_query]. split; [constructor|]. split.
    { exists (str "a<b"). split; [reflexivity|]. change (str "a<b") with [97; 60; 98]. repeat (apply Forall_cons; [split; [split; [unfold vchar; lia|cbn; lia]|lia]|]). apply Forall_nil. }
    split; [exists 80; split; [reflexivity|lia]|]. split; [left; auto|]. split; [|left; reflexivity].
    split; [reflexivity|]. split; [apply utf8_valid_iff; reflexivity|]. intros b [<-|[]]. cbn. lia.
  - intros r K E. apply uri_chars in K. rewrite E in K. change (url_print _) with (str "http://" ++ [97; 60; 98; 47]) in K. apply Forall_app in K as [_ K].
    inversion K as [|? ? _ K2]; subst. inversion K2 as [|? ? K3 _]; subst. cbv beta in K3. lia.
Qed.
Print Assumptions C116_host_refuted.
(** What the crate makes of URIs that are not readable, and of fragments. *)
Theorem C116_unreadable_refuted :
  read "http://me@h/" = None /\
  read "http://a:b:c@h/" = None /\
  read "http://[::1]/" = None /\
  read "http://h:/" = None /\
  read "HTTP://h/" = Some (None, None, Some (str "h"), Some 0, str "/", None) /\
  read "http://h?q" = None /\
  read "http://h?8" = Some (None, None, Some (str "h"), Some 8, str "/", None) /\
  read "http://h/a@b" = Some (Some (str "h"), Some (str "/a"), Some (str "b"), Some 80, str "/", None) /\
  read "http://h/p?q#f" = Some (None, None, Some (str "h"), Some 80, str "/p", Some (str "q#f")) /\
  read "http://h/p#f" = Some (None, None, Some (str "h"), Some 80, str "/p#f", None) /\
  read "http://h#f" = Some (None, None, Some (str "h#f"), Some 80, str "/", None) /\
  read "http://h:8#f" = None.
Proof. repeat split; vm_compute; reflexivity. Qed.
Print Assumptions C116_unreadable_refuted.
(** The conditions are met. *)
Definition full := mkUri (str "https") (str "u%3A:p@") (str "h.x") (str ":8443") (str "/a%20b/") (str "?c=/?") [].
Ltac pct :=
  repeat first [ apply pt_nil | apply pt_esc; [eexists; apply hexv_spec; reflexivity|eexists; apply hexv_spec; reflexivity|]
               | apply pt_char; [first [solve [unfold pchar, unreserved, sub_delim, alpha, upper, lower, digit; cbn; lia] ]|] ].
Ltac text := match goal with |- text_there ?l => let x := eval vm_compute in l in change (text_there x) end;
  eexists; split; [repeat first [apply pf_nil | apply pf_esc; [apply hexv_spec; reflexivity|apply hexv_spec; reflexivity|] | apply pf_char; [discriminate|]]|
  apply utf8_valid_iff; vm_compute; reflexivity].
Example C116_full_ok : uri_ok full.
Proof.
  unfold uri_ok, full; cbn [ui_scheme ui_user ui_host ui_port ui_path ui_query ui_frag].
  split. { change (str "https") with (104 :: [116; 116; 112; 115]). constructor; [unfold alpha, upper, lower; lia|]. repeat (apply Forall_cons; [left; unfold alpha, upper, lower; lia|]). apply Forall_nil. }
  split. { change (str "u%3A:p@") with ([117; 37; 51; 65; 58; 112] ++ [64]). constructor. pct. }
  split. { left. change (str "h.x") with [104; 46; 120]. unfold reg_name. pct. }
  split. { change (str ":8443") with (58 :: [56; 52; 52; 51]). constructor. repeat (apply Forall_cons; [unfold digit; lia|]). apply Forall_nil. }
  split. { right. change (str "/a%20b/") with (47 :: [97; 37; 50; 48; 98; 47]). constructor. pct. }
  split. { change (str "?c=/?") with (63 :: [99; 61; 47; 63]). constructor. pct. }
  constructor.
Qed.
Example C116_full_read : exists u, url_parse (uri_text full) = Ok u /\ uri_meant full u.
Proof.
  apply (C116_uri full C116_full_ok eq_refl). unfold uri_readable, full; cbn [ui_scheme ui_user ui_host ui_port ui_path ui_query ui_frag].
  split; [cbn; lia|]. split; [intros _; cbn; auto|].
  split. { right. exists (str "u%3A"), (str "p"). split; [reflexivity|]. split; [cbn; lia|]. split; text. }
  split; [text|]. split; [cbn; lia|]. split. { right. exists (str "8443"). split; [reflexivity|]. split; [discriminate|reflexivity]. }
  split; [text|]. split. { intros y E. injection E as <-. text. } split; [cbn; lia|]. discriminate.
Qed.
Example C116_full_url : read "https://u%3A:p@h.x:8443/a%20b/?c=/?" = Some (Some (str "u:"), Some (str "p"), Some (str "h.x"), Some 8443, str "/a b/", Some (str "c=/?")).
Proof. vm_compute. reflexivity. Qed.
