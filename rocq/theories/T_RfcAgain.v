(** C126: a URL that is parsed and shown again. *)
From Coq Require Import Ascii String NArith ZArith Lia Bool List.
From Verif Require Import Base S_Utf8 P_Base M_Url S_Http1 S_Http1Api S_Hex P_Chunk P_Helper S_Url P_Url P_UrlExact S_Exact S_Rfc9112 S_Rfc3986 P_Rfc3986 S_RfcShow P_RfcShow S_RfcAgain P_RfcAgain.
Import ListNotations.
Local Open Scope N_scope.

(** A URI that is parsed as what it means, shown again, means the same to every reader of RFC 3986 exactly if its host says nothing but
    characters of hosts, its user has none of ':', '@', '/' and '?', its password none of '@', '/' and '?', and its path no '?', all of
    which can only be there escaped. *)
Theorem C126_shown : forall r u, uri_ok r -> ui_frag r = [] -> url_parse (uri_text r) = Ok u -> uri_meant r u -> (shows u (url_print u) <-> shown_same r).
Proof. exact shown_again. Qed.
Print Assumptions C126_shown.
(** It is parsed to the same URL again exactly if its host says only visible ASCII characters other than ':', '@', '/', '?' and '%', user and
    password have none of ':', '@', '/' and '?', the path neither '@' nor '?', and the query no '@'. *)
Theorem C126_parsed : forall r u, uri_ok r -> ui_frag r = [] -> url_parse (uri_text r) = Ok u -> uri_meant r u -> (url_parse (url_print u) = Ok u <-> parsed_same r).
Proof. exact parsed_again. Qed.
Print Assumptions C126_parsed.
(** And so for any text that is parsed, a URI or not. *)
Theorem C126_any : forall w u, bytes_ok w -> url_parse w = Ok u ->
  (url_parse (url_print u) = Ok u <-> legal_url u \/ legal_origin u) /\ (shows u (url_print u) <-> url_plain u).
Proof. intros w u B U. pose proof (utf8_url_ok w u B U) as U8. split; [apply print_parse_iff, U8|apply shows_exactly, U8]. Qed.
Print Assumptions C126_any.

(** *** Hosts that change *)
Ltac pct :=
  repeat first [ apply pt_nil | apply pt_esc; [eexists; apply hexv_spec; reflexivity|eexists; apply hexv_spec; reflexivity|]
               | apply pt_char; [first [solve [unfold pchar, unreserved, sub_delim, alpha, upper, lower, digit; cbn; lia] ]|] ].
Ltac says := split; [repeat first [apply pf_nil | apply pf_char; [discriminate|] | eapply pf_esc; [apply hexv_spec; reflexivity|apply hexv_spec; reflexivity|]]|apply utf8_valid_iff; reflexivity].
Ltac is_http := apply (sn_intro 104 (str "ttp")); [unfold alpha, lower; lia|repeat (apply Forall_cons; [unfold alpha, lower; cbn; lia|]); apply Forall_nil].
Definition web (d pa : bytes) (us pw qu : option bytes) : url := mkUrl ScHttp pa us pw (Some d) (Some 80) qu.
Lemma web_port r d pa us pw qu : ui_port r = [] ->
  exists n0 n, own_port (u_scheme (web d pa us pw qu)) n0 /\ port_meant n0 (ui_port r) n /\ n < 65536 /\ u_port (web d pa us pw qu) = Some n.
Proof. intros E. exists 80, 80. split; [left; cbn; auto|]. rewrite E. split; [reflexivity|]. split; [reflexivity|reflexivity]. Qed.
Lemma web_scheme d pa us pw qu : scheme_meant (str "http") (u_scheme (web d pa us pw qu)).
Proof. split; [reflexivity|discriminate]. Qed.

(** An '@' that is escaped in a path: to others the URL that is shown is the same, but the crate, parsing it again, finds another host. *)
Theorem C126_at_refuted : exists w u v, w = str "http://good/%40evil" /\ shows u w /\ url_parse w = Ok u /\ u_domain u = Some (str "good") /\
  url_print u = str "http://good/@evil" /\ shows u (url_print u) /\ url_parse (url_print u) = Ok v /\ u_domain v = Some (str "evil").
Proof.
  exists (str "http://good/%40evil"), (web (str "good") (str "/@evil") None None None). eexists. split; [reflexivity|].
  assert (H : uri_host (str "good")) by (left; change (str "good") with [103; 111; 111; 100]; unfold reg_name; pct).
  assert (S : forall p, abs_path p -> text_of p (str "/@evil") -> shows (web (str "good") (str "/@evil") None None None) (str "http://good" ++ p)).
  { intros p P T. exists (mkUri (str "http") [] (str "good") [] p [] []). split; [|split].
    - split; [is_http|]. split; [apply uo_none|]. split; [exact H|]. split; [apply po_none|]. split; [right; exact P|]. split; [apply qt_none|apply fo_none].
    - unfold uri_text. cbn [ui_scheme ui_user ui_host ui_port ui_path ui_query ui_frag]. rewrite !app_nil_r. reflexivity.
    - split; [apply web_scheme|]. split; [left; auto|]. split; [exists (str "good"); split; [says|reflexivity]|]. split; [apply web_port; reflexivity|].
      split; [|reflexivity]. unfold path_meant. cbn [ui_path]. destruct P as [p P]. exact T. }
  split; [|split; [vm_compute; reflexivity|split; [reflexivity|split; [vm_compute; reflexivity|split; [|split; [vm_compute; reflexivity|reflexivity]]]]]].
  - change (str "http://good/%40evil") with (str "http://good" ++ str "/%40evil"). apply S.
    + change (str "/%40evil") with (47 :: [37; 52; 48; 101; 118; 105; 108]). constructor. pct.
    + change (str "/%40evil") with [47; 37; 52; 48; 101; 118; 105; 108]. change (str "/@evil") with [47; 16 * 4 + 0; 101; 118; 105; 108]. says.
  - replace (url_print _) with (str "http://good" ++ str "/@evil") by (vm_compute; reflexivity). apply S.
    + change (str "/@evil") with (47 :: [64; 101; 118; 105; 108]). constructor. pct.
    + change (str "/@evil") with [47; 64; 101; 118; 105; 108]. says.
Qed.
Print Assumptions C126_at_refuted.
(** A '/' that is escaped in the user, or in the host: what is shown is a URL of another host to every reader of RFC 3986. *)
Lemma web_shows d pa : host_plain d -> hd_error pa = Some 47 -> none_of (str "?") pa -> is_utf8 pa -> is_utf8 d -> shows (web d pa None None None) (url_print (web d pa None None None)).
Proof.
  intros H P N U D. apply shows_exactly.
  - split; [apply utf8_valid_iff; reflexivity|]. cbn. auto 10.
  - split; [is_http|]. split; [discriminate|]. split; [left; auto|]. split; [exists d; auto|]. split; [exists 80; split; [reflexivity|reflexivity]|]. auto.
Qed.
Ltac is_host := split; [left; repeat (apply pt_char; [left; unfold unreserved, alpha, upper, lower, digit; cbn; lia|]); apply pt_nil|
  cbn; let I := fresh "I" in intros I; repeat (destruct I as [I|I]; [discriminate I|]); exact I].
Ltac not_in := let c := fresh "c" in let I := fresh "I" in let C := fresh "C" in
  intros c I C; cbn in I, C; repeat (destruct I as [<-|I]; [exfalso; repeat (destruct C as [C|C]; [discriminate C|]); exact C|]); exact I.
Theorem C126_user_refuted : exists w u v, w = str "http://evil%2Fx:y@good/" /\ shows u w /\ url_parse w = Ok u /\ u_domain u = Some (str "good") /\
  url_print u = str "http://evil/x:y@good/" /\ shows v (url_print u) /\ u_domain v = Some (str "evil").
Proof.
  exists (str "http://evil%2Fx:y@good/"), (web (str "good") (str "/") (Some (str "evil/x")) (Some (str "y")) None), (web (str "evil") (str "/x:y@good/") None None None). split; [reflexivity|].
  split; [|split; [vm_compute; reflexivity|split; [reflexivity|split; [vm_compute; reflexivity|split; [|reflexivity]]]]].
  - exists (mkUri (str "http") (str "evil%2Fx:y@") (str "good") [] (str "/") [] []). split; [|split; [reflexivity|]].
    + split; [is_http|]. split; [change (str "evil%2Fx:y@") with ([101; 118; 105; 108; 37; 50; 70; 120; 58; 121] ++ [64]); constructor; pct|].
      split; [left; change (str "good") with [103; 111; 111; 100]; unfold reg_name; cbn [ui_host]; pct|]. split; [apply po_none|]. split; [right; apply (ap_intro []); apply pt_nil|]. split; [apply qt_none|apply fo_none].
    + split; [apply web_scheme|]. split.
      { right. right. exists (str "evil%2Fx"), (str "y"), (str "evil/x"), (str "y"). split; [reflexivity|]. split; [cbn; lia|]. split; [|split; [says|auto]].
        change (str "evil%2Fx") with [101; 118; 105; 108; 37; 50; 70; 120]. change (str "evil/x") with [101; 118; 105; 108; 16 * 2 + 15; 120]. says. }
      split; [exists (str "good"); split; [says|reflexivity]|]. split; [apply web_port; reflexivity|]. split; [|reflexivity]. unfold path_meant. cbn [ui_path web u_path]. says.
  - replace (url_print _) with (url_print (web (str "evil") (str "/x:y@good/") None None None)) by (vm_compute; reflexivity).
    apply web_shows; [is_host|reflexivity|not_in|apply utf8_valid_iff; reflexivity|apply utf8_valid_iff; reflexivity].
Qed.
Print Assumptions C126_user_refuted.
Theorem C126_host_refuted : exists w u v, w = str "http://evil%2F.good/" /\ shows u w /\ url_parse w = Ok u /\ u_domain u = Some (str "evil/.good") /\
  url_print u = str "http://evil/.good/" /\ shows v (url_print u) /\ url_parse (url_print u) = Ok v /\ u_domain v = Some (str "evil").
Proof.
  exists (str "http://evil%2F.good/"), (web (str "evil/.good") (str "/") None None None), (web (str "evil") (str "/.good/") None None None). split; [reflexivity|].
  split; [|split; [vm_compute; reflexivity|split; [reflexivity|split; [vm_compute; reflexivity|split; [|split; [vm_compute; reflexivity|reflexivity]]]]]].
  - exists (mkUri (str "http") [] (str "evil%2F.good") [] (str "/") [] []). split; [|split; [reflexivity|]].
    + split; [is_http|]. split; [apply uo_none|]. split; [left; change (str "evil%2F.good") with [101; 118; 105; 108; 37; 50; 70; 46; 103; 111; 111; 100]; unfold reg_name; cbn [ui_host]; pct|].
      split; [apply po_none|]. split; [right; apply (ap_intro []); apply pt_nil|]. split; [apply qt_none|apply fo_none].
    + split; [apply web_scheme|]. split; [left; auto|]. split.
      { exists (str "evil/.good"). split; [|reflexivity]. cbn [ui_host]. change (str "evil%2F.good") with [101; 118; 105; 108; 37; 50; 70; 46; 103; 111; 111; 100].
        change (str "evil/.good") with [101; 118; 105; 108; 16 * 2 + 15; 46; 103; 111; 111; 100]. says. }
      split; [apply web_port; reflexivity|]. split; [|reflexivity]. unfold path_meant. cbn [ui_path web u_path]. says.
  - replace (url_print _) with (url_print (web (str "evil") (str "/.good/") None None None)) by (vm_compute; reflexivity).
    apply web_shows; [is_host|reflexivity|not_in|apply utf8_valid_iff; reflexivity|apply utf8_valid_iff; reflexivity].
Qed.
Print Assumptions C126_host_refuted.

(** A URI with escapes in all its parts that stays the same both ways. *)
Definition again_uri : uri := mkUri (str "http") (str "me:p%20w@") (str "h%41") [] (str "/a%20b") (str "?x=%20") [].
Definition again_url : url := web (str "hA") (str "/a b") (Some (str "me")) (Some (str "p w")) (Some (str "x= ")).
Lemma again_met : uri_ok again_uri /\ ui_frag again_uri = [] /\ url_parse (uri_text again_uri) = Ok again_url /\ uri_meant again_uri again_url.
Proof.
  split; [|split; [reflexivity|split; [vm_compute; reflexivity|]]].
  - split; [is_http|]. split; [change (ui_user again_uri) with ([109; 101; 58; 112; 37; 50; 48; 119] ++ [64]); constructor; pct|].
    split; [left; change (ui_host again_uri) with [104; 37; 52; 49]; unfold reg_name; pct|]. split; [apply po_none|].
    split; [right; change (ui_path again_uri) with (47 :: [97; 37; 50; 48; 98]); constructor; pct|]. split; [change (ui_query again_uri) with (63 :: [120; 61; 37; 50; 48]); constructor; pct|apply fo_none].
  - split; [apply web_scheme|]. split.
    { right. right. exists (str "me"), (str "p%20w"), (str "me"), (str "p w"). split; [reflexivity|]. split; [cbn; lia|]. split; [says|]. split; [|auto].
      change (str "p%20w") with [112; 37; 50; 48; 119]. change (str "p w") with [112; 16 * 2 + 0; 119]. says. }
    split; [exists (str "hA"); split; [|reflexivity]; change (ui_host again_uri) with [104; 37; 52; 49]; change (str "hA") with [104; 16 * 4 + 1]; says|].
    split; [apply web_port; reflexivity|]. split.
    + unfold path_meant. change (text_of [47; 97; 37; 50; 48; 98] [47; 97; 16 * 2 + 0; 98]). says.
    + exists (str "x= "). split; [|reflexivity]. change (text_of [120; 61; 37; 50; 48] [120; 61; 16 * 2 + 0]). says.
Qed.
Example C126_parsed_met : parsed_same again_uri.
Proof. destruct again_met as (A & B & C & D). apply (C126_parsed again_uri again_url A B C D). vm_compute. reflexivity. Qed.
Example C126_shown_met : shown_same again_uri.
Proof.
  destruct again_met as (A & B & C & D). apply (C126_shown again_uri again_url A B C D). apply shows_exactly; [exact (meant_utf8 _ _ A B C)|].
  split; [is_http|]. split; [discriminate|]. split; [right; exists (str "me"), (str "p w"); split; [reflexivity|split; [reflexivity|split; not_in]]|].
  split; [exists (str "hA"); split; [reflexivity|is_host]|]. split; [exists 80; split; [reflexivity|lia]|]. split; [reflexivity|not_in].
Qed.
