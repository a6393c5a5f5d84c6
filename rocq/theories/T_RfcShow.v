(** C121: what a URL shows is a URI of RFC 3986 that means it. *)
From Coq Require Import Ascii String NArith ZArith Lia Bool List.
From Verif Require Import Base S_Utf8 P_Base M_Url S_Http1 S_Http1Api S_Hex S_Url S_Exact S_Rfc9112 S_Rfc3986 S_RfcShow P_RfcShow.
Import ListNotations.
Local Open Scope N_scope.

(** The text of a URL is a URI that means the URL exactly when it has a scheme, a host that stands for itself, a port and an
    absolute path, when user and password are both there or both not, and when none of the delimiters that are never
    escaped stands where it would end its part. *)
Theorem C121_display : forall u, utf8_url u -> (shows u (url_print u) <-> url_plain u).
Proof. exact shows_exactly. Qed.
Print Assumptions C121_display.
(** The same for the authority, and for the authority with a port that CONNECT uses. *)
Theorem C121_authority : forall u, shows_authority u (url_authority u) <-> authority_plain u.
Proof. exact authority_exactly. Qed.
Print Assumptions C121_authority.
Theorem C121_connect : forall u w, url_connect u = Some w -> (shows_authority u w <-> exists d, u_domain u = Some d /\ host_plain d).
Proof. exact connect_exactly. Qed.
Print Assumptions C121_connect.
(** The grammar of RFC 3986 reads a text in one way, so that a text shows one URL, *)
Theorem C121_one_uri : forall r r', uri_ok r -> uri_ok r' -> uri_text r = uri_text r' -> r = r'.
Proof. exact uri_unique. Qed.
Print Assumptions C121_one_uri.
Theorem C121_one_url : forall u v w, shows u w -> shows v w -> same_url u v.
Proof. exact shows_unique. Qed.
Print Assumptions C121_one_url.
(** and different URLs of that kind show different texts. *)
Theorem C121_injective : forall u v, utf8_url u -> utf8_url v -> url_plain u -> url_plain v -> url_print u = url_print v -> u = v.
Proof. exact plain_injective. Qed.
Print Assumptions C121_injective.

(** *** What is shown otherwise *)
Lemma utf8b s : utf8_valid s = true -> is_utf8 s.
Proof. intros H. apply utf8_valid_iff, H. Qed.
Ltac not_in := let c := fresh "c" in let I := fresh "I" in let C := fresh "C" in
  intros c I C; cbn in I, C; repeat (destruct I as [<-|I]; [exfalso; repeat (destruct C as [C|C]; [discriminate C|]); exact C|]); exact I.
Ltac is_host := split; [left; repeat (apply pt_char; [left; unfold unreserved, alpha, upper, lower, digit; cbn; lia|]); apply pt_nil|
  cbn; let I := fresh "I" in intros I; repeat (destruct I as [I|I]; [discriminate I|]); exact I].
Ltac is_name b t := apply (sn_intro b t); [unfold alpha, lower; lia|repeat (apply Forall_cons; [unfold alpha, lower; cbn; lia|]); apply Forall_nil].
Ltac is_utf8_url := repeat split; cbn; try exact I; apply utf8b; vm_compute; reflexivity.
Definition plain_url (d pa : bytes) (us pw qu : option bytes) : url := mkUrl ScHttp pa us pw (Some d) (Some 80) qu.
(** '?' is not escaped in a path: what is shown is another path with a query. *)
Theorem C121_mark_refuted : exists u v, utf8_url u /\ url_print u = str "http://h/a?b" /\ shows v (url_print u) /\
  u_path u = str "/a?b" /\ u_query u = None /\ u_path v = str "/a" /\ u_query v = Some (str "b").
Proof.
  set (u := plain_url (str "h") (str "/a?b") None None None). set (v := plain_url (str "h") (str "/a") None None (Some (str "b"))).
  exists u, v. split; [is_utf8_url|]. split; [vm_compute; reflexivity|]. split; [|repeat split].
  replace (url_print u) with (url_print v) by (vm_compute; reflexivity). apply shows_exactly; [is_utf8_url|].
  split; [is_name 104 (str "ttp")|]. split; [discriminate|]. split; [left; auto|]. split; [exists (str "h"); split; [reflexivity|is_host]|].
  split; [exists 80; split; [reflexivity|lia]|]. split; [reflexivity|not_in].
Qed.
Print Assumptions C121_mark_refuted.
(** '/' is not escaped in a user: what is shown is a URL of another host. *)
Theorem C121_user_refuted : exists u v, utf8_url u /\ url_print u = str "http://evil/x:y@good/" /\ shows v (url_print u) /\
  u_domain u = Some (str "good") /\ u_user u = Some (str "evil/x") /\ u_domain v = Some (str "evil") /\ u_user v = None.
Proof.
  set (u := plain_url (str "good") (str "/") (Some (str "evil/x")) (Some (str "y")) None). set (v := plain_url (str "evil") (str "/x:y@good/") None None None).
  exists u, v. split; [is_utf8_url|]. split; [vm_compute; reflexivity|]. split; [|repeat split].
  replace (url_print u) with (url_print v) by (vm_compute; reflexivity). apply shows_exactly; [is_utf8_url|].
  split; [is_name 104 (str "ttp")|]. split; [discriminate|]. split; [left; auto|]. split; [exists (str "evil"); split; [reflexivity|is_host]|].
  split; [exists 80; split; [reflexivity|lia]|]. split; [reflexivity|not_in].
Qed.
Print Assumptions C121_user_refuted.
(** A user without a password is shown as one with an empty password. *)
Theorem C121_password_refuted : exists u v, utf8_url u /\ url_print u = str "http://me:@h/" /\ shows v (url_print u) /\
  u_user u = Some (str "me") /\ u_pass u = None /\ u_user v = Some (str "me") /\ u_pass v = Some [].
Proof.
  set (u := plain_url (str "h") (str "/") (Some (str "me")) None None). set (v := plain_url (str "h") (str "/") (Some (str "me")) (Some []) None).
  exists u, v. split; [is_utf8_url|]. split; [vm_compute; reflexivity|]. split; [|repeat split].
  replace (url_print u) with (url_print v) by (vm_compute; reflexivity). apply shows_exactly; [is_utf8_url|].
  split; [is_name 104 (str "ttp")|]. split; [discriminate|]. split; [right; exists (str "me"), []; split; [reflexivity|split; [reflexivity|split; not_in]]|].
  split; [exists (str "h"); split; [reflexivity|is_host]|].
  split; [exists 80; split; [reflexivity|lia]|]. split; [reflexivity|not_in].
Qed.
Print Assumptions C121_password_refuted.
(** The host is not escaped, so that an escape in it is read as one, *)
Theorem C121_host_refuted : exists u v, utf8_url u /\ url_print u = str "http://a%41/" /\ shows v (url_print u) /\
  u_domain u = Some (str "a%41") /\ u_domain v = Some (str "aA").
Proof.
  set (u := plain_url (str "a%41") (str "/") None None None). set (v := plain_url (str "aA") (str "/") None None None).
  exists u, v. split; [is_utf8_url|]. split; [vm_compute; reflexivity|]. split; [|repeat split].
  exists (mkUri (str "http") [] (str "a%41") [] (str "/") [] []). split; [|split; [vm_compute; reflexivity|]].
  - split; [is_name 104 (str "ttp")|]. split; [apply uo_none|]. split.
    { left. apply pt_char; [left; unfold unreserved, alpha, upper, lower, digit; cbn; lia|]. apply pt_esc; [exists 4; left; reflexivity|exists 1; left; reflexivity|apply pt_nil]. }
    split; [apply po_none|]. split; [right; apply (ap_intro []); apply pt_nil|]. split; [apply qt_none|apply fo_none].
  - split; [split; [reflexivity|discriminate]|]. split; [left; auto|]. split.
    { exists (str "aA"). split; [|reflexivity]. split; [|apply utf8b; reflexivity]. apply pf_char; [discriminate|]. apply (pf_esc 52 4 49 1); [left; reflexivity|left; reflexivity|apply pf_nil]. }
    split; [exists 80, 80; split; [left; cbn; auto|]; split; [reflexivity|split; [lia|reflexivity]]|]. split; [|reflexivity].
    split; [apply pf_char; [discriminate|apply pf_nil]|apply utf8b; reflexivity].
Qed.
Print Assumptions C121_host_refuted.
(** and without a scheme the port is left out, while a URL without a path, or with a path that does not start with '/', shows
    no URI that means it. *)
Theorem C121_port_refuted : exists u, url_authority u = str "h" /\ u_port u = Some 8080 /\ ~ shows_authority u (url_authority u).
Proof.
  exists (mkUrl ScNone (str "/") None None (Some (str "h")) (Some 8080) None). split; [vm_compute; reflexivity|]. split; [reflexivity|].
  intros S. apply authority_exactly in S as (_ & n & E & Z). specialize (Z eq_refl). cbn in E. congruence.
Qed.
Print Assumptions C121_port_refuted.
Theorem C121_path_refuted : forall u, utf8_url u -> hd_error (u_path u) <> Some 47 -> ~ shows u (url_print u).
Proof. intros u U P S. apply shows_exactly in S; [|exact U]. destruct S as (_ & _ & _ & _ & _ & S & _). exact (P S). Qed.
Print Assumptions C121_path_refuted.

(** *** Non-vacuity *)
Definition shown : url := mkUrl ScHttps (str "/a b/@c") (Some (str "me")) (Some (str "x:y")) (Some (str "www.example.com")) (Some 8443) (Some (str "k=v?&z")).
Example C121_utf8_met : utf8_url shown.
Proof. is_utf8_url. Qed.
Example C121_plain_met : url_plain shown.
Proof.
  assert (HH : host_plain (str "www.example.com")).
  { split; [left|cbn; intros I; repeat (destruct I as [I|I]; [discriminate I|]); exact I].
    repeat (apply pt_char; [left; unfold unreserved, alpha, upper, lower, digit; cbn; lia|]). apply pt_nil. }
  split; [apply (sn_intro 104 (str "ttps")); [unfold alpha, lower; lia|repeat (apply Forall_cons; [unfold alpha, lower; cbn; lia|]); apply Forall_nil]|].
  split; [discriminate|]. split; [right; exists (str "me"), (str "x:y"); split; [reflexivity|split; [reflexivity|split; not_in]]|].
  split; [exists (str "www.example.com"); split; [reflexivity|exact HH]|]. split; [exists 8443; split; [reflexivity|lia]|]. split; [reflexivity|not_in].
Qed.
Example C121_text : url_print shown = str "https://me:x:y@www.example.com:8443/a%20b/@c?k=v?&z".
Proof. vm_compute. reflexivity. Qed.
