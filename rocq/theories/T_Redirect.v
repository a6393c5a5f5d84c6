(** C133: references (as in redirects), and what merging them into a URL gives. *)
From Coq Require Import Ascii String NArith ZArith Lia Bool List ZifyBool ZifyNat ZifyN.
From Verif Require Import Base P_Base M_Url S_Http1 S_Http1Api S_Hex S_Url S_Rfc9112 S_Rfc3986 T_Rfc3986 S_Redirect P_Redirect.
Import ListNotations.
Local Open Scope N_scope.

(** The URL [u] of the base URI, with the parsed reference merged into it, is the URL of what RFC 3986 resolves the reference to - for a
    reference that begins with one '/', exactly if it is read (no '@', escapes of UTF-8), it has no segment "." or "..", it leads to "/" only from there,
    and it has a query if the base has one. *)
Theorem C133_path : forall b u p q, uri_ok b -> uri_meant b u -> reference_ok (RAbs p q) ->
  ((exists v, url_parse (reference_text (RAbs p q)) = Ok v /\ uri_meant (resolve b (RAbs p q)) (url_merge u v)) <->
   ~ In 64 (p ++ q) /\ text_there p /\ (forall y, q = 63 :: y -> text_there y) /\ ~ dot_segments p /\ (p = str "/" -> root (ui_path b)) /\ (q = [] -> ui_query b = [])).
Proof. exact absolute_path_reference. Qed.
Print Assumptions C133_path.
(** For a URI that is read as it is meant (C116), exactly if moreover it has user information if the base has it, and it has a port or the base has none. *)
Theorem C133_uri : forall b u r v, uri_ok b -> uri_meant b u -> reference_ok (RUri r) -> uri_readable r -> url_parse (reference_text (RUri r)) = Ok v ->
  (uri_meant (resolve b (RUri r)) (url_merge u v) <->
   (ui_user r = [] -> ui_user b = []) /\ (u_port v = Some 0 -> u_port u = Some 0) /\ ~ dot_segments (ui_path r) /\
   (root (ui_path r) -> root (ui_path b)) /\ (ui_query r = [] -> ui_query b = [])).
Proof. exact uri_reference. Qed.
Print Assumptions C133_uri.
(** "//host/path" is taken for a path at the host of the base, never for what it means; *)
Theorem C133_network_refuted : forall b u k h po p q v, reference_ok (RNet k h po p q) -> url_parse (reference_text (RNet k h po p q)) = Ok v ->
  (exists s, text_of (str "//" ++ k ++ h ++ po ++ p) s /\ u_path (url_merge u v) = s) /\ u_domain (url_merge u v) = u_domain u /\
  ~ uri_meant (resolve b (RNet k h po p q)) (url_merge u v).
Proof. exact network_reference. Qed.
Print Assumptions C133_network_refuted.
(** and no relative path, query alone or empty reference is read. *)
Theorem C133_relative_refuted : forall r v, reference_ok r -> (exists p q, r = RRel p q) \/ (exists q, r = RSame q) -> url_parse (reference_text r) <> Ok v.
Proof. exact relative_reference. Qed.
Print Assumptions C133_relative_refuted.
(** So a redirect to another path, or to another server, takes the query along, with what is secret in it. *)
Theorem C133_secret_refuted : exists u v w, url_parse (str "http://h/reset?token=1") = Ok u /\ url_parse (str "http://other/welcome") = Ok v /\ url_parse (str "/welcome") = Ok w /\
  url_print (url_merge u v) = str "http://other/welcome?token=1" /\ url_print (url_merge u w) = str "http://h/welcome?token=1".
Proof. do 3 eexists. split; [vm_compute; reflexivity|]. split; [vm_compute; reflexivity|]. split; [vm_compute; reflexivity|]. split; vm_compute; reflexivity. Qed.
Print Assumptions C133_secret_refuted.

(** The examples of RFC 3986, 5.2.4 and 5.4. *)
Example C133_dots : remove_dots (str "/a/b/c/./../../g") = str "/a/g" /\ remove_dots (str "mid/content=5/../6") = str "mid/6" /\ remove_dots (str "/./g") = str "/g" /\
  remove_dots (str "/../g") = str "/g" /\ remove_dots (str "/b/c/g.") = str "/b/c/g." /\ remove_dots (str "/b/c/..g") = str "/b/c/..g".
Proof. vm_compute. repeat split. Qed.
Definition rfc_base : uri := mkUri (str "http") [] (str "a") [] (str "/b/c/d;p") (str "?q") [].
Example C133_resolved : map (fun r => uri_text (resolve rfc_base r))
    [RRel (str "g") []; RRel (str "./g") []; RRel (str "g/") []; RAbs (str "/g") []; RNet [] (str "g") [] [] []; RSame (str "?y"); RRel (str "g") (str "?y"); RSame [];
     RRel (str ".") []; RRel (str "..") []; RRel (str "../g") []; RRel (str "../../..") []; RRel (str "../../../g") []; RRel (str "g;x=1/../y") []] =
  map str ["http://a/b/c/g"; "http://a/b/c/g"; "http://a/b/c/g/"; "http://a/g"; "http://g"; "http://a/b/c/d;p?y"; "http://a/b/c/g?y"; "http://a/b/c/d;p?q";
     "http://a/b/c/"; "http://a/b/"; "http://a/b/g"; "http://a/"; "http://a/g"; "http://a/b/c/y"]%string.
Proof. vm_compute. reflexivity. Qed.
(** Non-vacuity. *)
Definition other_path : reference := RAbs (str "/x/y.z") (str "?w").
Example C133_met : reference_ok other_path /\ exists u v, url_parse (uri_text full) = Ok u /\ uri_meant full u /\ url_parse (reference_text other_path) = Ok v /\
  uri_meant (resolve full other_path) (url_merge u v) /\ u_path (url_merge u v) = str "/x/y.z" /\ u_query (url_merge u v) = Some (str "w").
Proof.
  assert (OK : reference_ok other_path).
  { split; [change (str "/x/y.z") with (47 :: [120; 47; 121; 46; 122]); constructor; pct|]. split; [reflexivity|]. change (str "?w") with (63 :: [119]). constructor. pct. }
  split; [exact OK|]. destruct C116_full_read as (u & U & M).
  destruct (proj2 (C133_path full u (str "/x/y.z") (str "?w") C116_full_ok M OK)) as (v & V & R).
  { split; [cbn; lia|]. split; [text|]. split; [intros y E; injection E as <-; text|]. split.
    - intros (a & d & b & E & D & B). change (str "/x/y.z") with ([47; 120; 47; 121; 46; 122]) in E.
      repeat (destruct a as [|? a]; [try discriminate E; injection E as E; destruct D as [->| ->]; destruct B as [->|[z ->]]; discriminate E|try (injection E as _ E); try discriminate E]).
    - split; discriminate. }
  exists u, v. split; [exact U|]. split; [exact M|]. split; [exact V|]. split; [exact R|]. clear R M. vm_compute in U, V. injection U as <-. injection V as <-. vm_compute. split; reflexivity.
Qed.
