(** Lemmas for C87: which host a request is for. *)
From Coq Require Import Ascii String NArith ZArith Lia Bool List ZifyBool ZifyNat ZifyN.
From Verif Require Import Base P_Base S_Utf8 M_Std P_Std M_Helper M_Header M_Url M_Http1 M_Ext M_Build S_Http1 S_Http1Api S_Map S_Url S_Build
  P_Helper P_Header P_Http1 P_Msg P_Map P_Url P_UrlForm P_Build P_Build2 P_Build3 P_Build4.
Import ListNotations.
Local Open Scope N_scope.
Ltac Zify.zify_post_hook ::= Z.div_mod_to_equations.

Lemma insert_new h n v : hm_get h n = None -> hm_insert h n v = h ++ [(n, v)].
Proof.
  induction h as [|[m w] h IH]; cbn [hm_get hm_insert]; intros H; [reflexivity|]. destruct (name_eq m n); [discriminate|]. cbn. rewrite IH by exact H. reflexivity.
Qed.
Lemma set_url_new q u d p : hm_get (q_header q) (str "Host") = None -> u_domain u = Some d -> u_port u = Some p ->
  req_update_url q u = mkReq (q_method q) (q_version q) u (q_header q ++ [(str "Host", d ++ COLON :: dec_print p)]) (q_partial q).
Proof.
  intros H D P. unfold req_update_url, url_connect, hm_contains. rewrite D, P, H, insert_new by exact H. reflexivity.
Qed.
Lemma set_url_kept q u : (hm_get (q_header q) (str "Host") <> None \/ u_domain u = None \/ u_port u = None) ->
  req_update_url q u = mkReq (q_method q) (q_version q) u (q_header q) (q_partial q).
Proof.
  intros H. unfold req_update_url, url_connect, hm_contains. destruct (u_domain u) as [d|]; [|reflexivity]. destruct (u_port u) as [p|]; [|reflexivity].
  destruct (hm_get (q_header q) (str "Host")); [reflexivity|]. destruct H as [H|[H|H]]; try discriminate. contradiction.
Qed.
(** A list of calls. *)
Lemma set_urls_kept us : forall q, hm_get (q_header q) (str "Host") <> None -> q_header (fold_left req_update_url us q) = q_header q.
Proof.
  induction us as [|u us IH]; intros q H; [reflexivity|]. cbn [fold_left]. rewrite set_url_kept by (left; exact H). rewrite IH; [reflexivity|exact H].
Qed.
Lemma get_app_new h n v : hm_get h n = None -> hm_get (h ++ [(n, v)]) n = Some v.
Proof.
  induction h as [|[m w] h IH]; cbn [hm_get app]; intros H; [rewrite name_eq_refl; reflexivity|]. destruct (name_eq m n); [discriminate|]. apply IH, H.
Qed.
Lemma set_urls_first us u q d p : hm_get (q_header q) (str "Host") = None -> u_domain u = Some d -> u_port u = Some p ->
  q_header (fold_left req_update_url us (req_update_url q u)) = q_header q ++ [(str "Host", d ++ COLON :: dec_print p)] /\
  q_url (fold_left req_update_url us (req_update_url q u)) = last us u.
Proof.
  intros H D P. rewrite (set_url_new q u d p H D P). split.
  - rewrite set_urls_kept; [reflexivity|]. cbn [q_header]. rewrite get_app_new by exact H. discriminate.
  - assert (G : forall us u r, q_url r = u -> q_url (fold_left req_update_url us r) = last us u).
    { clear. induction us as [|v us IH]; intros u r E; [exact E|]. cbn [fold_left]. rewrite (IH v); [|reflexivity]. destruct us as [|a us]; [reflexivity|]. cbn [last]. clear. revert a. induction us as [|b us IH]; intros a; [reflexivity|]. cbn [last]. apply IH. }
    apply G. reflexivity.
Qed.
(** Token names compare with "host" and "Host" as they should. *)
Lemma host_clash n y : Forall tchar n -> y = str "host" \/ y = str "Host" -> clash_free n y.
Proof.
  intros T Y i x c X C D. assert (TX : tchar x) by (rewrite Forall_forall in T; eapply T, nth_error_In, X). clear X.
  assert (L : In c [104; 111; 115; 116; 72]).
  { destruct Y as [->| ->]; apply nth_error_In in C; cbn in C |- *; tauto. }
  clear C Y T. pose proof (tchar_lt x TX) as B. unfold alpha, upper, lower.
  destruct L as [<-|[<-|[<-|[<-|[<-|[]]]]]]; destruct D as [D|D]; try lia.
  assert (x = 40) as -> by lia. apply tcharb_ok in TX. vm_compute in TX. discriminate TX.
Qed.
Lemma host_eq n : Forall tchar n -> (name_eq n (str "host") = true <-> fold_name n = str "host") /\ (name_eq n (str "Host") = true <-> fold_name n = str "host").
Proof.
  intros T. split; (rewrite clash_name_iff; [reflexivity|exact T|apply tchars_b; reflexivity|apply host_clash; auto]).
Qed.
Lemma host_same h : Forall (fun nv => Forall tchar (fst nv)) h -> hm_get h (str "Host") = hm_get h (str "host").
Proof.
  induction 1 as [|[n v] h H _ IH]; [reflexivity|]. cbn [hm_get fst] in *. destruct (host_eq n H) as [A B].
  destruct (name_eq n (str "host")), (name_eq n (str "Host")); try reflexivity; try exact IH.
  - assert (false = true) by tauto. discriminate.
  - assert (false = true) by tauto. discriminate.
Qed.
Lemma fields_tchar h : fields_ok h -> Forall (fun nv => Forall tchar (fst nv)) h.
Proof. intros H. eapply Forall_impl; [|exact H]. intros [n v] [[_ K] _]. exact K. Qed.
(** The field, wherever it stands. *)
Lemma get_host_field h n v : fields_ok h -> distinct_names h -> In (n, v) h -> fold_name n = str "host" -> hm_get h (str "host") = Some v.
Proof.
  intros F D I N. apply fields_tchar in F. induction h as [|[m w] h IH]; [destruct I|]. inversion F as [|? ? F1 F2]; subst. cbn [fst] in F1.
  cbn [distinct_names fst] in D. destruct D as [D1 D2]. cbn [hm_get]. destruct I as [E|I].
  - injection E as -> ->. rewrite (proj2 (proj1 (host_eq n F1)) N). reflexivity.
  - destruct (name_eq m (str "host")) eqn:E; [|apply IH; assumption]. exfalso. apply (host_eq m F1) in E.
    rewrite Forall_forall in D1, F2. specialize (D1 _ I). specialize (F2 _ I). cbn [fst] in *.
    rewrite fold_name_eq in D1; [discriminate|apply tchars_ok; assumption..|congruence].
Qed.
Lemma no_host_field h : fields_ok h -> (forall n v, In (n, v) h -> fold_name n <> str "host") -> hm_get h (str "host") = None.
Proof.
  intros F N. apply fields_tchar in F. induction F as [|[n v] h F _ IH]; [reflexivity|]. cbn [hm_get fst] in *.
  destruct (name_eq n (str "host")) eqn:E; [apply (host_eq n F) in E; destruct (N n v (or_introl eq_refl) E)|].
  apply IH. intros m w I. apply (N m w). right. exact I.
Qed.

(** Sent after set_url. *)
Lemma host_value_ok d p : Forall host_char d -> value_ok (d ++ COLON :: dec_print p).
Proof.
  intros H. apply vchars_value, Forall_app. split; [eapply Forall_impl; [|exact H]; intros b [[K _] _]; exact K|].
  constructor; [unfold vchar, COLON; lia|]. apply Forall_forall. intros b K. pose proof (dec_print_digits p) as Q. rewrite forallb_forall in Q. apply Q in K. unfold dec_digit in K. unfold vchar. lia.
Qed.
Lemma set_url_sent q q0 body pa d p : In (q_method q) known_methods -> q_method q <> MConnect -> In (q_version q) known_versions ->
  plain_path pa -> Forall host_char d -> p < 65536 -> fields_ok (q_header q) -> distinct_names (q_header q) ->
  (forall n v, In (n, v) (q_header q) -> fold_name n <> str "host") -> hm_get (q_header q) (str ":scheme") = None ->
  let q1 := req_update_url q (mkUrl ScHttp pa None None (Some d) (Some p) None) in
  exists w, req_http1_data q1 body = Ok (w ++ body) /\ req_parse q0 (w ++ body) = (req_set_partial q1 false, Ok (blen w)).
Proof.
  intros M C V PP HC P F D N S q1.
  assert (G : hm_get (q_header q) (str "Host") = None) by (rewrite host_same by (apply fields_tchar, F); apply no_host_field; assumption).
  assert (Q : q1 = mkReq (q_method q) (q_version q) (mkUrl ScHttp pa None None (Some d) (Some p) None) (hm_insert (q_header q) (str "Host") (d ++ COLON :: dec_print p)) (q_partial q)).
  { unfold q1. rewrite (set_url_new q _ d p G) by reflexivity. rewrite insert_new by exact G. reflexivity. }
  rewrite Q. apply (request_sent _ q0 body pa d p); cbn [q_method q_version q_url q_header]; try assumption; try reflexivity.
  - apply fields_ok_insert; [exact F|apply name_okb_ok; reflexivity|apply host_value_ok, HC].
  - apply distinct_insert, D.
  - rewrite <- host_same; [rewrite insert_new by exact G; apply get_app_new, G|].
    apply fields_tchar, fields_ok_insert; [exact F|apply name_okb_ok; reflexivity|apply host_value_ok, HC].
  - rewrite insert_new by exact G. clear -S. induction (q_header q) as [|[m w] h IH]; [reflexivity|]. cbn [hm_get app] in *. destruct (name_eq m (str ":scheme")); [exact S|apply IH, S].
Qed.
