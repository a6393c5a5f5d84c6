(** More lemmas for C70-C80: what a receiver sees. *)
From Coq Require Import Ascii String NArith ZArith Lia Bool List ZifyBool ZifyNat ZifyN.
From Verif Require Import Base P_Base S_Utf8 M_Std P_Std M_Helper M_Header M_Url M_Http1 M_Hpack M_Frame M_H2 M_Ext M_Build S_Http1 S_Http1Api S_Hex S_Map S_Url
  S_Hpack S_HpackApi S_Frame S_H2Api S_Ext S_Build
  P_Helper P_Header P_Http1 P_Msg P_Chunk P_Map P_Url P_UrlForm P_HpackCodec P_Settings P_H2 P_H2Msg P_H2Req P_Build P_Build2 P_Build3.
Import ListNotations.
Local Open Scope N_scope.
Ltac Zify.zify_post_hook ::= Z.div_mod_to_equations.

(** ** Sending a head *)
Lemma sent_head q q0 body : In (q_method q) known_methods -> In (q_version q) known_versions -> word (u_path (q_url q)) ->
  fields_ok (q_header q) -> distinct_names (q_header q) ->
  exists w, req_http1_data q body = Ok (w ++ body) /\
    let '(q', r) := req_parse q0 (w ++ body) in
    q_method q' = q_method q /\ q_version q' = q_version q /\ q_header q' = q_header q /\ q_partial q' = false /\
    ((r = Ok (blen w) /\ wire_url (q_method q) (u_path (q_url q)) (q_header q) (q_url q')) \/
     (exists e, r = Err e) /\ forall u, ~ wire_url (q_method q) (u_path (q_url q)) (q_header q) u).
Proof.
  intros M V P F D.
  exists (request_text (method_str (q_method q)) (u_path (q_url q)) (version_str (q_version q)) (q_header q)).
  split; [apply req_encode_text; assumption|].
  rewrite req_parse_eq. pose proof (request_text_head _ _ _ _ M V P F) as H.
  pose proof (req_parse_head q0 _ _ _ _ _ body H M V) as E. rewrite add_fields_nil in E by exact D.
  destruct (req_url_of (q_method q) (u_path (q_url q)) (q_header q)) as [u|e| |] eqn:U; cbn [try_] in E; rewrite E; cbn [fst snd bind q_method q_version q_header q_partial q_url].
  - do 4 (split; [reflexivity|]). left. split; [|apply wire_url_spec, U]. f_equal. rewrite blen_app. lia.
  - do 4 (split; [reflexivity|]). right. split; [eauto|]. intros u K. apply wire_url_spec in K. congruence.
  - destruct (req_url_of_total (q_method q) (u_path (q_url q)) (q_header q)) as [K _]. congruence.
  - destruct (req_url_of_total (q_method q) (u_path (q_url q)) (q_header q)) as [_ K]. congruence.
Qed.
(** What was received is a list of legal fields with different names. *)
Lemma received_fields q l q' n : bytes_ok l -> req_parse q l = (q', Ok n) ->
  In (q_method q') known_methods /\ In (q_version q') known_versions /\ fields_ok (q_header q') /\ distinct_names (q_header q').
Proof.
  intros B E. apply request_exact in E as (wire & rest & m & t & v & hs & u & -> & -> & M & V & H & _ & ->); [|exact B].
  cbn [q_method q_version q_header]. split; [exact M|]. split; [exact V|]. inversion H as [? ? ? ? ? ? ? ? ? _ _ _ _ _ FS]; subst.
  split; [apply fields_ok_add; [constructor|eapply fields_fields_ok; exact FS]|]. apply distinct_add. exact I.
Qed.

(** ** upgrade_http2 *)
Lemma b64_text_ok l : bytes_ok l -> Forall vchar (b64_encode l).
Proof.
  intros B. rewrite b64_encode_digits. apply Forall_map. eapply Forall_impl; [|apply digits_lt, B]. cbn. intros d H.
  assert (S : forall d, d < 256 -> (64 <=? d) || ((33 <=? b64_char d) && (b64_char d <=? 126)) = true) by (apply byte_sweep; vm_compute; reflexivity).
  specialize (S d ltac:(lia)). unfold vchar. lia.
Qed.
Lemma vchars_value v : Forall vchar v -> value_ok v.
Proof.
  intros H. split; [|split].
  - unfold bytes_ok. eapply Forall_impl; [|exact H]. intros b K. unfold vchar in K. unfold byte_ok. lia.
  - intros K. rewrite Forall_forall in H. apply H in K. unfold vchar, CR in K. lia.
  - destruct H as [|b v Hb _]; cbn; [discriminate|]. intros K. injection K as ->. unfold vchar, SP in Hb. lia.
Qed.
Lemma upgrade_fields_ok s : legal_settings s -> fields_ok (given_fields (RbUpgrade s)).
Proof.
  intros L. constructor; [|constructor; [|constructor; [|constructor]]]; cbn [fst snd].
  - split; [apply name_okb_ok; reflexivity|apply value_okb_ok; reflexivity].
  - split; [apply name_okb_ok; reflexivity|apply value_okb_ok; reflexivity].
  - split; [apply name_okb_ok; reflexivity|]. apply vchars_value. unfold encode_http_settings. apply b64_text_ok, settings_payload_ok, L.
Qed.
Definition upgrade_names : list bytes := map str ["connection"; "upgrade"; "http2-settings"]%string.
Lemma upgrade_last s fs n v : In (n, v) [(str "connection", str "Upgrade, HTTP2-Settings"); (str "upgrade", str "h2c"); (str "http2-settings", encode_http_settings s)] ->
  last_field n (with_default (str "User-Agent") (str "wenmeng") (fs ++ given_fields (RbUpgrade s))) = Some v.
Proof.
  intros H. unfold with_default, last_field. destruct (existsb _ _); rewrite !rev_app_distr; cbn [given_fields rev app find fst snd];
  destruct H as [K|[K|[K|[]]]]; injection K as <- <-; reflexivity.
Qed.
Lemma upgrade_header names ops s q : clash_free_names names -> In (str "User-Agent") names -> incl upgrade_names names ->
  Forall (fun nv => In (fst nv) names) (flat_map given_fields (ops ++ [RbUpgrade s])) -> legal_settings s ->
  req_build (ops ++ [RbUpgrade s]) = Ok q ->
  hm_get_upgrade (q_header q) = Some (str "h2c") /\
  hm_get (q_header q) (str "connection") = Some (str "Upgrade, HTTP2-Settings") /\
  exists v, hm_get (q_header q) (str "http2-settings") = Some v /\ parse_http_settings v = Ok s.
Proof.
  intros C U I F L E. destruct (req_build_header names _ q C U F E) as [_ G].
  assert (FM : flat_map given_fields (ops ++ [RbUpgrade s]) = flat_map given_fields ops ++ given_fields (RbUpgrade s)).
  { rewrite flat_map_app. cbn [flat_map]. rewrite app_nil_r. reflexivity. }
  rewrite FM in G.
  assert (K : forall n v, In n upgrade_names -> In (n, v) [(str "connection", str "Upgrade, HTTP2-Settings"); (str "upgrade", str "h2c"); (str "http2-settings", encode_http_settings s)] ->
              hm_get (q_header q) n = Some v).
  { intros n v Hn Hv. rewrite (G n (I n Hn)). apply upgrade_last, Hv. }
  assert (K1 : hm_get (q_header q) (str "connection") = Some (str "Upgrade, HTTP2-Settings")) by (apply K; [left; reflexivity|left; reflexivity]).
  assert (K2 : hm_get (q_header q) (str "upgrade") = Some (str "h2c")) by (apply K; [right; left; reflexivity|right; left; reflexivity]).
  assert (K3 : hm_get (q_header q) (str "http2-settings") = Some (encode_http_settings s)) by (apply K; [right; right; left; reflexivity|right; right; left; reflexivity]).
  split; [|split; [exact K1|]].
  - apply hm_upgrade_spec. split; [exists (str "Upgrade, HTTP2-Settings"); split; [exact K1|exists [], (str ", HTTP2-Settings"); reflexivity]|].
    split; [exact K2|apply utf8_valid_iff; reflexivity].
  - exists (encode_http_settings s). split; [exact K3|]. apply http_settings_roundtrip, L.
Qed.

(** ** From HTTP/2 to HTTP/1 *)
Lemma regular_distinct fs : regular fs -> distinct_names fs.
Proof.
  induction fs as [|f fs IH]; intros R; [exact I|]. apply regular_cons in R as (A & B & _ & R). split; [|apply IH, R].
  apply Forall_forall. intros g J. apply h2_name_neq; [exact A| |].
  - destruct R as (R & _). unfold h2_names in R. rewrite Forall_forall in R. exact (R g J).
  - intros E. apply B. rewrite E. apply List.in_map, J.
Qed.
Lemma host_value_ok d n : Forall vchar d -> value_ok (d ++ COLON :: dec_print n).
Proof.
  intros H. apply vchars_value, Forall_app. split; [exact H|]. constructor; [unfold vchar, COLON; lia|].
  eapply Forall_impl; [|apply dec_digits]. unfold digit, vchar. cbn. intros; lia.
Qed.
Lemma forwarded h q0 q1 m a s p u d n body :
  hf_parts h = mkParts (Some m) (Some s) (Some a) (Some p) None ->
  url_parse (scheme_str s ++ str "://" ++ a ++ p) = Ok u -> u_domain u = Some d -> u_port u = Some n ->
  regular (hf_fields h) -> ~ In (str "host") (map fst (hf_fields h)) -> fields_ok (hf_fields h) ->
  In m known_methods -> Forall vchar d -> word (u_path u) -> In (q_version q0) known_versions -> q_header q0 = [] ->
  exists q w, headers_into_request h q0 = Ok q /\ req_http1_data q body = Ok (w ++ body) /\
    let q' := fst (req_parse q1 (w ++ body)) in
    q_method q' = m /\ q_version q' = q_version q0 /\ q_header q' = (str "Host", d ++ COLON :: dec_print n) :: hf_fields h.
Proof.
  intros HP U D N R NH F M VD W V Q.
  pose proof (into_request_spec h q0 m a s p (hf_fields h) u d n HP eq_refl U D N R NH Q) as E.
  eexists. destruct (sent_head (mkReq m (q_version q0) u ((str "Host", d ++ 58 :: dec_print n) :: hf_fields h) (q_partial q0)) q1 body) as (w & E1 & E2);
    cbn [q_method q_version q_url q_header] in *; try assumption.
  - constructor; [|exact F]. cbn [fst snd]. split; [apply name_okb_ok; reflexivity|apply host_value_ok, VD].
  - split; [|apply regular_distinct, R]. apply Forall_forall. intros g J. cbn [fst].
    apply (host_fresh (hf_fields h) R NH [] (str "Host", []) g); [left; reflexivity|exact J].
  - exists w. split; [exact E|]. split; [exact E1|]. destruct (req_parse q1 (w ++ body)) as [q' r]. cbn [fst]. tauto.
Qed.

(** ** Deciding side conditions *)
Definition clash_freeb (names : list bytes) : bool :=
  forallb (fun a => forallb (fun b => Bool.eqb (name_eq a b) (beq (fold_name a) (fold_name b))) names) names.
Lemma clash_freeb_ok names : clash_freeb names = true -> clash_free_names names.
Proof.
  intros H a b Ha Hb. unfold clash_freeb in H. rewrite forallb_forall in H. specialize (H a Ha). rewrite forallb_forall in H. specialize (H b Hb).
  apply eqb_prop in H. rewrite H. apply beq_eq.
Qed.
Lemma in_names names (l : list (bytes * bytes)) : forallb (fun nv => existsb (beq (fst nv)) names) l = true -> Forall (fun nv => In (fst nv) names) l.
Proof.
  intros H. apply Forall_forall. intros nv K. rewrite forallb_forall in H. specialize (H nv K). apply existsb_exists in H as (x & H1 & H2).
  apply beq_eq in H2. rewrite H2. exact H1.
Qed.
Lemma plain_pathb p : hd_error p = Some 47 ->
  forallb (fun b => (33 <=? b) && (b <=? 126) && negb (b =? 37) && negb (b =? 63) && negb (b =? 64)) p = true -> plain_path p.
Proof.
  intros K1 K2. split; [exact K1|]. rewrite forallb_forall in K2. apply Forall_forall. intros b Hb. specialize (K2 b Hb).
  rewrite !andb_true_iff, !negb_true_iff, !N.eqb_neq, !N.leb_le in K2. unfold vchar. tauto.
Qed.
Lemma host_charb d : forallb (fun b => partb b && negb (b =? 37)) d = true -> Forall host_char d.
Proof.
  apply forallb_Forall_iff. intros b. unfold host_char. rewrite <- partb_ok, andb_true_iff, negb_true_iff, N.eqb_neq. tauto.
Qed.
Lemma free_ofb cs s : utf8_valid s = true -> forallb (fun b => negb (existsb (N.eqb b) cs)) s = true -> free_of cs s.
Proof.
  intros H1 H2. split; [apply utf8_valid_iff, H1|]. intros b Hb K. rewrite forallb_forall in H2. apply H2 in Hb.
  apply negb_true_iff in Hb. assert (X : existsb (N.eqb b) cs = true) by (apply existsb_exists; exists b; split; [exact K|apply N.eqb_refl]). congruence.
Qed.
