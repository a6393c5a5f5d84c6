(** Lemmas for C122. *)
From Coq Require Import Ascii String NArith ZArith Lia Bool List ZifyBool ZifyNat ZifyN.
From Verif Require Import Base S_Utf8 P_Base M_Std M_Helper M_Header M_Url M_Http1 S_Hex S_Http1Api P_Std P_Helper P_Header P_Http1 P_Msg
  P_Chunk S_Map P_Map S_Url P_Url P_UrlForm S_Build S_Reason S_Rfc9112 P_Rfc9112 S_RfcBody S_RfcMessage P_RfcMessage S_RfcReply P_RfcReply S_Rfc3986 P_Rfc3986 M_Build P_Build2 S_WriteAll P_WriteAll
  S_Stream P_Stream S_RfcSend P_RfcSend S_RfcShow P_RfcShow M_Hpack S_Hpack M_Frame M_H2 S_Rfc9113 P_Rfc9113 S_RfcMeans P_RfcMeans S_RfcRelay S_Http1.
Import ListNotations.
Local Open Scope N_scope.

(** *** Requests *)
Lemma written_exact (T : bytes -> Prop) q body w : req_http1_data q body = Ok w ->
  (forall t, T t -> rfc_target (method_str (q_method q)) t /\ (length (u_path (q_url q)) <= length t)%nat) ->
  ((exists t ls x, rfc_request (method_str (q_method q)) t (version_str (q_version q)) ls /\ rfc_framed (map line_field ls) x /\
      w = rfc_request_text (method_str (q_method q)) t (version_str (q_version q)) ls ++ body_wire x /\ T t /\ map line_field ls = q_header q /\ body_meant x = body) <->
   name_ok (method_str (q_method q)) /\ http1 (q_version q) /\ T (u_path (q_url q)) /\ fields_fine (q_header q) /\ body_fine (q_header q) body).
Proof.
  intros E HT. unfold req_http1_data in E. destruct (req_encode_header q) as [hd|e| |] eqn:H; try discriminate E. cbn [bind] in E. injection E as <-.
  apply request_all in H. inversion H as [| |NM NV EH]. clear H. subst hd.
  set (m := method_str (q_method q)) in *. set (u := q_url q) in *. set (fs := q_header q).
  split.
  - intros (t & ls & x & (Nm & _ & Vv & L) & Fr & E & Tt & Ef & Eb). destruct (HT t Tt) as [RT LT].
    assert (W : ~ In SP t) by (eapply word_blank, target_word, RT).
    unfold request_text, rfc_request_text in E. rewrite <- !app_assoc in E. apply app_inv_head in E. cbn [app] in E. injection E as E.
    rewrite <- ?app_assoc in E. cbn [app] in E. rewrite <- ?app_assoc in E.
    apply first_blank in E as [Et E]; [|exact W|exact LT].
    apply app_inv_head in E. cbn [app] in E. injection E as E. rewrite <- Ef in E. apply lines_same in E; [|exact L].
    rewrite <- Et in Tt. rewrite Ef in Fr.
    split; [exact Nm|]. split; [apply http1_iff; assumption|]. split; [exact Tt|]. split; [rewrite <- Ef; apply fields_fine_lines, L|].
    destruct Fr as [v c Te Fc Cc _|v b Te Cl D|Te Cl]; cbn [body_meant body_wire] in *.
    + exfalso. pose proof (chunked_longer c) as K. rewrite Eb, <- E in K. lia.
    + subst b. split; [exact Te|]. rewrite Cl. exact D.
    + split; [exact Te|]. rewrite Cl. symmetry. exact Eb.
  - intros (Nm & Vv & Tt & FF & (Te & Cl)). destruct (lines_of_ok fs FF) as (LO & LF & LT). destruct (HT _ Tt) as [RT _].
    exists (u_path u), (lines_of fs). rewrite LF.
    assert (X : exists x, rfc_framed fs x /\ body_wire x = body /\ body_meant x = body).
    { destruct (cl_of fs) as [v|] eqn:C.
      - exists (BSized body). split; [eapply rf_length; eassumption|split; reflexivity].
      - subst body. exists BNone. split; [apply rf_none; assumption|split; reflexivity]. }
    destruct X as (x & X1 & X2 & X3). exists x. split.
    { split; [exact Nm|]. split; [exact RT|]. split; [apply http1_iff; assumption|exact LO]. }
    split; [exact X1|]. split.
    { unfold request_text, rfc_request_text. rewrite LT, X2, <- !app_assoc. cbn [app]. rewrite <- !app_assoc. cbn [app]. rewrite <- ?app_assoc. reflexivity. }
    split; [exact Tt|]. split; [reflexivity|exact X3].
Qed.
(** What the reader makes of a request that it reads as meant. *)
Lemma message_got m rest : bytes_ok (message_text m ++ rest) -> message_ok m -> message_readable m ->
  exists k s k' u, In (k, s) method_names /\ rm_method m = str s /\ method_str k = rm_method m /\ http1 k' /\ version_str k' = rm_version m /\
    wire_url k (rm_target m) (rm_fields m) u /\
    read_message parse_request q_header (message_text m ++ rest) = Ok (mkReq k k' u (rm_fields m) false, body_meant (rm_body m), rest).
Proof.
  intros Hb OK [((k & s & u & K1 & K2 & K3) & V & Pl & Di) B]. pose proof OK as (R & F & U).
  destruct (known_named_str _ _ K1) as [K4 K5].
  assert (exists k', http1 k' /\ In k' known_versions /\ rm_version m = version_str k') as (k' & V0 & V1 & V2).
  { destruct V as [-> | ->]; [exists V10|exists V11]; (split; [unfold http1; auto|]); split; cbn; auto. }
  exists k, s, k', u. split; [exact K1|]. split; [exact K2|]. split; [congruence|]. split; [exact V0|]. split; [congruence|]. split; [exact K3|].
  destruct (rfc_request_read req_default _ _ _ _ (body_wire (rm_body m) ++ rest) k s k' R K1 K2 V1 V2) as (rs & R1 & R2 & _).
  assert (Hl : Forall line_ok (rm_lines m)) by apply R.
  pose proof (proj2 (map_meant (rm_lines m) rs Hl R1) (conj Pl Di)) as Eh. fold (rm_fields m) in Eh. rewrite Eh in R2. specialize (R2 u K3).
  apply parse_request_ok in R2. unfold read_message, message_text. rewrite <- app_assoc, R2. cbn [bind q_header]. rewrite skipn_blen_app.
  apply (body_exact _ _ rest Hl U F) in B. fold (rm_fields m) in B. rewrite B. reflexivity.
Qed.
Lemma sendable q body : In (q_version q) known_versions -> In (q_method q) known_methods -> exists w, req_http1_data q body = Ok w.
Proof.
  intros V M. unfold req_http1_data, req_encode_header. cbn in V, M.
  destruct (q_method q); destruct (q_version q); cbn [method_encode version_encode bind]; try (eexists; reflexivity); exfalso; intuition discriminate.
Qed.
Lemma sendable' q body : q_method q <> MNone -> q_version q <> VNone -> exists w, req_http1_data q body = Ok w.
Proof.
  intros M V. unfold req_http1_data, req_encode_header.
  destruct (q_method q); destruct (q_version q); cbn [method_encode version_encode bind]; try (eexists; reflexivity); congruence.
Qed.
Lemma framed_body m : message_ok m -> (body_fine (rm_fields m) (body_meant (rm_body m)) <-> forall c, rm_body m <> BChunked c).
Proof.
  intros (_ & F & _). unfold body_fine. destruct F as [v c Te|v b Te Cl D|Te Cl]; cbn [body_meant].
  - split; [intros [K _]; congruence|]. intros K. exfalso. exact (K c eq_refl).
  - rewrite Cl. split; [intros _ c K; discriminate|auto].
  - rewrite Cl. split; [intros _ c K; discriminate|auto].
Qed.
Lemma text_shorter l s : text_of l s -> (length s <= length l)%nat.
Proof. intros [F _]. apply pct_shorter, F. Qed.
Lemma abs_meant p x : abs_path p -> path_meant p x <-> abs_path p /\ text_of p x.
Proof. intros P. unfold path_meant. destruct P as [p P]. rewrite blen_cons. replace (1 + blen p =? 0) with false by lia. split; [intros K; split; [constructor; exact P|exact K]|tauto]. Qed.
Lemma pchar_text p : abs_path p -> ~ In 37 p -> Forall (fun b => pchar b \/ b = 47) p.
Proof.
  intros [p0 P] N37. constructor; [auto|]. assert (I : ~ In 37 p0) by (intros X; apply N37; right; exact X). clear N37.
  induction P as [|b l Hb H IH|h k l]; [constructor| |destruct I; left; reflexivity]. constructor; [exact Hb|]. apply IH. intros X. apply I. right. exact X.
Qed.
(** A path that means itself. *)
Lemma plain_itself x : hd_error x = Some 47 -> Forall (fun b => pchar b \/ b = 47) x -> abs_path x /\ text_of x x.
Proof.
  intros H F. assert (V : Forall (fun b => vchar b /\ b <> 37) x). { eapply Forall_impl; [|exact F]. intros b [X| ->]; [apply pchar_vchar in X; tauto|unfold vchar; lia]. }
  split.
  - destruct x as [|b p]; [discriminate|]. injection H as ->. constructor. apply Forall_inv_tail in F. clear - F. induction F; constructor; assumption.
  - split; [apply plain_form; intros I; rewrite Forall_forall in V; apply V in I; tauto|]. apply utf8_valid_iff, utf8_valid_ascii.
    eapply Forall_impl; [|exact V]. intros b [X _]. unfold vchar in X. lia.
Qed.
Lemma text_head p x : abs_path p -> text_of p x -> hd_error x = Some 47.
Proof. intros [p0 P] [F _]. inversion F; subst; reflexivity. Qed.
Lemma itself_plain p s : abs_path p -> query_text s -> text_of p (p ++ s) -> s = [] /\ Forall (fun b => pchar b \/ b = 47) p.
Proof.
  intros P S T. pose proof (text_shorter _ _ T) as L. rewrite app_length in L. destruct s; [|cbn in L; lia]. split; [reflexivity|].
  rewrite app_nil_r in T. destruct T as [F _]. apply pct_equal in F as [_ F]; [|reflexivity]. exact (pchar_text p P F).
Qed.
Lemma origin_passed m p s rest : bytes_ok (message_text m ++ rest) -> message_ok m -> message_readable m -> rm_target m = p ++ s -> abs_path p -> query_text s ->
  rm_method m <> str "CONNECT" ->
  exists q w, read_message parse_request q_header (message_text m ++ rest) = Ok (q, body_meant (rm_body m), rest) /\ req_http1_data q (body_meant (rm_body m)) = Ok w /\
    (passed (origin_like p s) m w <-> s = [] /\ path_plain p /\ forall c, rm_body m <> BChunked c).
Proof.
  intros Hb OK RD ET P S NC. destruct (message_got m rest Hb OK RD) as (k & st & k' & u & K1 & K2 & K3 & V0 & V & WU & RM).
  assert (KC : k <> MConnect) by (intros ->; apply NC; rewrite <- K3; reflexivity).
  rewrite ET in WU. apply (origin_target k p s _ u KC P S) in WU as (N64 & TP & TQ & _).
  destruct (sendable (mkReq k k' u (rm_fields m) false) (body_meant (rm_body m))) as (w & W).
  { cbn. destruct V0 as [-> | ->]; auto. } { cbn. apply known_named_str in K1. exact (proj1 K1). }
  exists (mkReq k k' u (rm_fields m) false), w. split; [exact RM|]. split; [exact W|].
  pose proof (text_head _ _ P TP) as HD.
  assert (HT : forall t, origin_like p s t -> rfc_target (method_str k) t /\ (length (u_path u) <= length t)%nat).
  { intros t [p' s' P' S' (x & X1 & X2) _]. split; [apply rt_origin; assumption|]. apply abs_meant in X1 as [_ X1]; [|exact P]. apply abs_meant in X2 as [_ X2]; [|exact P'].
    rewrite <- (text_same _ _ _ X1 TP). rewrite app_length. apply text_shorter in X2. lia. }
  pose proof (written_exact (origin_like p s) _ _ _ W HT) as WE. cbn [q_method q_version q_url q_header] in WE. unfold passed. rewrite K3, V in WE. rewrite WE. clear WE.
  rewrite framed_body by exact OK. destruct OK as ((NM & RT & _ & LO) & _). split.
  - intros (_ & _ & OL & _ & B). split; [|split; [|exact B]].
    + inversion OL as [p' s' P' S' (x & X1 & X2) (o & O1 & O2) E]. apply abs_meant in X1 as [_ X1]; [|exact P]. apply abs_meant in X2 as [_ X2]; [|exact P'].
      rewrite (text_same _ _ _ X1 TP), <- E in X2. destruct (itself_plain _ _ P' S' X2) as [-> _]. cbn in O2. subst o. destruct s as [|b s]; [reflexivity|]. destruct O1 as (z & _ & K). discriminate.
    + inversion OL as [p' s' P' S' (x & X1 & X2) _ E]. apply abs_meant in X1 as [_ X1]; [|exact P]. apply abs_meant in X2 as [_ X2]; [|exact P'].
      rewrite (text_same _ _ _ X1 TP), <- E in X2. destruct (itself_plain _ _ P' S' X2) as [-> F]. exists (u_path u). split; [apply abs_meant; auto|].
      rewrite <- E, app_nil_r. exact F.
  - intros (-> & (x & X1 & F) & B). apply abs_meant in X1 as [_ X1]; [|exact P]. rewrite (text_same _ _ _ X1 TP) in *. destruct (plain_itself _ HD F) as [A1 A2].
    split; [exact NM|]. split; [exact V0|]. split; [|split; [apply fields_fine_lines, LO|exact B]].
    rewrite <- (app_nil_r (u_path u)). constructor; [exact A1|constructor| |exists None; split; reflexivity].
    exists (u_path u). split; apply abs_meant; auto.
Qed.
Lemma meant_path_same p x y : path_meant p x -> path_meant p y -> x = y.
Proof. unfold path_meant. destruct (blen p =? 0); [congruence|]. apply text_same. Qed.
Lemma absolute_passed m r rest : bytes_ok (message_text m ++ rest) -> message_ok m -> message_readable m -> rm_target m = uri_text r -> uri_ok r -> ui_user r = [] -> ui_frag r = [] ->
  uri_readable r -> rm_method m <> str "CONNECT" ->
  exists q w, read_message parse_request q_header (message_text m ++ rest) = Ok (q, body_meant (rm_body m), rest) /\ req_http1_data q (body_meant (rm_body m)) = Ok w /\
    (passed (absolute_like (rm_fields m) r) m w <-> ui_query r = [] /\ path_plain (ui_path r) /\ host_agrees (rm_fields m) r /\ forall c, rm_body m <> BChunked c).
Proof.
  intros Hb OK RD ET RO RU RF RR NC. destruct (message_got m rest Hb OK RD) as (k & st & k' & u & K1 & K2 & K3 & V0 & V & WU & RM).
  assert (KC : k <> MConnect) by (intros ->; apply NC; rewrite <- K3; reflexivity).
  rewrite ET in WU. apply (uri_exact r RO RF) in RR as (u' & UP & UM).
  assert (u = u') as ->.
  { destruct WU as [? ? ? _|u0 u1 u2 _ H1 H2 H3]; [contradiction|]. rewrite UP in H1. injection H1 as <-. destruct UM as (SM & _ & (d & _ & D) & _).
    destruct H2 as [_|D1 _|hst d' n D1 _ _]; [|congruence..]. destruct H3 as [_|sc X _]; [reflexivity|]. exfalso.
    destruct SM as [SM _]. apply name_length in SM. rewrite X in SM. destruct RO as (T & _). destruct T. discriminate. }
  destruct (sendable (mkReq k k' u' (rm_fields m) false) (body_meant (rm_body m))) as (w & W).
  { cbn. destruct V0 as [-> | ->]; auto. } { cbn. apply known_named_str in K1. exact (proj1 K1). }
  exists (mkReq k k' u' (rm_fields m) false), w. split; [exact RM|]. split; [exact W|].
  assert (TP : path_meant (ui_path r) (u_path u')) by apply UM.
  assert (HT : forall t, absolute_like (rm_fields m) r t -> rfc_target (method_str k) t /\ (length (u_path u') <= length t)%nat).
  { intros t [p' s' P' S' (x & X1 & X2) _ _|r' RO' RU' RF' (v & V1 & V2)].
    - split; [apply rt_origin; assumption|]. rewrite <- (meant_path_same _ _ _ X1 TP). apply meant_shorter in X2. destruct P'. rewrite app_length. cbn [length] in *. lia.
    - destruct RO' as (T & _ & H & O & P & Q & _). split.
      + unfold uri_text. rewrite RU', RF', app_nil_r. cbn [app]. apply rt_absolute; assumption.
      + assert (X : path_meant (ui_path r) (u_path v)) by apply V1. rewrite <- (meant_path_same _ _ _ X TP). destruct V2 as (_ & _ & _ & _ & V2 & _).
        apply meant_shorter in V2. unfold uri_text. rewrite !app_length. destruct T. cbn [length]. lia. }
  pose proof (written_exact (absolute_like (rm_fields m) r) _ _ _ W HT) as WE. cbn [q_method q_version q_url q_header] in WE. unfold passed. rewrite K3, V in WE. rewrite WE. clear WE.
  rewrite framed_body by exact OK. destruct OK as ((NM & RT & _ & LO) & _). split.
  - intros (_ & _ & AL & _ & B). inversion AL as [p' s' P' S' (x & X1 & X2) (o & O1 & O2) HA E|r' RO' RU' RF' (v & V1 & V2) E].
    + apply abs_meant in X2 as [_ X2]; [|exact P']. rewrite (meant_path_same _ _ _ X1 TP), <- E in X2. destruct (itself_plain _ _ P' S' X2) as [-> F].
      split; [|split; [|split; [exact HA|exact B]]].
      * cbn in O2. subst o. destruct (ui_query r) as [|b s]; [reflexivity|]. destruct O1 as (z & _ & K). discriminate.
      * exists (u_path u'). split; [exact TP|]. rewrite <- E, app_nil_r. exact F.
    + exfalso. assert (X : path_meant (ui_path r) (u_path v)) by apply V1. pose proof (meant_path_same _ _ _ X TP) as Z. destruct V2 as (_ & _ & _ & _ & V2 & _).
      apply meant_shorter in V2. rewrite Z, <- E in V2. unfold uri_text in V2. rewrite !app_length in V2. change (length (str "://")) with 3%nat in V2. lia.
  - intros (Q & (x & X1 & F) & HA & B). rewrite (meant_path_same _ _ _ X1 TP) in *.
    assert (HD : hd_error (u_path u') = Some 47).
    { unfold path_meant in TP. destruct (blen (ui_path r) =? 0) eqn:Z; [rewrite TP; reflexivity|]. destruct RO as (_ & _ & _ & _ & [P|P] & _); [rewrite P in Z; discriminate|]. exact (text_head _ _ P TP). }
    destruct (plain_itself _ HD F) as [A1 A2].
    split; [exact NM|]. split; [exact V0|]. split; [|split; [apply fields_fine_lines, LO|exact B]].
    rewrite <- (app_nil_r (u_path u')). apply al_origin; [exact A1|constructor| |rewrite Q; exists None; split; reflexivity|exact HA].
    exists (u_path u'). split; [exact TP|apply abs_meant; auto].
Qed.
Lemma connect_passed m h ds rest : bytes_ok (message_text m ++ rest) -> message_ok m -> message_readable m -> rm_target m = h ++ 58 :: ds -> uri_host h -> Forall digit ds ->
  rm_method m = str "CONNECT" ->
  exists q w, read_message parse_request q_header (message_text m ++ rest) = Ok (q, body_meant (rm_body m), rest) /\ req_http1_data q (body_meant (rm_body m)) = Ok w /\
    ~ passed (authority_like h ds) m w.
Proof.
  intros Hb OK RD ET H D NC. destruct (message_got m rest Hb OK RD) as (k & st & k' & u & K1 & K2 & K3 & V0 & V & WU & RM).
  assert (k = MConnect) as ->. { rewrite NC in K3. cbn in K1. destruct K1 as [K1|[K1|[K1|[K1|[K1|[K1|[K1|[K1|[K1|[]]]]]]]]]]; injection K1 as <- <-; try discriminate K3; reflexivity. }
  assert (UP : u_path u = str "/"). { destruct WU as [d n _ _|u0 u1 u2 K _ _ _]; [reflexivity|contradiction]. }
  destruct (sendable (mkReq MConnect k' u (rm_fields m) false) (body_meant (rm_body m))) as (w & W).
  { cbn. destruct V0 as [-> | ->]; auto. } { cbn. apply known_named_str in K1. exact (proj1 K1). }
  exists (mkReq MConnect k' u (rm_fields m) false), w. split; [exact RM|]. split; [exact W|].
  assert (HT : forall t, authority_like h ds t -> rfc_target (method_str MConnect) t /\ (length (u_path u) <= length t)%nat).
  { intros t [h' ds' H' D' _ _ _]. split; [apply rt_authority; [reflexivity|assumption..]|]. rewrite UP, app_length. cbn [length]. change (length (str "/")) with 1%nat. lia. }
  pose proof (written_exact (authority_like h ds) _ _ _ W HT) as WE. cbn [q_method q_version q_url q_header] in WE. unfold passed. rewrite K3, V in WE.
  intros K. apply WE in K as (_ & _ & K & _). rewrite UP in K. inversion K as [h' ds' H' D' N' _ _ E]. apply (f_equal (@length N)) in E. rewrite app_length in E.
  change (length (str "/")) with 1%nat in E. destruct ds'; [congruence|]. cbn in E. lia.
Qed.

(** *** Responses *)
Lemma code_range c : length (three_digits c) = 3%nat -> Forall digit (three_digits c) -> hd_error (three_digits c) <> Some 48 -> 100 <= c <= 999.
Proof.
  intros _ F H. unfold three_digits in *. apply Forall_inv in F. cbn [hd_error] in H. unfold digit in F.
  assert (c / 100 <> 0) by (intros K; apply H; rewrite K; reflexivity). clear H. assert (c / 100 <= 9) by lia. clear F. lia.
Qed.
Lemma answerable p body : 100 <= p_status p <= 999 -> p_version p <> VNone -> ((exists w, resp_httpdata p body = Ok w) <-> exists s, phrase (p_status p) s).
Proof.
  intros R NV. unfold resp_httpdata. pose proof (response_runs p R) as H. destruct H as [V|_ NP|s _ PH]; [contradiction|cbn [bind]..].
  - split; [intros (w & W); discriminate|]. intros (s & S). exfalso. exact (NP s S).
  - split; [intros _; exists s; exact PH|]. intros _. eexists. reflexivity.
Qed.
Lemma reply_passed_iff m rest : bytes_ok (reply_text m ++ rest) -> reply_ok m -> follows (rr_body m) rest -> answer_readable m ->
  exists p, read_reply (rr_to m) (reply_text m ++ rest) = Ok (p, reply_meant (rr_body m), rest) /\
    ((exists w, resp_httpdata p (reply_meant (rr_body m)) = Ok w /\ reply_passed m w) <->
     (exists s, phrase (num_of (rr_code m)) s) /\ forall c, rr_body m <> RChunked c).
Proof.
  intros Hb OK FO RD. pose proof RD as (V & H48 & _). apply (answer_exact m rest Hb OK FO) in RD as (p & RR & AV & AC & AH).
  pose proof OK as ((_ & L3 & DG & _ & LO) & FR & _). rewrite <- AC in L3, DG, H48. pose proof (code_range _ L3 DG H48) as R.
  assert (V1 : http1 (p_version p)). { rewrite <- AV in V. destruct (p_version p); destruct V as [V|V]; try discriminate V; unfold http1; auto. }
  assert (V2 : p_version p <> VNone) by (destruct V1 as [-> | ->]; discriminate).
  assert (CN : num_of (rr_code m) = p_status p) by (rewrite <- AC; apply P_Build2.three_digits_num, R).
  exists p. split; [exact RR|]. rewrite CN, <- (answerable p (reply_meant (rr_body m)) R V2). rewrite CN in FR.
  assert (Z : forall w, resp_httpdata p (reply_meant (rr_body m)) = Ok w -> (reply_passed m w <-> forall c, rr_body m <> RChunked c)).
  { intros w W. pose proof (P_RfcSend.response_exact (rr_to m) p _ w R W) as X.
    unfold response_said in X. unfold reply_passed. rewrite AV, AC, AH in X. rewrite CN. rewrite X. clear X.
    unfold response_fine, reply_fine. rewrite AH. fold (rr_fields m) in *. split.
    - intros (_ & _ & B1 & B2) c E. rewrite E in FR. inversion FR as [|v c' Bl Te Fc Cc _ E'| | |]; subst. destruct (B2 Bl) as [B3 _]. exact (B3 v Te Fc).
    - intros NC. split; [exact V1|]. split; [apply fields_fine_lines, LO|].
      destruct FR as [Bl|v c Bl Te Fc Cc _|v b Bl Te Fc|v b Bl Te Cl D|b Bl Te Cl]; cbn [reply_meant].
      + split; [auto|]. intros K. contradiction.
      + exfalso. exact (NC c eq_refl).
      + split; [intros K; contradiction|]. intros _. split; congruence.
      + split; [intros K; contradiction|]. intros _. split; [congruence|]. intros _ v' K. congruence.
      + split; [intros K; contradiction|]. intros _. split; congruence. }
  split.
  - intros (w & W & P). split; [exists w; exact W|]. apply (Z w W), P.
  - intros ((w & W) & P). exists w. split; [exact W|]. apply (Z w W), P.
Qed.

(** *** From HTTP/2 *)
Lemma lower_fold n : lower_token n -> fold_name n = n.
Proof.
  intros [_ F]. induction F as [|b n [_ U] _ IH]; [reflexivity|]. unfold fold_name in *. cbn [map]. rewrite IH. f_equal.
  unfold fold_byte. unfold upper in U. destruct (65 <=? b) eqn:A; destruct (b <=? 90) eqn:B; cbn [andb]; try reflexivity. exfalso. apply U. lia.
Qed.
Lemma get_lower (fs : headers) n : lower_names fs -> rfc_get fs n = option_map snd (find (fun nv => beq (fst nv) n) fs).
Proof.
  unfold rfc_get. intros L. f_equal. induction L as [|[a v] fs La _ IH]; [reflexivity|]. cbn [find fst] in *. rewrite (lower_fold a La), IH. reflexivity.
Qed.
Lemma get_others (fs : headers) n x : lower_names fs -> beq (str "host") n = false -> rfc_get ((str "Host", x) :: others fs) n = rfc_get fs n.
Proof.
  intros L N. unfold rfc_get. f_equal. cbn [find fst]. change (fold_name (str "Host")) with (str "host"). rewrite N. clear x.
  induction L as [|[a v] fs La _ IH]; [reflexivity|]. unfold others in *. cbn [filter find fst]. cbn [fst] in La. unfold is_host at 1. cbn [fst].
  destruct (beq a (str "host")) eqn:E; cbn [negb find fst].
  - apply beq_eq in E. subst a. change (fold_name (str "host")) with (str "host"). rewrite N. exact IH.
  - rewrite IH. reflexivity.
Qed.
Lemma no_te fs : Forall h2_field fs -> te_of fs = None.
Proof.
  intros F. unfold te_of. rewrite (get_lower fs _ (fields_lower _ F)).
  induction F as [|[n v] fs (_ & _ & C & _) _ IH]; [reflexivity|]. cbn [find fst] in *. destruct (beq n (str "transfer-encoding")) eqn:E; [|exact IH].
  apply beq_eq in E. subst n. exfalso. apply C. cbn. auto.
Qed.
Lemma host_once (fs : headers) x : lower_names fs -> host_fields ((str "Host", x) :: others fs) = [x].
Proof.
  intros L. unfold host_fields. cbn [filter fst]. change (beq (fold_name (str "Host")) (str "host")) with true. cbn [map snd]. f_equal.
  induction L as [|[a v] fs La _ IH]; [reflexivity|]. unfold others in *. cbn [filter]. cbn [fst] in La. unfold is_host at 1. cbn [fst].
  destruct (beq a (str "host")) eqn:E; cbn [negb filter fst]; [exact IH|]. rewrite (lower_fold a La), E. exact IH.
Qed.
Lemma host_there (fs : headers) : existsb is_host fs = true <-> In (str "host") (map fst fs).
Proof.
  rewrite existsb_exists, in_map_iff. unfold is_host. split; intros (f & F1 & F2).
  - apply beq_eq in F2. exists f. auto.
  - exists f. split; [exact F2|]. rewrite F1. reflexivity.
Qed.
Lemma scheme_own s n : In s [ScHttp; ScHttps] -> own_port s n -> n = scheme_port s.
Proof.
  intros S [K|[K _]]; cbn in S.
  - destruct S as [<-|[<-|[]]]; cbn in K; destruct K as [K|[K|[K|[K|[K|[]]]]]]; inversion K; reflexivity.
  - exfalso. destruct S as [<-|[<-|[]]]; [apply (K 80)|apply (K 443)]; cbn; auto.
Qed.
Lemma request_passed L fh r fs body : h2_request_ok r -> h2_request_list r fs -> request_readable L r fs ->
  exists q w, read_request L fh fs = Ok q /\ request_meant r q /\ req_http1_data q body = Ok w /\ (request_said q body w <-> h2_passable r body).
Proof.
  intros OK LI RD. pose proof RD as (_ & (km & ks & KS1 & KS2) & _). apply (P_RfcMeans.request_exact L fh r fs OK LI) in RD as (q & RQ & MN). pose proof (version_kept L fh fs q RQ) as V11q.
  pose proof OK as (NM & NC & SC & HN & UH & PO & AP & QT & F2 & SH).
  pose proof MN as (MS & d & n & (US & UU & UW & UD & TD & UP & N16 & PM & PP & QM) & HD).
  assert (KM : q_method q <> MNone). { intros K. rewrite K, KS2 in MS. cbn in KS1. destruct KS1 as [K1|[K1|[K1|[K1|[K1|[K1|[K1|[K1|[K1|[]]]]]]]]]]; injection K1 as <- <-; discriminate MS. }
  destruct (sendable' q body) as (w & W); [exact KM|rewrite V11q; discriminate|].
  exists q, w. split; [exact RQ|]. split; [exact MN|]. split; [exact W|].
  rewrite (P_RfcSend.request_exact q body w W). unfold request_fine, h2_passable, path_fine, body_fine. rewrite V11q, MS, HD.
  pose proof (fields_lower _ F2) as LO. unfold te_of, cl_of. rewrite !(get_others _ _ _ LO) by reflexivity. fold (te_of (hr_fields r)). fold (cl_of (hr_fields r)).
  rewrite (no_te _ F2). apply abs_meant in PP as [_ PP]; [|exact AP]. pose proof (text_head _ _ AP PP) as H47.
  destruct (dec_print_decimal n) as (D1 & D2 & D3).
  split.
  - intros (_ & _ & (_ & UQ & PF) & _ & (_ & CL) & HS). specialize (HS eq_refl). split; [|split; [|split; [|exact CL]]].
    + rewrite UQ in QM. destruct (hr_query r) as [|b s]; [reflexivity|]. destruct QM as (z & _ & K). discriminate.
    + exists (u_path (q_url q)). split; [apply abs_meant; auto|]. destruct PF as [[_ PF]|[_ PF]]; [exact PF|]. rewrite PF in H47. discriminate.
    + unfold host_value in HS. destruct (existsb is_host (hr_fields r)) eqn:EH; [left; apply host_there, EH|right].
      destruct HS as (h & po & E & H & P & K). rewrite host_once in E by exact LO. injection E as E. destruct (K d UD) as [TH _].
      exists d. split; [exact TD|]. destruct (host_itself h po [] (58 :: dec_print n) [] d H TH) as (-> & _ & X).
      { rewrite app_nil_r. symmetry. exact E. } { right. eexists. split; [reflexivity|exact D2]. } { left. reflexivity. }
      split; assumption.
  - intros (Q & (x & X1 & XF) & HH & CL). apply abs_meant in X1 as [_ X1]; [|exact AP]. rewrite (text_same _ _ _ X1 PP) in XF.
    assert (HV : rfc_value (host_value (hr_authority r) d n (hr_fields r)) /\ host_said (q_url q) ((str "Host", host_value (hr_authority r) d n (hr_fields r)) :: others (hr_fields r))).
    { unfold host_said. rewrite host_once by exact LO. unfold host_value. destruct (existsb is_host (hr_fields r)) eqn:EH.
      - split. { apply vchar_value, Forall_app. split; [apply host_vchar, UH|apply port_vchar, PO]. }
        exists (hr_host r), (hr_port r). split; [reflexivity|]. split; [exact UH|]. split; [exact PO|]. intros d' E'. rewrite UD in E'. injection E' as <-. split; [exact TD|].
        intros n' n0 P' O'. rewrite UP in P'. injection P' as <-. rewrite US in O'. rewrite (scheme_own _ _ SC O'). exact PM.
      - destruct HH as [HH|(d' & T' & HP)]; [apply host_there in HH; congruence|]. rewrite (text_same _ _ _ T' TD) in HP.
        split; [apply host_value_fine, HP|]. exists d, (58 :: dec_print n). split; [reflexivity|]. split; [apply HP|]. split; [constructor; exact D2|].
        intros d2 E'. rewrite UD in E'. injection E' as <-. split; [apply host_ascii, HP|]. intros n' n0 P' _. rewrite UP in P'. injection P' as <-.
        unfold port_meant. destruct (dec_print n); [congruence|]. exact D3. }
    destruct HV as [HV HS]. split; [exact NM|]. split; [right; reflexivity|]. split.
    { split; [exact NC|]. split; [|left; split; [exact H47|exact XF]]. rewrite Q in QM. exact QM. }
    split; [|split; [split; [reflexivity|exact CL]|intros _; exact HS]].
    constructor; [split; [apply name_okb_ok; reflexivity|exact HV]|]. apply Forall_forall. intros [a v] I. apply filter_In in I as [I _].
    rewrite Forall_forall in F2. destruct (F2 _ I) as (T & RV & _). split; [|exact RV]. destruct T as [T1 T2]. split; [exact T1|]. eapply Forall_impl; [|exact T2]. intros b X. apply X.
Qed.
Lemma response_passed L fh k code hs fs body : Forall h2_field hs -> code < 1000 -> response_list code hs fs -> total_size fs <= L -> 100 <= code -> distinct_names hs ->
  exists p, read_response L fh fs = Ok p /\ p_status p = code /\ p_header p = hs /\
    ((exists w, resp_httpdata p body = Ok w /\ response_said k p body w) <->
     (exists s, phrase code s) /\ (bodiless k code -> body = []) /\ (~ bodiless k code -> forall v, cl_of hs = Some v -> decimal v (blen body))).
Proof.
  intros F2 C LI T R D. destruct (proj2 (P_RfcMeans.response_exact L fh code hs fs F2 C LI) (conj T (conj R D))) as (p & RP & PS & PH).
  assert (V : p_version p = V11).
  { unfold read_response, read_with in RP. destruct (hdr_collect L 0 (headers_new fh []) fs) as [h [ |e| | ]] eqn:E; try discriminate. injection RP as <-.
    unfold headers_into_response. destruct (pt_method (hf_parts h)), (pt_status (hf_parts h)); reflexivity. }
  exists p. split; [exact RP|]. split; [exact PS|]. split; [exact PH|].
  assert (RR : 100 <= p_status p <= 999) by lia. assert (NV : p_version p <> VNone) by (rewrite V; discriminate).
  pose proof (answerable p body RR NV) as AN. rewrite PS in AN. rewrite <- AN.
  assert (Z : forall w, resp_httpdata p body = Ok w -> (response_said k p body w <-> (bodiless k code -> body = []) /\ (~ bodiless k code -> forall v, cl_of hs = Some v -> decimal v (blen body)))).
  { intros w W. rewrite (P_RfcSend.response_exact k p body w RR W). unfold response_fine, reply_fine. rewrite V, PS, PH, (no_te _ F2). split.
    - intros (_ & _ & B1 & B2). split; [exact B1|]. intros K. apply (B2 K). reflexivity.
    - intros (B1 & B2). split; [right; reflexivity|]. split; [|split; [exact B1|]].
      + eapply Forall_impl; [|exact F2]. intros [a v] ([T1 T2] & RV & _). split; [|exact RV]. split; [exact T1|]. eapply Forall_impl; [|exact T2]. intros b X. apply X.
      + intros K. split; [discriminate|]. intros _. exact (B2 K). }
  split.
  - intros (w & W & P). split; [exists w; exact W|]. apply (Z w W), P.
  - intros ((w & W) & P). exists w. split; [exact W|]. apply (Z w W), P.
Qed.
