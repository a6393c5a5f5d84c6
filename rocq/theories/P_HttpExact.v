(** Which requests survive being written and read (C03). *)
From Coq Require Import Ascii String NArith ZArith Lia Bool List ZifyBool ZifyNat ZifyN.
From Verif Require Import Base S_Utf8 P_Base M_Std P_Std M_Helper M_Header M_Url M_Http1 S_Http1 S_Http1Api S_Hex S_Map S_Url S_UrlAll S_Exact P_Helper P_Header P_Http1 P_Msg P_Chunk P_Map P_Url P_UrlForm P_UrlAll P_UrlExact.
From Verif Require Import M_Frame M_Ext M_Build S_Build P_Build P_Build2 P_Build3 P_Build4.
Import ListNotations.
Local Open Scope N_scope.
Ltac Zify.zify_post_hook ::= Z.div_mod_to_equations.

(** The path of a parsed URL is no longer than the text, and only the plain paths are as long. *)
Lemma scheme_len s : legal_scheme s -> (1 <= length (scheme_str s))%nat.
Proof. destruct 1; cbn [scheme_str length]; try lia; vm_compute; lia. Qed.
Lemma parsed_path_len t u : bytes_ok t -> url_parse t = Ok u ->
  (length (u_path u) <= length t)%nat /\ (length (u_path u) = length t -> plain_path t /\ u_path u = t /\ u_query u = None).
Proof.
  intros B H. apply url_means_iff in H; [|exact B]. clear B.
  assert (PP : forall pa p, path_part pa p -> (length p <= length pa)%nat \/ p = [47]).
  { intros pa p [|x p' _ [D _]]; [right; reflexivity|left; exact (pct_len _ _ D)]. }
  assert (LS : (length (str "://") = 3)%nat) by reflexivity.
  destruct H; cbn [u_path u_query].
  - destruct H as [|x p Hx [D _]]; [congruence|]. pose proof (pct_len _ _ D) as L. rewrite app_length. split; [lia|].
    rewrite <- app_length. intros E0. pose proof E0 as E. rewrite app_length in E. assert (qq = []) as -> by (destruct qq; [reflexivity|cbn [length] in *; lia]). rewrite app_nil_r in *.
    destruct (pct_same _ _ D E0) as [<- N]. inversion H1; subst. split; [|split; reflexivity].
    split; [reflexivity|]. constructor; [unfold vchar; lia|]. apply Forall_forall. intros b Hb. rewrite Forall_forall in Hx.
    specialize (Hx _ Hb). unfold path_char in Hx. split; [tauto|]. split; [|tauto]. intros ->. apply N. right. exact Hb.
  - assert (L := scheme_len s H). apply PP in H4. rewrite !app_length, LS. destruct H4 as [H4| ->]; [|cbn [length]]; (split; [lia|intros; exfalso; lia]).
  - assert (L := scheme_len s H). change (length (str "/")) with 1%nat. rewrite !app_length, LS. cbn [length]. (split; [lia|intros; exfalso; lia]).
  - assert (L := scheme_len s H). destruct H7 as [D _]. apply pct_len in D. rewrite !app_length, LS. cbn [length]. repeat (rewrite app_length; cbn [length]). (split; [lia|intros; exfalso; lia]).
  - assert (L := scheme_len s H). destruct H5 as [D _]. apply pct_len in D. rewrite !app_length, LS. cbn [length] in *. repeat (rewrite app_length; cbn [length]). (split; [lia|intros; exfalso; lia]).
Qed.
Lemma wire_url_path m t h u : m <> MConnect -> wire_url m t h u -> exists u0, url_parse t = Ok u0 /\ u_path u = u_path u0 /\ u_query u = u_query u0.
Proof.
  intros C H. destruct H as [|u u1 u2 _ E Hh Hs]; [contradiction|]. exists u. split; [exact E|].
  destruct Hs; destruct Hh; cbn [with_scheme with_host u_path u_query]; split; reflexivity.
Qed.
Lemma spaces_in n b : In b (spaces n) -> b = 32.
Proof. intros H. apply repeat_spec in H. exact H. Qed.
Lemma word_no32 t : word t -> ~ In 32 t.
Proof. intros [_ H] K. rewrite Forall_forall in H. apply H in K. unfold vchar in K. lia. Qed.
Lemma word_no13 t : word t -> ~ In 13 t.
Proof. intros [_ H] K. rewrite Forall_forall in H. apply H in K. unfold vchar in K. lia. Qed.
(** The target as the receiver cuts it, when it is at least as long as the path written. *)
Lemma target_is_path i t p v X Y : word t -> word v -> (length p <= length t)%nat ->
  spaces i ++ t ++ 32 :: X = p ++ 32 :: v ++ 13 :: Y -> t = p.
Proof.
  intros Wt Wv L E. pose proof (word_no32 _ Wt) as Nt. pose proof (word_no13 _ Wt) as Nt'. pose proof (word_no32 _ Wv) as Nv.
  assert (VT : forall k, spaces k ++ t ++ 32 :: X = v ++ 13 :: Y -> False).
  { intros k EV. destruct k as [|k].
    - cbn [spaces repeat app] in EV. destruct (app_eq_app _ _ _ _ EV) as (z & [[E1 E2]|[E1 E2]]); (destruct z as [|z0 z]; cbn [app] in E2; [discriminate|]); injection E2 as <- _.
      + apply Nt'. rewrite E1. apply in_elt.
      + apply Nv. rewrite E1. apply in_elt.
    - destruct v as [|v0 v]; [destruct Wv; congruence|]. cbn in EV. injection EV as <- _. apply Nv. left. reflexivity. }
  revert p L E. induction i as [|i IH]; intros p L E.
  - cbn [spaces repeat app] in E. destruct (app_eq_app _ _ _ _ E) as (z & [[E1 E2]|[E1 E2]]).
    + destruct z as [|z0 z]; [rewrite app_nil_r in E1; exact E1|]. cbn [app] in E2. injection E2 as <- _. exfalso. apply Nt. rewrite E1. apply in_elt.
    + subst p. rewrite app_length in L. destruct z; [rewrite app_nil_r; reflexivity|cbn [length] in L; lia].
  - destruct p as [|p0 p].
    + cbn in E. injection E as E. destruct (VT _ E).
    + cbn in E. injection E as <- E. cbn [length] in L. exfalso. specialize (IH p ltac:(lia) E). subst p. lia.
Qed.
Lemma method_str_inj m m' : In m known_methods -> In m' known_methods -> method_str m = method_str m' -> m = m'.
Proof. intros H H' E. apply method_of_str_known in H, H'. congruence. Qed.
Lemma method_first m : In m known_methods -> exists b l, method_str m = b :: l /\ b <> 13 /\ b <> 10.
Proof. intros H. pose proof (method_word m H) as [N F]. destruct (method_str m) as [|b l]; [congruence|]. inversion F; subst. unfold vchar in *. exists b, l. repeat split; lia. Qed.
Lemma request_survives q q0 body : In (q_method q) known_methods -> q_method q <> MConnect -> In (q_version q) known_versions ->
  bytes_ok (u_path (q_url q)) -> fields_ok (q_header q) -> distinct_names (q_header q) -> bytes_ok body ->
  exists w, req_http1_data q body = Ok (w ++ body) /\
    ((exists q' n, req_parse q0 (w ++ body) = (q', Ok n) /\ u_path (q_url q') = u_path (q_url q) /\ u_query (q_url q') = u_query (q_url q)) <->
     plain_path (u_path (q_url q)) /\ u_query (q_url q) = None /\ host_usable (q_header q)).
Proof.
  intros Hm Hc Hv Bp Hf Hd Bb. eexists. split; [apply req_encode_text; assumption|]. set (w := request_text _ _ _ _).
  assert (BW : bytes_ok (w ++ body)).
  { subst w. unfold request_text, bytes_ok. rewrite !Forall_app. repeat apply conj; try exact Bp; try exact Bb; try (apply bytes_okb_ok; reflexivity).
    - eapply Forall_impl; [|apply (method_word _ Hm)]. unfold vchar, byte_ok. cbn. intros. lia.
    - eapply Forall_impl; [|apply (version_word _ Hv)]. unfold vchar, byte_ok. cbn. intros. lia.
    - unfold fields_text. apply Forall_app. split; [|apply bytes_okb_ok; reflexivity]. clear -Hf. induction Hf as [|[n v] l [[_ Hn] [Hv _]] Hl IH]; [constructor|].
      cbn [map concat]. apply Forall_app. split; [|exact IH]. unfold field_text. cbn [fst snd]. rewrite !Forall_app. repeat apply conj; try exact Hv; try (apply bytes_okb_ok; reflexivity).
      eapply Forall_impl; [|exact Hn]. intros b Hb. apply tchar_lt in Hb. unfold byte_ok. lia. }
  split.
  - intros (q' & n & E & Ep & Eq). apply request_exact in E; [|exact BW].
    destruct E as (wire & rest & m & t & v & hs & u & EW & -> & Km & Kv & Hw & Hu & ->). cbn [q_url] in Ep, Eq.
    assert (Nm : ~ In 32 (method_str (q_method q))) by (apply word_no32, method_word, Hm).
    assert (T : m = q_method q /\ exists i X, spaces i ++ t ++ 32 :: X = u_path (q_url q) ++ 32 :: version_str (q_version q) ++ 13 :: 10 :: fields_text (q_header q) ++ body).
    { inversion Hw as [bl tm i t' j tv e fs hs' Hbl Wm Wt Wv He Hfs E1 E2 E3 E4 E5]. subst tm t' tv hs'.
      subst w wire. unfold request_text in EW. rewrite <- !app_assoc in EW. cbn [app] in EW.
      assert (bl = []) as ->.
      { destruct (method_first _ Hm) as (b & l & Eb & N1 & N2). rewrite Eb in EW. cbn [app] in EW.
        destruct Hbl; [reflexivity| |]; cbn [app] in EW; injection EW as EW _; unfold CR, LF in EW; congruence. }
      cbn [app spaces repeat] in EW. unfold SP in EW at 1 3. destruct (cut_first 32 _ _ _ _ EW Nm) as [Em EW2]; [apply word_no32, method_word, Km|].
      split; [symmetry; apply method_str_inj; assumption|]. exists i. rewrite <- ?app_assoc in EW2. unfold CRLF, CR, LF, SP in EW2. cbn [app] in EW2. eexists. symmetry. exact EW2. }
    destruct T as [-> (i & X & EX)]. assert (Wt : word t) by (inversion Hw; assumption).
    destruct (wire_url_path _ _ _ _ Hc Hu) as (u0 & Eu0 & P0 & Q0).
    assert (Bt : bytes_ok t). { eapply Forall_impl; [|apply Wt]. unfold vchar, byte_ok. cbn. intros. lia. }
    destruct (parsed_path_len t u0 Bt Eu0) as [L1 L2].
    assert (t = u_path (q_url q)) as Et. { eapply target_is_path; [exact Wt|apply (version_word _ Hv)| |exact EX]. rewrite <- Ep, P0. exact L1. }
    destruct L2 as (PL & PE & QE); [rewrite <- P0, Ep, <- Et; reflexivity|]. rewrite <- Et. split; [exact PL|]. split; [rewrite <- Eq, Q0; exact QE|].
    rewrite Et in PL, Wt. destruct (sent_head q q0 body Hm Hv Wt Hf Hd) as (w' & W1 & W2).
    assert (w' = w). { pose proof (req_encode_text q body Hm Hv) as E. rewrite W1 in E. injection E as E. apply app_inv_tail in E. exact E. }
    subst w'. assert (R : req_parse q0 (w ++ body) = (mkReq (q_method q) v u (add_fields [] hs) false, Ok (blen wire))).
    { apply request_exact; [exact BW|]. exists wire, rest, (q_method q), t, v, hs, u. repeat split; assumption. }
    rewrite R in W2. cbn [q_header q_url] in W2. destruct W2 as (_ & _ & _ & _ & [[_ W]|[[e W] _]]); [|discriminate].
    destruct W as [|u1 u2 u3 _ E1 E2 _]; [contradiction|]. rewrite (url_parse_plain _ PL) in E1. injection E1 as <-.
    destruct E2 as [K|_ K|hv d n _ K1 K2]; [exfalso; apply K; reflexivity|left; exact K|right; exists hv, d, n; split; assumption].
  - intros (P & Q & U). destruct (request_roundtrip q q0 body Hm Hc Hv P Q Hf Hd U) as (w' & u & E1 & E2 & E3 & E4 & _).
    assert (w' = w). { pose proof (req_encode_text q body Hm Hv) as E. rewrite E1 in E. injection E as E. apply app_inv_tail in E. exact E. }
    subst w'. do 2 eexists. split; [exact E2|]. cbn [q_url]. split; assumption.
Qed.
Lemma enc_text_bytes hs : Forall (fun nv => bytes_ok (fst nv) /\ bytes_ok (snd nv)) hs -> bytes_ok (hm_encode hs).
Proof.
  intros H. rewrite hm_encode_text. unfold fields_text. apply Forall_app. split; [|apply bytes_okb_ok; reflexivity].
  induction H as [|[n v] l [Hn Hv] Hl IH]; [constructor|].
  cbn [map concat]. apply Forall_app. split; [|exact IH]. unfold field_text. cbn [fst snd] in *. rewrite !Forall_app. repeat apply conj; try exact Hv; try exact Hn; apply bytes_okb_ok; reflexivity.
Qed.
Lemma req_text_bytes q body w : request_bytes q -> bytes_ok body -> req_http1_data q body = Ok w -> bytes_ok w.
Proof.
  intros (B1 & B2 & B3) Bb E. unfold req_http1_data, req_encode_header in E.
  destruct (method_encode (q_method q)) as [m|e| |] eqn:Em; try discriminate. destruct (version_encode (q_version q)) as [v|e| |] eqn:Ev; try discriminate.
  cbn [bind] in E. injection E as <-. assert (m = method_str (q_method q)) as -> by (destruct (q_method q); cbn [method_encode] in Em; try discriminate; injection Em as <-; reflexivity).
  assert (Bv : bytes_ok v). { destruct (q_version q); cbn [version_encode] in Ev; try discriminate; injection Ev as <-; apply bytes_okb_ok; reflexivity. }
  apply enc_text_bytes in B3. unfold bytes_ok in *. repeat (rewrite Forall_app || rewrite Forall_cons_iff). repeat apply conj; try assumption; try (apply bytes_okb_ok; reflexivity); unfold byte_ok; lia.
Qed.
Lemma request_delivered_iff q0 q body : request_bytes q -> bytes_ok body ->
  (request_delivered q0 q body <->
   In (q_method q) known_methods /\ In (q_version q) known_versions /\ fields_ok (q_header q) /\ distinct_names (q_header q) /\
   plain_path (u_path (q_url q)) /\ u_query (q_url q) = None /\
   (if method_eqb (q_method q) MConnect then u_path (q_url q) = str "/" else host_usable (q_header q))).
Proof.
  intros B Bb.
  assert (C : forall m, method_eqb m MConnect = true <-> m = MConnect).
  { intros m. destruct m; cbn; split; intros; congruence. }
  split.
  - intros (w & q' & n & E1 & E2 & Em & Ev & Eh & Ep & Eq).
    pose proof (req_text_bytes q body w B Bb E1) as BW. destruct (received_fields _ _ _ _ BW E2) as (M & V & F & D).
    rewrite Em in M. rewrite Ev in V. rewrite Eh in F, D. split; [exact M|]. split; [exact V|]. split; [exact F|]. split; [exact D|].
    destruct (method_eqb (q_method q) MConnect) eqn:X.
    + apply C in X. apply request_exact in E2 as (wire & rest & m & t & v & hs & u & -> & -> & _ & _ & _ & Hu & ->); [|exact BW].
      cbn [q_method q_url] in *. rewrite X in Em. subst m. inversion Hu as [d n' _ Hp E|]; [|congruence]. subst u. cbn in Ep, Eq. rewrite <- Ep, <- Eq.
      split; [|split; reflexivity]. split; [reflexivity|]. repeat constructor; discriminate.
    + assert (NC : q_method q <> MConnect) by (intros K; apply C in K; congruence).
      destruct (request_survives q q0 body M NC V (proj1 (proj2 B)) F D Bb) as (w' & W1 & W2). rewrite E1 in W1. injection W1 as ->.
      apply W2. exists q', n. split; [exact E2|]. split; assumption.
  - intros (M & V & F & D & P & Q & H). destruct (method_eqb (q_method q) MConnect) eqn:X.
    + apply C in X. destruct (sent_head q q0 body M V (plain_path_word _ P) F D) as (w & E1 & E2).
      exists (w ++ body), (fst (req_parse q0 (w ++ body))). destruct (req_parse q0 (w ++ body)) as [q' r]. cbn [fst].
      destruct E2 as (E2 & E3 & E4 & _ & E5). rewrite X, H in E5.
      assert (W : wire_url MConnect (str "/") (q_header q) (with_host url_new (str "/") 80)).
      { apply wu_connect; [reflexivity|]. apply hp_plain. intros K. cbn in K. unfold COLON in K. lia. }
      destruct E5 as [[E5 E6]|[_ E5]]; [|destruct (E5 _ W)]. exists (blen w). rewrite E5. pose proof (wire_url_fun _ _ _ _ _ E6 W) as ->.
      repeat split; try assumption; [rewrite H; reflexivity|rewrite Q; reflexivity].
    + assert (NC : q_method q <> MConnect) by (intros K; apply C in K; congruence).
      destruct (request_roundtrip q q0 body M NC V P Q F D H) as (w & u & E1 & E2 & E3 & E4 & _). exists (w ++ body). do 2 eexists. split; [exact E1|]. split; [exact E2|].
      cbn [q_method q_version q_header q_url]. repeat split; assumption.
Qed.
Lemma resp_text_bytes p body w : response_bytes p -> bytes_ok body -> resp_httpdata p body = Ok w -> bytes_ok w.
Proof.
  intros B Bb E. unfold resp_httpdata, resp_encode_header in E.
  destruct (version_encode (p_version p)) as [v|e| |] eqn:Ev; try discriminate. destruct (status_encode (p_status p)) as [s|e| |] eqn:Es; try discriminate.
  cbn [bind] in E. injection E as <-.
  assert (Bv : bytes_ok v). { destruct (p_version p); cbn [version_encode] in Ev; try discriminate; injection Ev as <-; apply bytes_okb_ok; reflexivity. }
  assert (Bs : bytes_ok s).
  { unfold status_encode in Es. destruct (canonical_reason (p_status p)) as [rs|] eqn:Er; [|discriminate]. injection Es as <-.
    destruct (canonical_reason_ok _ _ Er) as [Hc (_ & Hr & _)].
    assert (Bc : bytes_ok (status_str (p_status p))). { eapply Forall_impl; [|apply (status_word _ Hc)]. unfold vchar, byte_ok. cbn. intros. lia. }
    assert (Br : bytes_ok rs). { eapply Forall_impl; [|exact Hr]. unfold byte_ok. cbn. intros. lia. }
    unfold bytes_ok in *. repeat (rewrite Forall_app || rewrite Forall_cons_iff). repeat apply conj; try assumption; try (apply bytes_okb_ok; reflexivity); unfold byte_ok; lia. }
  apply enc_text_bytes in B. unfold bytes_ok in *. repeat (rewrite Forall_app || rewrite Forall_cons_iff). repeat apply conj; try assumption; unfold byte_ok; lia.
Qed.
Lemma response_delivered_iff p0 p body : response_bytes p -> bytes_ok body ->
  (response_delivered p0 p body <->
   In (p_version p) known_versions /\ (exists rs, canonical_reason (p_status p) = Some rs) /\ fields_ok (p_header p) /\ distinct_names (p_header p)).
Proof.
  intros B Bb. split.
  - intros (w & p' & n & E1 & E2 & Es & Ev & Eh). pose proof (resp_text_bytes p body w B Bb E1) as BW.
    apply response_exact in E2 as (wire & rest & v & c & hs & -> & -> & V & _ & H & ->); [|exact BW]. cbn [p_status p_version p_header] in *.
    rewrite <- Ev, <- Eh. split; [exact V|]. split.
    + unfold resp_httpdata, resp_encode_header, status_encode in E1. destruct (version_encode (p_version p)); try discriminate. cbn [bind] in E1.
      destruct (canonical_reason (p_status p)) as [rs|]; [exists rs; reflexivity|discriminate].
    + inversion H as [? ? ? ? ? ? ? ? ? _ _ _ _ _ FS]; subst.
      split; [apply fields_ok_add; [constructor|eapply fields_fields_ok; exact FS]|]. apply distinct_add. exact I.
  - intros (V & (rs & R) & F & D). destruct (response_roundtrip p p0 rs body V R F D) as (w & E1 & _ & E2).
    exists (w ++ body). do 2 eexists. split; [exact E1|]. split; [exact E2|]. repeat split.
Qed.
