(** Lemmas on the bodies of responses (C114). *)
From Coq Require Import Ascii String NArith ZArith Lia Bool List ZifyBool ZifyNat ZifyN.
From Verif Require Import Base P_Base M_Std M_Helper M_Header M_Url M_Http1 S_Map S_Hex S_Http1 S_Http1Api P_Std P_Helper P_Header P_Chunk P_Map P_Http1 P_Msg
  S_Url S_Build P_Build3 S_Rfc9112 P_Rfc9112 S_RfcBody P_RfcBody S_RfcMessage P_RfcMessage S_Stream P_Stream S_RfcReply.
Import ListNotations.
Local Open Scope N_scope.

Lemma mute_iff k : res_nobody k = true <-> mute k.
Proof. unfold mute. destruct k; cbn; split; intros H; try discriminate; auto; destruct H as [H|[H|H]]; discriminate. Qed.
Lemma sane_len ls : Forall line_ok ls -> unconfused_names (map line_field ls) -> sane_length (map line_field ls) ->
  hm_body_len (map line_field ls) = Ok (Z.of_N (length_of (map line_field ls))).
Proof.
  intros Hl U S. destruct (te_found ls Hl U) as [_ C]. unfold length_of. unfold sane_length in S.
  destruct (cl_of (map line_field ls)) as [v|].
  - destruct (S v eq_refl) as (n & D & L). rewrite (body_len_decimal _ _ _ C D L). destruct D as (_ & _ & ->). reflexivity.
  - rewrite body_len_none by exact C. reflexivity.
Qed.
Lemma sized_iff h l b r n : hm_is_chunked h = false -> hm_body_len h = Ok (Z.of_N n) -> (read_body h l = Ok (b, r) <-> l = b ++ r /\ blen b = n).
Proof.
  intros Hc Hn. split.
  - intros H. apply sized_split in H as (E & z & Hz & ->); [|exact Hc]. split; [exact E|]. rewrite Hn in Hz. injection Hz as Hz. lia.
  - intros [-> <-]. unfold read_body. rewrite Hc, Hn. cbn [bind]. destruct (Z.ltb_spec (Z.of_N (blen b)) 0); [lia|].
    rewrite N2Z.id, take_N_app by reflexivity. reflexivity.
Qed.
(** Chunked content is shorter than its text. *)
Lemma lax_shorter l ds rest : lax_body l ds rest -> (length (concat ds) + length rest < length l)%nat.
Proof.
  induction 1 as [line x y rest H|line d x y l ds rest H Hd Hs Hl IH]; cbn [concat]; rewrite ?app_length; cbn [length] in *; rewrite ?app_length; cbn [length]; lia.
Qed.
Lemma chunks_shorter h l b r : hm_is_chunked h = true -> read_body h l = Ok (b, r) -> (length b + length r < length l)%nat.
Proof.
  intros Hc H. unfold read_body in H. rewrite Hc in H. destruct (read_chunks _ _) as [[ds r']|e| |] eqn:E in H; try discriminate.
  cbn [bind] in H. injection H as <- <-. apply read_lax in E as [E _]. apply lax_shorter in E. exact E.
Qed.
Lemma blen_nil (b : bytes) : blen b = 0 <-> b = [].
Proof. destruct b; split; intros H; try reflexivity; try discriminate. Qed.
Lemma same_tail (a b : bytes) : a = b ++ a -> b = [].
Proof. intros H. apply (f_equal (@length _)) in H. rewrite app_length in H. destruct b; [reflexivity|cbn in H; lia]. Qed.

Lemma reply_exact k code ls x rest : Forall line_ok ls -> unconfused_names (map line_field ls) -> sane_length (map line_field ls) ->
  reply_framed k code (map line_field ls) x -> follows x rest ->
  (reply_body_of k (map line_field ls) (reply_wire x ++ rest) = Ok (reply_meant x, rest) <-> reply_readable k (map line_field ls) x).
Proof.
  intros Hl U S F Fo. destruct (te_found ls Hl U) as [T C]. pose proof (sane_len ls Hl U S) as L.
  pose proof (chunked_iff (map line_field ls) _ T) as CH. fold (chunk_word (map line_field ls)) in CH.
  pose proof (body_exact ls) as BE. set (h := map line_field ls) in *. unfold reply_body_of. pose proof (mute_iff k) as MU.
  destruct (res_nobody k) eqn:Em.
  - assert (M : mute k) by (apply MU; reflexivity). clear MU. destruct x as [|b|c|b]; cbn [reply_wire reply_meant reply_readable app].
    + split; [auto|reflexivity].
    + split.
      * intros H _. injection H as <- _. reflexivity.
      * intros H. rewrite (H M). reflexivity.
    + split.
      * intros H. exfalso. assert (E : chunked_text c ++ rest = rest) by congruence. symmetry in E. apply same_tail in E.
        pose proof (chunked_longer c) as X. rewrite E in X. change (blen []) with 0 in X. lia.
      * intros (H & _). contradiction.
    + cbn in Fo. subst rest. rewrite app_nil_r. split.
      * intros H. injection H as <-. auto.
      * intros [[_ ->]|[H _]]; [reflexivity|contradiction].
  - assert (M : ~ mute k) by (intros M; apply MU in M; discriminate). clear MU.
    destruct (hm_is_chunked h) eqn:Ec.
    + assert (W : chunk_word h) by (apply CH; reflexivity).
      destruct F as [Hb|v c Hb Hv Hf Hok Hcnt|v b Hb Hv Hf|v b Hb Hv Hc Hd|b Hb Hv Hc]; cbn [reply_wire reply_meant reply_readable].
      * split; [|intros [H|[H _]]; contradiction]. intros H. apply chunks_shorter in H; [|exact Ec]. cbn in H. lia.
      * assert (FR : rfc_framed h (BChunked c)) by (eapply rf_chunked; eassumption).
        specialize (BE (BChunked c) rest Hl U FR). cbn [body_wire body_meant body_readable] in BE. rewrite BE. unfold chunk_word. tauto.
      * split; [|intros [[H _]|(_ & H & _)]; contradiction]. cbn in Fo. subst rest. rewrite app_nil_r. intros H. apply chunks_shorter in H; [|exact Ec]. cbn in H. lia.
      * destruct W as (w & W & _). congruence.
      * destruct W as (w & W & _). congruence.
    + assert (W : ~ chunk_word h) by (intros W; apply CH in W; discriminate).
      destruct F as [Hb|v c Hb Hv Hf Hok Hcnt|v b Hb Hv Hf|v b Hb Hv Hc Hd|b Hb Hv Hc]; cbn [reply_wire reply_meant reply_readable].
      * rewrite (sized_iff h _ _ _ _ Ec L). cbn [app]. change (blen []) with 0. split; [intros [_ <-]; auto|]. intros [H|[_ <-]]; [contradiction|auto].
      * split; [|intros (_ & H & _); contradiction]. rewrite (sized_iff h _ _ _ _ Ec L). intros [H _]. apply app_inv_tail in H.
        pose proof (chunked_longer c) as X. rewrite H in X. lia.
      * cbn in Fo. subst rest. rewrite (sized_iff h _ _ _ _ Ec L), app_nil_r. intuition.
      * rewrite (sized_iff h _ _ _ _ Ec L). split; [contradiction|]. intros _. split; [reflexivity|]. unfold length_of. rewrite Hc. apply Hd.
      * cbn in Fo. subst rest. rewrite (sized_iff h _ _ _ _ Ec L), app_nil_r. intuition.
Qed.

(** ** Whole responses *)
Lemma parse_response_ok l p n : parse_response l = Ok (p, n) <-> resp_parse resp_default l = (p, Ok n).
Proof.
  unfold parse_response. destruct (resp_parse resp_default l) as [p' [n'|e| |]]; cbn [bind]; split; intros H; try discriminate; congruence.
Qed.
(** What is read of a conforming response is its head. *)
Lemma reply_head_consumed p v c r ls rest p' n : bytes_ok (rfc_response_text v c r ls ++ rest) -> rfc_response v c r ls ->
  version_str (p_version p') = v -> three_digits (p_status p') = c ->
  resp_parse p (rfc_response_text v c r ls ++ rest) = (p', Ok n) -> n = blen (rfc_response_text v c r ls).
Proof.
  intros Hb (Hv & Hc1 & Hc2 & Hr & Hl) Ev Ec E. destruct (lines_read ls Hl) as (rs & R1 & R2). pose proof E as E0. apply response_exact in E0; [|exact Hb].
  destruct E0 as (w & rest' & k & c' & hs & Ew & _ & Hk & Hc' & Hh & ->). cbn [p_version p_status p_header] in *.
  rewrite status_str_three in Hh by exact Hc'. rewrite Ec, Ev in Hh.
  assert (Ex : exists i x, r = spaces i ++ x /\ reason_ok x).
  { inversion Hh as [bl v0 i c0 j x e fs hs0 Hbl Wv Wc Hx He Hfs E1]; subst v0 c0 hs0. rewrite <- E1 in Ew. unfold rfc_response_text in Ew. clear E1.
    destruct (word_first _ (rfc_version_word _ Hv)) as (vb & v1 & Evb & Vvb).
    destruct Hbl as [|bl Hbl|bl Hbl]; [|rewrite Evb in Ew; cbn in Ew; injection Ew as Ew _; unfold vchar, CR, LF in *; lia..].
    cbn [app] in Ew. rewrite <- !app_assoc in Ew. apply app_inv_head in Ew. cbn [spaces repeat app] in Ew. injection Ew as Ew.
    destruct (word_first _ Wc) as (cb & c1 & Ecb & Vcb).
    destruct i as [|i]; [|rewrite Ecb in Ew; cbn in Ew; injection Ew as Ew _; unfold vchar, SP in *; lia].
    cbn [spaces repeat app] in Ew. rewrite <- ?app_assoc in Ew. apply app_inv_head in Ew. cbn [app] in Ew. injection Ew as Ew. rewrite <- ?app_assoc in Ew.
    exists j, x. split; [|exact Hx].
    apply (span_cut (fun b => b <> CR /\ b <> LF) r (spaces j ++ x) (CRLF ++ lines_text ls ++ rest) (e ++ fs ++ rest')).
    - eapply Forall_impl; [|exact Hr]. unfold field_vchar, blank, vchar, SP, TAB, CR, LF. intros; lia.
    - apply Forall_app. split.
      + eapply Forall_impl; [|exact (spaces_all j)]. intros b <-. unfold SP, CR, LF. lia.
      + destruct Hx as (_ & Hx & _). eapply Forall_impl; [|exact Hx]. unfold CR, LF. intros; lia.
    - right. eexists _, _. split; [reflexivity|]. unfold CR, LF. lia.
    - right. destruct He as [-> | ->]; eexists _, _; (split; [reflexivity|]); unfold CR, LF; lia.
    - rewrite <- app_assoc. exact Ew. }
  destruct Ex as (i & x & Ex & Hx).
  assert (Hh2 : response_head (rfc_response_text v c r ls) (version_str k) (status_str c') (combine (map ln_name ls) rs)).
  { rewrite status_str_three by exact Hc'. rewrite Ec, Ev. rewrite Ex. unfold rfc_response_text.
    replace (v ++ SP :: c ++ SP :: (spaces i ++ x) ++ CRLF ++ lines_text ls) with ([] ++ v ++ spaces 1 ++ c ++ spaces (S i) ++ x ++ CRLF ++ lines_text ls).
    - constructor; [constructor|apply rfc_version_word, Hv| |exact Hx|auto|exact R2]. split; [destruct c; discriminate|apply digits_vchar, Hc2].
    - cbn [spaces repeat app]. rewrite <- !app_assoc. reflexivity. }
  rewrite resp_parse_eq, (resp_parse_head p _ k c' _ rest Hh2 Hk Hc') in E. apply (f_equal snd) in E. cbn [fst snd] in E. injection E as E.
  rewrite blen_app in E. lia.
Qed.
Lemma answer_exact m rest : bytes_ok (reply_text m ++ rest) -> reply_ok m -> follows (rr_body m) rest ->
  ((exists p, read_reply (rr_to m) (reply_text m ++ rest) = Ok (p, reply_meant (rr_body m), rest) /\ answered_as m p) <-> answer_readable m).
Proof.
  destruct m as [k v c r ls x]. unfold reply_ok, reply_text, answer_readable, answered_as, rr_fields.
  cbn [rr_to rr_version rr_code rr_reason rr_lines rr_body]. intros Hb (R & F & U & S) Fo. rewrite <- app_assoc in *.
  set (hd := rfc_response_text v c r ls) in *.
  pose proof (rfc_response_exact resp_default v c r ls (reply_wire x ++ rest) Hb R) as X. fold hd in X.
  assert (Hl : Forall line_ok ls) by apply R. pose proof (reply_exact k _ ls x rest Hl U S F Fo) as B.
  split.
  - intros (p & E & M1 & M2 & M3).
    assert (P : parse_response (hd ++ reply_wire x ++ rest) = Ok (p, blen hd)).
    { unfold read_reply in E. destruct (parse_response _) as [[p' n]|e| |] eqn:P in E; try discriminate. cbn [bind] in E.
      destruct (reply_body_of _ _ _) as [[b r']|e| |] in E; try discriminate. cbn [bind] in E.
      assert (p' = p) by congruence. subst p'. rewrite P. repeat f_equal. apply parse_response_ok in P.
      exact (reply_head_consumed _ _ _ _ _ _ _ _ Hb R M1 M2 P). }
    apply parse_response_ok in P as P0.
    assert (A : exists p', resp_parse resp_default (hd ++ reply_wire x ++ rest) = (p', Ok (blen hd)) /\
      version_str (p_version p') = v /\ three_digits (p_status p') = c /\ p_header p' = map line_field ls) by (exists p; auto).
    apply X in A as (A1 & A2 & A3 & A4 & A5). repeat (match goal with |- _ /\ _ => split; [assumption|] end).
    apply B. unfold read_reply in E. rewrite P in E. cbn [bind] in E.
    rewrite M3, skipn_blen_app in E. destruct (reply_body_of _ _ _) as [[b r']|e| |]; try discriminate. cbn [bind] in E. injection E as -> ->. reflexivity.
  - intros (A1 & A2 & A3 & A4 & A5 & A6).
    destruct (proj2 X (conj A1 (conj A2 (conj A3 (conj A4 A5))))) as (p & P & M1 & M2 & M3). exists p. apply parse_response_ok in P.
    split; [|auto]. unfold read_reply. rewrite P. cbn [bind]. rewrite M3, skipn_blen_app.
    apply B in A6. rewrite A6. reflexivity.
Qed.
(** Any number of them, one after the other. *)
Lemma answers_read ms rest : bytes_ok (concat (map reply_text ms) ++ rest) -> Forall reply_ok ms -> Forall answer_readable ms -> in_order ms rest ->
  exists got, read_replies (map rr_to ms) (concat (map reply_text ms) ++ rest) = Ok (got, rest) /\
    Forall2 (fun m g => answered_as m (fst g) /\ snd g = reply_meant (rr_body m)) ms got.
Proof.
  induction ms as [|m ms IH]; intros Hb Hok Hr Ho.
  - exists []. split; [reflexivity|constructor].
  - cbn [map concat in_order] in *. destruct Ho as [Fo Ho]. rewrite <- app_assoc in *.
    destruct (proj2 (answer_exact m (concat (map reply_text ms) ++ rest) Hb (Forall_inv Hok) Fo) (Forall_inv Hr)) as (p & E & Q).
    destruct IH as (got & E2 & G); [apply bytes_ok_app in Hb; apply Hb|exact (Forall_inv_tail Hok)|exact (Forall_inv_tail Hr)|exact Ho|].
    exists ((p, reply_meant (rr_body m)) :: got). split.
    + cbn [read_replies]. rewrite E. cbn [bind]. rewrite E2. reflexivity.
    + constructor; [split; [exact Q|reflexivity]|exact G].
Qed.
Lemma nobody_exact k : (res_nobody k = true <-> k = MHead \/ k = MOptions \/ k = MConnect) /\
  (is_nobody k = true <-> k = MGet \/ k = MHead \/ k = MOptions \/ k = MConnect).
Proof.
  split; [exact (mute_iff k)|]. destruct k; cbn; split; intros H; try discriminate; auto; destruct H as [H|[H|[H|H]]]; discriminate.
Qed.
