(** Proofs about heads that are accepted although RFC 9112 does not allow them (C109). *)
From Coq Require Import Ascii String NArith ZArith Lia Bool List ZifyBool ZifyNat ZifyN.
From Verif Require Import Base S_Utf8 P_Base M_Std M_Helper M_Header M_Url M_Http1 S_Hex S_Http1 S_Http1Api P_Std P_Helper P_Header P_Http1 P_Msg
  S_Url S_Rfc9112 P_Rfc9112.
Import ListNotations.
Local Open Scope N_scope.

Definition not_cr (b : N) : Prop := b <> CR.
Lemma spaces_not_cr k : Forall not_cr (spaces k).
Proof. eapply Forall_impl; [|exact (spaces_all k)]. intros b <-. unfold not_cr, SP, CR. lia. Qed.
Lemma vchar_not_cr w : Forall vchar w -> Forall not_cr w.
Proof. intros H. eapply Forall_impl; [|exact H]. unfold vchar, not_cr, CR. intros; lia. Qed.
Lemma name_not_cr n : name_ok n -> Forall not_cr n.
Proof. intros H. apply vchar_not_cr, (name_word n H). Qed.
Lemma texty_not_cr v : Forall texty v -> Forall not_cr v.
Proof. intros H. eapply Forall_impl; [|exact H]. intros b K. apply texty_byte in K. apply K. Qed.
Lemma in_not_cr v : ~ In CR v -> Forall not_cr v.
Proof. intros H. apply Forall_forall. intros b K. unfold not_cr. congruence. Qed.
Lemma line_start l : line_ok l -> exists x, line_text l = x ++ CRLF /\ Forall not_cr x /\ x = ln_name l ++ COLON :: ln_lead l ++ ln_value l ++ ln_trail l.
Proof.
  intros (Hn & Hl & Hv & Ht & _). exists (ln_name l ++ COLON :: ln_lead l ++ ln_value l ++ ln_trail l). split; [|split; [|reflexivity]].
  - unfold line_text. cbn [app]. rewrite <- !app_assoc. cbn [app]. rewrite <- !app_assoc. reflexivity.
  - apply Forall_app. split; [apply name_not_cr, Hn|]. constructor; [unfold not_cr, COLON, CR; lia|].
    apply Forall_app. split; [apply texty_not_cr, blanks_texty, Hl|]. apply Forall_app. split; [apply texty_not_cr, value_texty, Hv|apply texty_not_cr, blanks_texty, Ht].
Qed.
Lemma tchar_cut n i c x n' c' y : name_ok n -> name_ok n' -> ~ tchar c' -> n ++ spaces i ++ c :: x = n' ++ c' :: y -> ~ tchar c -> n = n' /\ spaces i ++ c :: x = c' :: y.
Proof.
  intros [_ Hn] [_ Hn'] Hc' E Hc. apply (span_cut tchar n n'); [assumption..| | |exact E].
  - right. destruct i as [|i]; [exists c, x; auto|]. exists SP, (spaces i ++ c :: x). split; [reflexivity|].
    unfold tchar, alpha, upper, lower, digit, SP. cbn. lia.
  - right. eauto.
Qed.
Lemma colon_not_tchar : ~ tchar COLON.
Proof. unfold tchar, alpha, upper, lower, digit, COLON. cbn. lia. Qed.

(** A text in value characters is a value with blanks around it. *)
Lemma texty_line v : Forall texty v -> exists a x b, v = a ++ x ++ b /\ Forall blank a /\ rfc_value x /\ Forall blank b /\ (x = [] -> b = []).
Proof.
  intros H.
  assert (F : forall w, Forall texty w -> w = [] \/ (exists b w', w = b :: w' /\ field_vchar b) -> exists x b, w = x ++ b /\ rfc_value x /\ Forall blank b /\ (x = [] -> b = [])).
  { intros w. induction w as [|c w IH] using rev_ind; intros T S.
    - exists [], []. split; [reflexivity|]. split; [left; reflexivity|]. split; [constructor|reflexivity].
    - apply Forall_app in T as [T1 T2]. inversion T2 as [|? ? Tc _]; subst. destruct w as [|d w].
      + destruct S as [S|(b & w' & E & V)]; [discriminate|]. injection E as <- <-. exists [c], []. split; [reflexivity|].
        split; [right; left; exists c; auto|]. split; [constructor|discriminate].
      + destruct S as [S|(b & w' & E & V)]; [discriminate|]. cbn in E. injection E as <- <-. destruct Tc as [Vc|Bc].
        * exists ((d :: w) ++ [c]), []. rewrite app_nil_r. split; [reflexivity|]. split; [|split; [constructor|reflexivity]].
          right. right. exists d, w, c. inversion T1; subst. auto.
        * destruct IH as (x & b & E & X1 & X2 & X3); [exact T1|eauto|]. exists x, (b ++ [c]). rewrite E, <- app_assoc. split; [reflexivity|]. split; [exact X1|].
          split; [apply Forall_app; split; [exact X2|constructor; [exact Bc|constructor]]|]. intros ->. rewrite X3 in E by reflexivity. discriminate. }
  induction H as [|b v Hb Hv (a & x & b' & -> & A1 & A2 & A3 & A4)].
  - exists [], [], []. split; [reflexivity|]. split; [constructor|]. split; [left; reflexivity|]. split; [constructor|reflexivity].
  - destruct Hb as [Vb|Bb].
    + destruct (F (b :: a ++ x ++ b')) as (y & z & E & Y1 & Y2 & Y3); [constructor; [left; exact Vb|exact Hv]|eauto|].
      exists [], y, z. split; [exact E|]. split; [constructor|]. auto.
    + exists (b :: a), x, b'. split; [reflexivity|]. split; [constructor; assumption|]. auto.
Qed.
Lemma value_line n i j v : name_ok n -> value_ok v -> v <> [] ->
  (rfc_line (n ++ spaces i ++ COLON :: spaces j ++ v ++ CRLF) <-> i = O /\ Forall value_char v).
Proof.
  intros Hn (V1 & V2 & V3) Nv. split.
  - intros (l & Hl & E). destruct (line_start l Hl) as (x & Ex & Fx & Dx). rewrite Ex in E.
    assert (E2 : (n ++ spaces i ++ COLON :: spaces j ++ v) ++ CRLF = x ++ CRLF).
    { rewrite <- E. rewrite <- !app_assoc. cbn [app]. rewrite <- !app_assoc. reflexivity. }
    apply app_inv_tail in E2. rewrite Dx in E2. destruct Hl as (Ln & Ll & Lv & Lt & _).
    destruct (tchar_cut _ _ _ _ _ _ _ Hn Ln colon_not_tchar E2 colon_not_tchar) as [-> E3].
    destruct i as [|i]; [|discriminate]. split; [reflexivity|]. cbn in E3. injection E3 as E3.
    assert (T : Forall texty (spaces j ++ v)).
    { rewrite E3. apply Forall_app. split; [apply blanks_texty, Ll|]. apply Forall_app. split; [apply value_texty, Lv|apply blanks_texty, Lt]. }
    apply Forall_app in T. apply T.
  - intros [-> T]. destruct (texty_line v T) as (a & x & b & -> & A1 & A2 & A3 & A4). exists (mkLine n (spaces j ++ a) x b). split.
    + split; [exact Hn|]. split; [|auto]. cbn. apply Forall_app. split; [|exact A1]. eapply Forall_impl; [|exact (spaces_all j)]. intros c <-. left. reflexivity.
    + unfold line_text. cbn [ln_name ln_lead ln_value ln_trail spaces repeat app]. rewrite <- !app_assoc. reflexivity.
Qed.
Lemma empty_line n i j e : name_ok n -> eol e ->
  (rfc_line (n ++ spaces i ++ COLON :: spaces j ++ CR :: e) <-> i = O /\ e = [LF]).
Proof.
  intros Hn He. split.
  - intros (l & Hl & E). destruct (line_start l Hl) as (x & Ex & Fx & Dx). rewrite Ex in E.
    assert (E2 : (n ++ spaces i ++ COLON :: spaces j) ++ CR :: e = x ++ CRLF).
    { rewrite <- E. rewrite <- !app_assoc. cbn [app]. rewrite <- ?app_assoc. reflexivity. }
    destruct (span_cut not_cr (n ++ spaces i ++ COLON :: spaces j) x (CR :: e) CRLF) as [E3 E4]; [|exact Fx|right; eexists _, _; split; [reflexivity|unfold not_cr; congruence]..|exact E2|].
    { apply Forall_app. split; [apply name_not_cr, Hn|]. apply Forall_app. split; [apply spaces_not_cr|]. constructor; [unfold not_cr, COLON, CR; lia|apply spaces_not_cr]. }
    injection E4 as ->. split; [|reflexivity]. rewrite Dx in E3. destruct Hl as (Ln & Ll & Lv & Lt & _).
    destruct (tchar_cut _ _ _ _ _ _ _ Hn Ln colon_not_tchar E3 colon_not_tchar) as [_ E5]. destruct i; [reflexivity|discriminate].
  - intros [-> ->]. exists (mkLine n (spaces j) [] []). split.
    + split; [exact Hn|]. split; [|split; [left; reflexivity|split; [constructor|reflexivity]]]. eapply Forall_impl; [|exact (spaces_all j)]. intros c <-. left. reflexivity.
    + reflexivity.
Qed.
Lemma block_cons w n v ws : field w n v -> (rfc_block (w ++ ws) <-> rfc_line w /\ rfc_block ws).
Proof.
  intros Hf. split.
  - intros (ls & Hls & E).
    assert (S : exists x y, w = x ++ CR :: y /\ Forall not_cr x /\ (y = [LF] \/ (eol y /\ y <> [LF])) /\ exists b x', x = b :: x' /\ not_cr b).
    { destruct Hf as [n i j v Hn (V1 & V2 & V3) Nv|n i j e Hn He].
      - exists (n ++ spaces i ++ COLON :: spaces j ++ v), [LF]. split; [rewrite <- !app_assoc; cbn [app]; rewrite <- !app_assoc; reflexivity|].
        split; [|split; [auto|]].
        + apply Forall_app. split; [apply name_not_cr, Hn|]. apply Forall_app. split; [apply spaces_not_cr|]. constructor; [unfold not_cr, COLON, CR; lia|].
          apply Forall_app. split; [apply spaces_not_cr|apply in_not_cr, V2].
        + destruct (word_first _ (name_word n Hn)) as (b & n' & -> & Vb). eexists _, _. split; [reflexivity|]. unfold vchar, not_cr, CR in *. lia.
      - exists (n ++ spaces i ++ COLON :: spaces j), e. split; [rewrite <- !app_assoc; cbn [app]; rewrite <- ?app_assoc; reflexivity|].
        split; [|split].
        + apply Forall_app. split; [apply name_not_cr, Hn|]. apply Forall_app. split; [apply spaces_not_cr|]. constructor; [unfold not_cr, COLON, CR; lia|apply spaces_not_cr].
        + destruct He; [right; split; [constructor|discriminate]|left; reflexivity|right; split; [constructor|discriminate]].
        + destruct (word_first _ (name_word n Hn)) as (b & n' & -> & Vb). eexists _, _. split; [reflexivity|]. unfold vchar, not_cr, CR in *. lia. }
    destruct S as (x & y & -> & Fx & Hy & b & x' & Ex & Nb). destruct Hls as [|l ls Hl Hls].
    + exfalso. rewrite Ex in E. cbn in E. injection E as -> _. apply Nb. reflexivity.
    + unfold lines_text in E. cbn [map concat] in E. destruct (line_start l Hl) as (z & Ez & Fz & _). rewrite Ez, <- !app_assoc in E. cbn [app] in E.
      destruct (span_cut not_cr x z (CR :: y ++ ws) (CR :: LF :: concat (map line_text ls) ++ CRLF) Fx Fz) as [-> E2];
        [right; eexists _, _; split; [reflexivity|unfold not_cr; congruence]..|exact E|].
      injection E2 as E2.
      assert (y = [LF]) as ->. { destruct Hy as [->|[Hy N]]; [reflexivity|]. destruct Hy; [discriminate|contradiction|discriminate]. }
      cbn in E2. injection E2 as ->. split; [exists l; split; [exact Hl|rewrite Ez; reflexivity]|]. exists ls. split; [exact Hls|reflexivity].
  - intros [(l & Hl & ->) (ls & Hls & ->)]. exists (l :: ls). split; [constructor; assumption|]. unfold lines_text. cbn [map concat]. rewrite <- app_assoc. reflexivity.
Qed.
Lemma block_end : rfc_block [CR; LF] /\ ~ rfc_block [LF].
Proof.
  split; [exists []; split; [constructor|reflexivity]|]. intros (ls & Hls & E). destruct Hls as [|l ls Hl _]; [discriminate|].
  unfold lines_text in E. cbn [map concat] in E. apply (f_equal (@length N)) in E. unfold line_text in E. rewrite !app_length in E. cbn in E. rewrite !app_length in E. cbn in E. lia.
Qed.

(** ** Heads *)
Lemma word_cut a b x y : word a -> word b -> a ++ SP :: x = b ++ SP :: y -> a = b /\ x = y.
Proof.
  intros [_ Ha] [_ Hb] E. destruct (span_cut vchar a b (SP :: x) (SP :: y) Ha Hb) as [-> K]; [right; eexists _, _; split; [reflexivity|unfold vchar, SP; lia]..|exact E|].
  injection K as ->. auto.
Qed.
Lemma blanks_first bl w x w' y : blanks bl -> word w' -> bl ++ w ++ x = w' ++ y -> bl = [].
Proof.
  intros Hb Hw E. destruct (word_first _ Hw) as (b & w1 & -> & V). destruct Hb as [|bl Hb|bl Hb]; [reflexivity|exfalso; cbn in E; injection E as E _; unfold vchar, CR, LF in *; lia..].
Qed.
Lemma spaces_first i w x w' y : word w' -> word w -> spaces i ++ w ++ x = w' ++ y -> i = O.
Proof.
  intros Hw _ E. destruct (word_first _ Hw) as (b & w1 & -> & V). destruct i; [reflexivity|]. exfalso. cbn in E. injection E as E _. unfold vchar, SP in *. lia.
Qed.
Lemma request_lax bl m i t j v e fs hs : blanks bl -> In m known_methods -> word t -> In v known_versions -> eol e -> fields fs hs ->
  (rfc_request_octets (bl ++ method_str m ++ spaces (S i) ++ t ++ spaces (S j) ++ version_str v ++ e ++ fs) <->
   bl = [] /\ i = O /\ rfc_target (method_str m) t /\ j = O /\ (v = V10 \/ v = V11) /\ e = CRLF /\ rfc_block fs).
Proof.
  intros Hbl Hm Ht Hv He Hfs. pose proof (method_word _ Hm) as Wm. pose proof (version_word _ Hv) as Wv. split.
  - intros (m' & t' & v' & ls & (Rm & Rt & Rv & Rl) & E). unfold rfc_request_text in E.
    pose proof (name_word _ Rm) as Wm'. pose proof (target_word _ _ Rt) as Wt'. pose proof (rfc_version_word _ Rv) as Wv'.
    pose proof (blanks_first _ _ _ _ _ Hbl Wm' E) as ->. split; [reflexivity|]. cbn [app spaces repeat] in E.
    apply word_cut in E as [E1 E]; [|assumption..]. subst m'. pose proof (spaces_first i t _ t' _ Wt' Ht E) as ->. split; [reflexivity|]. cbn [app spaces repeat] in E.
    apply word_cut in E as [E1 E]; [|assumption..]. subst t'. split; [exact Rt|]. pose proof (spaces_first j _ _ v' _ Wv' Wv E) as ->. split; [reflexivity|]. cbn [app spaces repeat] in E.
    assert (E2 : version_str v = v' /\ e ++ fs = CRLF ++ lines_text ls).
    { apply (span_cut vchar); [apply Wv|apply Wv'| | |exact E]; right.
      - destruct He; eexists _, _; (split; [reflexivity|unfold vchar, CR, LF, SP; lia]).
      - eexists _, _. split; [reflexivity|unfold vchar, CR; lia]. }
    destruct E2 as [E2 E3]. split.
    { cbn in Hv. destruct Hv as [<-|[<-|[<-|[<-|[]]]]]; [auto..| |]; exfalso; destruct Rv; apply (f_equal (@length N)) in E2; discriminate. }
    assert (e = CRLF) as -> by (destruct He; [reflexivity|discriminate..]). split; [reflexivity|]. cbn in E3. injection E3 as ->. exists ls. auto.
  - intros (-> & -> & Rt & -> & Hv2 & -> & ls & Hls & ->). exists (method_str m), t, (version_str v), ls. split; [|reflexivity].
    split; [|split; [exact Rt|split; [|exact Hls]]].
    + cbn in Hm. split; [destruct Wm as [W _]; exact W|]. apply (forallb_Forall is_header_name_token tchar); [intros b; apply header_name_token_spec|].
      repeat (destruct Hm as [<-|Hm]; [reflexivity|]). contradiction.
    + destruct Hv2 as [-> | ->]; [apply (rv_intro 49 48)|apply (rv_intro 49 49)]; unfold digit; lia.
Qed.
Lemma response_lax bl v i c j r e fs hs : blanks bl -> In v known_versions -> 100 <= c <= 999 -> reason_ok r -> e = [CR; LF] \/ e = [LF] -> fields fs hs ->
  (rfc_response_octets (bl ++ version_str v ++ spaces (S i) ++ three_digits c ++ spaces (S j) ++ r ++ e ++ fs) <->
   bl = [] /\ (v = V10 \/ v = V11) /\ i = O /\ e = CRLF /\ rfc_block fs).
Proof.
  intros Hbl Hv Hc Hr He Hfs. pose proof (version_word _ Hv) as Wv.
  assert (Dc : Forall digit (three_digits c)).
  { unfold three_digits. repeat (apply Forall_cons; [unfold digit; lia|]). apply Forall_nil. }
  assert (Wc : word (three_digits c)) by (split; [discriminate|apply digits_vchar, Dc]).
  split.
  - intros (v' & c' & r' & ls & (Rv & Rc1 & Rc2 & Rr & Rl) & E). unfold rfc_response_text in E. pose proof (rfc_version_word _ Rv) as Wv'.
    assert (Wc' : word c') by (split; [destruct c'; discriminate|apply digits_vchar, Rc2]).
    pose proof (blanks_first _ _ _ _ _ Hbl Wv' E) as ->. split; [reflexivity|]. cbn [app] in E. cbn [app spaces repeat] in E.
    apply word_cut in E as [E1 E]; [|assumption..]. split.
    { cbn in Hv. destruct Hv as [<-|[<-|[<-|[<-|[]]]]]; [auto..| |]; exfalso; destruct Rv; apply (f_equal (@length N)) in E1; discriminate. }
    pose proof (spaces_first i _ _ c' _ Wc' Wc E) as ->. split; [reflexivity|]. cbn [app spaces repeat] in E.
    apply word_cut in E as [_ E]; [|assumption..].
    assert (E2 : spaces j ++ r = r' /\ e ++ fs = CRLF ++ lines_text ls).
    { apply (span_cut (fun b => b <> CR /\ b <> LF)).
      - apply Forall_app. split.
        + eapply Forall_impl; [|exact (spaces_all j)]. intros b <-. unfold SP, CR, LF. lia.
        + destruct Hr as (_ & Hx & _). eapply Forall_impl; [|exact Hx]. unfold CR, LF. intros; lia.
      - apply texty_not_eol, Rr.
      - right. destruct He as [->| ->]; eexists _, _; (split; [reflexivity|]); unfold CR, LF; lia.
      - right. eexists _, _. split; [reflexivity|]. unfold CR, LF. lia.
      - rewrite <- app_assoc. exact E. }
    destruct E2 as [_ E3]. assert (e = CRLF) as -> by (destruct He as [->| ->]; [reflexivity|discriminate]). split; [reflexivity|]. cbn in E3. injection E3 as ->. exists ls. auto.
  - intros (-> & Hv2 & -> & -> & ls & Hls & ->). exists (version_str v), (three_digits c), (spaces j ++ r), ls. split.
    + split; [destruct Hv2 as [-> | ->]; [apply (rv_intro 49 48)|apply (rv_intro 49 49)]; unfold digit; lia|]. split; [reflexivity|]. split; [exact Dc|]. split; [|exact Hls].
      apply Forall_app. split.
      * eapply Forall_impl; [|exact (spaces_all j)]. intros b <-. right. left. reflexivity.
      * destruct Hr as (_ & Hx & _). eapply Forall_impl; [|exact Hx]. cbv beta. unfold field_vchar, vchar, blank, SP. intros; lia.
    + unfold rfc_response_text. cbn [app spaces repeat]. rewrite <- !app_assoc. reflexivity.
Qed.
Lemma accepted_request q l q' n : bytes_ok l -> req_parse q l = (q', Ok n) ->
  exists bl m i t j v e fs hs rest,
    l = (bl ++ method_str m ++ spaces (S i) ++ t ++ spaces (S j) ++ version_str v ++ e ++ fs) ++ rest /\
    n = blen (bl ++ method_str m ++ spaces (S i) ++ t ++ spaces (S j) ++ version_str v ++ e ++ fs) /\
    blanks bl /\ In m known_methods /\ word t /\ In v known_versions /\ eol e /\ fields fs hs /\
    (rfc_request_octets (bl ++ method_str m ++ spaces (S i) ++ t ++ spaces (S j) ++ version_str v ++ e ++ fs) <->
     bl = [] /\ i = O /\ rfc_target (method_str m) t /\ j = O /\ (v = V10 \/ v = V11) /\ e = CRLF /\ rfc_block fs).
Proof.
  intros Hl H. apply request_exact in H; [|exact Hl]. destruct H as (w & rest & m & t & v & hs & u & -> & -> & Hm & Hv & Hh & _ & _).
  inversion Hh as [bl ms i t0 j vs e fs hs0 Hbl Wm Wt Wv He Hfs E]; subst. exists bl, m, i, t, j, v, e, fs, hs, rest.
  repeat match goal with |- _ /\ _ => split end; auto. apply (request_lax bl m i t j v e fs hs); assumption.
Qed.
Lemma accepted_response p l p' n : bytes_ok l -> resp_parse p l = (p', Ok n) ->
  exists bl v i c j r e fs hs rest,
    l = (bl ++ version_str v ++ spaces (S i) ++ three_digits c ++ spaces (S j) ++ r ++ e ++ fs) ++ rest /\
    n = blen (bl ++ version_str v ++ spaces (S i) ++ three_digits c ++ spaces (S j) ++ r ++ e ++ fs) /\
    blanks bl /\ In v known_versions /\ 100 <= c <= 999 /\ reason_ok r /\ (e = [CR; LF] \/ e = [LF]) /\ fields fs hs /\
    (rfc_response_octets (bl ++ version_str v ++ spaces (S i) ++ three_digits c ++ spaces (S j) ++ r ++ e ++ fs) <->
     bl = [] /\ (v = V10 \/ v = V11) /\ i = O /\ e = CRLF /\ rfc_block fs).
Proof.
  intros Hl H. apply response_exact in H; [|exact Hl]. destruct H as (w & rest & v & c & hs & -> & -> & Hv & Hc & Hh & _).
  rewrite status_str_three in Hh by exact Hc.
  inversion Hh as [bl vs i cs j r e fs hs0 Hbl Wv Wc Hr He Hfs E]; subst. exists bl, v, i, c, j, r, e, fs, hs, rest.
  split; [reflexivity|]. split; [reflexivity|]. do 6 (split; [assumption|]). apply (response_lax bl v i c j r e fs hs); assumption.
Qed.
Lemma any_value v rest : value_ok v -> v <> [] ->
  req_parse req_default (request_text (str "GET") (str "/") (str "HTTP/1.1") [(str "X", v)] ++ rest) =
    (mkReq MGet V11 (mkUrl ScHttp (str "/") None None None (Some 0) None) [(str "X", v)] false, Ok (blen (request_text (str "GET") (str "/") (str "HTTP/1.1") [(str "X", v)]))).
Proof.
  intros Hv Nv. apply (request_accept req_default MGet (str "/") V11 [(str "X", v)]).
  - cbn. auto.
  - cbn. auto.
  - split; [discriminate|]. vlist.
  - constructor; [|constructor]. split; [split; [discriminate|cbn; constructor; [unfold tchar, alpha, upper; lia|constructor]]|exact Hv].
  - cbn. auto.
  - eapply wu_target; [discriminate|vm_compute; reflexivity|apply hf_none; reflexivity|].
    apply (sf_hint [(str "X", v)] (mkUrl ScNone (str "/") None None None (Some 0) None)); [reflexivity|]. apply sh_none. reflexivity.
Qed.
