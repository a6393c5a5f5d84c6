(** Lemmas on M_Header: the header block parser and printer. *)
From Coq Require Import Ascii String NArith ZArith Lia Bool List ZifyBool ZifyNat ZifyN.
From Verif Require Import Base P_Base M_Std P_Std M_Helper S_Http1 P_Helper M_Header M_Url M_Http1 S_Http1Api.
Import ListNotations.
Local Open Scope N_scope.
Ltac Zify.zify_post_hook ::= Z.div_mod_to_equations.

Ltac napp := repeat first [rewrite <- app_assoc | progress cbn [app]].

(** ** One line *)
Lemma name_token n : name_ok n -> n <> [] /\ forallb is_header_name_token n = true.
Proof.
  intros [H1 H2]. split; [exact H1|].
  apply (forallb_Forall is_header_name_token tchar); [apply header_name_token_spec|exact H2].
Qed.
Lemma value_token v : value_ok v -> forallb is_header_value_token v = true.
Proof.
  intros (H1 & H2 & _). apply forallb_forall. intros b Hb.
  unfold bytes_ok in H1. rewrite Forall_forall in H1.
  rewrite header_value_token_spec by (apply H1; exact Hb).
  destruct (b =? 13) eqn:E; [|reflexivity]. apply N.eqb_eq in E. subst. contradiction.
Qed.
Lemma cr_not_value : is_header_value_token CR = false. Proof. reflexivity. Qed.

Lemma parse_name_app n i r : name_ok n ->
  parse_header_name (n ++ spaces i ++ COLON :: r) = Ok (n, spaces i ++ COLON :: r).
Proof.
  intros H. apply name_token in H as [H1 H2]. unfold parse_header_name.
  destruct i as [|i]; cbn [spaces repeat app]; apply parse_token_by_app; auto.
Qed.
Lemma parse_value_app v r : value_ok v -> v <> [] ->
  parse_header_value (v ++ CRLF ++ r) = Ok (v, CRLF ++ r).
Proof.
  intros H Hn. unfold parse_header_value, parse_token_by. cbn [app CRLF].
  rewrite (scan_app _ v CR (LF :: r)) by (try apply value_token; auto).
  destruct v; [contradiction|reflexivity].
Qed.

Lemma field_parses w n v r : field w n v -> parse_header_line (w ++ r) = Ok ((n, v), r).
Proof.
  intros H. unfold parse_header_line. destruct H as [n i j v Hn Hv Hne|n i j e Hn He].
  - replace ((n ++ spaces i ++ COLON :: spaces j ++ v ++ CRLF) ++ r)
      with (n ++ spaces i ++ COLON :: (spaces j ++ v ++ CRLF ++ r))
      by (rewrite <- !app_assoc; cbn [app]; rewrite <- !app_assoc; reflexivity).
    rewrite parse_name_app by exact Hn. cbn [bind].
    rewrite skip_spaces_app by discriminate. cbn [bind]. rewrite expect_app. cbn [bind].
    destruct v as [|b v]; [contradiction|].
    assert (Hb : b <> SP). { destruct Hv as (_ & _ & K). cbn in K. congruence. }
    cbn [app]. rewrite skip_spaces_app by exact Hb. cbn [bind].
    change (b :: v ++ CRLF ++ r) with ((b :: v) ++ CRLF ++ r).
    rewrite parse_value_app by assumption. reflexivity.
  - replace ((n ++ spaces i ++ COLON :: spaces j ++ CR :: e) ++ r)
      with (n ++ spaces i ++ COLON :: (spaces j ++ CR :: e ++ r))
      by (rewrite <- !app_assoc; cbn [app]; rewrite <- !app_assoc; reflexivity).
    rewrite parse_name_app by exact Hn. cbn [bind].
    rewrite skip_spaces_app by discriminate. cbn [bind]. rewrite expect_app. cbn [bind].
    rewrite skip_spaces_app by discriminate. cbn [bind].
    change (parse_header_value (CR :: e ++ r)) with (Ok (@nil N, e ++ r)). cbn [bind].
    rewrite skip_new_line_eol by exact He. reflexivity.
Qed.

Lemma field_sound l n v r : bytes_ok l -> parse_header_line l = Ok ((n, v), r) -> exists w, field w n v /\ l = w ++ r.
Proof.
  unfold parse_header_line. intros Hl H.
  apply bind_ok in H as ([n0 r1] & H1 & H). apply bind_ok in H as ([[] r2] & H2 & H).
  apply bind_ok in H as ([[] r3] & H3 & H). apply bind_ok in H as ([[] r4] & H4 & H).
  apply bind_ok in H as ([v0 r5] & H5 & H). apply bind_ok in H as ([[] r6] & H6 & H).
  injection H as -> -> ->.
  apply parse_token_by_ok in H1 as (-> & Hn & Ht & _).
  apply skip_spaces_ok in H2 as (i & _ & _ & -> & _ & _).
  apply expect_ok in H3. subst r2.
  apply skip_spaces_ok in H4 as (j & b & r' & -> & -> & Hb).
  assert (Hname : name_ok n).
  { split; [exact Hn|]. apply (forallb_Forall is_header_name_token tchar); [apply header_name_token_spec|exact Ht]. }
  unfold parse_header_value, parse_token_by in H5.
  destruct (scan is_header_value_token (b :: r')) as [[t s]|] eqn:S; [|discriminate].
  apply scan_some in S as (E & Hv & c & s' & -> & Hc).
  rewrite E in Hl. apply bytes_ok_app in Hl as [_ Hl]. apply bytes_ok_app in Hl as [_ Hl].
  apply bytes_ok_cons in Hl as [_ Hl]. apply bytes_ok_app in Hl as [_ Hl].
  apply bytes_ok_app in Hl as [Hok Hl]. apply bytes_ok_cons in Hl as [K _].
  rewrite header_value_token_spec in Hc by exact K.
  assert (c = CR) by (unfold CR; lia). subst c.
  destruct t as [|t0 t].
  - cbn [app] in E. injection E as -> ->. injection H5 as <- <-.
    apply skip_new_line_ok in H6 as (e & He & ->).
    exists (n ++ spaces i ++ COLON :: spaces j ++ CR :: e). split; [constructor; assumption|].
    napp. reflexivity.
  - injection H5 as <- <-.
    apply skip_new_line_ok in H6 as (e & He & E6).
    assert (e = CRLF). { destruct He; cbn in E6; try discriminate E6. reflexivity. } subst e.
    injection E6 as ->. rewrite E. injection E as <- E.
    exists (n ++ spaces i ++ COLON :: spaces j ++ (b :: t) ++ CRLF). split.
    + apply field_value; [exact Hname| |discriminate].
      split; [exact Hok|]. split; [|cbn; congruence].
      intros Hin. rewrite forallb_forall in Hv. apply Hv in Hin. discriminate.
    + napp. reflexivity.
Qed.

Lemma parse_header_line_stable : stable parse_header_line.
Proof.
  unfold parse_header_line.
  apply stable_bind; [apply parse_token_by_stable|intros n].
  apply (stable_bind skip_spaces); [apply skip_spaces_stable|intros u1].
  apply (stable_bind (expect 58 _)); [apply expect_stable|intros u2].
  apply (stable_bind skip_spaces); [apply skip_spaces_stable|intros u3].
  apply (stable_bind parse_header_value); [apply parse_token_by_stable|intros v].
  apply (stable_bind skip_new_line); [apply skip_new_line_stable|intros u4].
  apply stable_ret.
Qed.
Lemma parse_header_line_total : total_p parse_header_line.
Proof.
  intros l. unfold parse_header_line.
  apply returns_bind; [apply parse_token_by_total|intros [n r1] _].
  apply returns_bind; [apply skip_spaces_total|intros [u1 r2] _].
  apply returns_bind; [apply expect_total|intros [u2 r3] _].
  apply returns_bind; [apply skip_spaces_total|intros [u3 r4] _].
  apply returns_bind; [apply parse_token_by_total|intros [v r5] _].
  apply returns_bind; [apply skip_new_line_total|intros [u4 r6] _].
  apply returns_ok.
Qed.
Lemma skip_spaces_len l a r : skip_spaces l = Ok (a, r) -> (length r <= length l)%nat.
Proof. intros H. apply skip_spaces_ok in H as (n & b & r' & -> & _). rewrite app_length. lia. Qed.
Lemma skip_new_line_len l a r : skip_new_line l = Ok (a, r) -> (length r < length l)%nat.
Proof. intros H. apply skip_new_line_ok in H as (e & He & ->). rewrite app_length. destruct He; cbn; lia. Qed.
Lemma parse_token_by_len f e b l t r : parse_token_by f e b l = Ok (t, r) -> (length r < length l)%nat.
Proof.
  unfold parse_token_by. destruct (scan f l) as [[t' r']|] eqn:S; [|discriminate].
  apply scan_some in S as (-> & _ & c & r'' & -> & _). rewrite app_length. cbn [length].
  destruct t' as [|t0 t']; [destruct b|].
  - intros H. injection H as _ <-. lia.
  - discriminate.
  - intros H. injection H as _ <-. cbn [length]. lia.
Qed.
Lemma parse_header_line_len l nv r : parse_header_line l = Ok (nv, r) -> (length r < length l)%nat.
Proof.
  unfold parse_header_line. intros H.
  apply bind_ok in H as ([n0 r1] & H1 & H). apply bind_ok in H as ([[] r2] & H2 & H).
  apply bind_ok in H as ([[] r3] & H3 & H). apply bind_ok in H as ([[] r4] & H4 & H).
  apply bind_ok in H as ([v0 r5] & H5 & H). apply bind_ok in H as ([[] r6] & H6 & H).
  injection H as _ ->.
  apply parse_token_by_len in H1. apply skip_spaces_len in H2. apply expect_ok in H3. subst r2.
  apply skip_spaces_len in H4. apply parse_token_by_len in H5. apply skip_new_line_len in H6.
  cbn [length] in *. lia.
Qed.

(** ** The block *)
Lemma field_first w n v : field w n v -> exists b w', w = b :: w' /\ b <> CR /\ b <> LF.
Proof.
  intros H. assert (G : forall (n r : bytes), name_ok n -> exists b w', n ++ r = b :: w' /\ b <> CR /\ b <> LF).
  { intros m r [Hn Ht]. destruct m as [|b m]; [contradiction|]. inversion Ht; subst.
    exists b, (m ++ r). split; [reflexivity|]. apply tchar_not in H2. unfold CR, LF. lia. }
  destruct H; apply G; assumption.
Qed.
Lemma fields_parse fs hs r : fields fs hs -> forall fuel h, (length (fs ++ r) < fuel)%nat ->
  parse_header_loop fuel h (fs ++ r) = (add_fields h hs, Ok r).
Proof.
  intros H. induction H as [| |w n v ws hs Hf Hfs IH]; intros fuel h Hl.
  - destruct fuel as [|fuel]; [lia|]. reflexivity.
  - destruct fuel as [|fuel]; [lia|]. reflexivity.
  - destruct fuel as [|fuel]; [lia|]. rewrite <- app_assoc in *.
    pose proof (field_parses w n v (ws ++ r) Hf) as E.
    pose proof (parse_header_line_len _ _ _ E) as L.
    destruct (field_first w n v Hf) as (b & w' & -> & N1 & N2).
    cbn [app parse_header_loop] in *. apply N.eqb_neq in N1, N2. unfold CR, LF in *.
    rewrite N1, N2, E. apply IH. cbn [length] in *. lia.
Qed.
Lemma fields_sound fuel : forall h l h' r, bytes_ok l -> parse_header_loop fuel h l = (h', Ok r) ->
  exists fs hs, fields fs hs /\ l = fs ++ r /\ h' = add_fields h hs.
Proof.
  induction fuel as [|fuel IH]; intros h l h' r Hok H; [discriminate|].
  destruct l as [|b l]; [discriminate|]. cbn [parse_header_loop] in H.
  destruct (b =? 13) eqn:E1.
  { apply N.eqb_eq in E1. subst b. injection H as <- H. apply bind_ok in H as ([[] l2] & H1 & H).
    injection H as ->. apply expect_ok in H1. subst l.
    exists [CR; LF], []. repeat split. constructor. }
  destruct (b =? 10) eqn:E2.
  { apply N.eqb_eq in E2. subst b. injection H as <- <-. exists [LF], []. repeat split. constructor. }
  destruct (parse_header_line (b :: l)) as [[[n v] r1]|e| |] eqn:E; try discriminate.
  destruct (field_sound _ _ _ _ Hok E) as (w & Hw & Eq). rewrite Eq in Hok.
  apply bytes_ok_app in Hok as [_ Hok].
  destruct (IH _ _ _ _ Hok H) as (fs & hs & Hfs & -> & ->).
  exists (w ++ fs), ((n, v) :: hs). split; [constructor; assumption|]. split; [|reflexivity].
  rewrite Eq, app_assoc. reflexivity.
Qed.
Lemma parse_header_loop_total fuel : forall h l, (length l < fuel)%nat -> returns (snd (parse_header_loop fuel h l)).
Proof.
  induction fuel as [|fuel IH]; intros h l Hl; [lia|]. destruct l as [|b l]; [apply returns_err|].
  cbn [parse_header_loop]. destruct (b =? 13).
  { cbn [snd]. apply returns_bind; [apply expect_total|]. intros [u l2] _. apply returns_ok. }
  destruct (b =? 10); [apply returns_ok|].
  pose proof (parse_header_line_total (b :: l)) as T.
  destruct (parse_header_line (b :: l)) as [[[n v] r1]|e| |] eqn:E.
  - apply IH. apply parse_header_line_len in E. lia.
  - apply returns_err.
  - destruct T. contradiction.
  - destruct T. contradiction.
Qed.
Definition ext_rest (x : bytes) (r : res bytes) : res bytes :=
  match r with Ok l => Ok (l ++ x) | e => e end.
Lemma parse_header_loop_stable x f1 : forall f2 h l, (length l < f1)%nat -> (length (l ++ x) < f2)%nat ->
  snd (parse_header_loop f1 h l) = partial \/
  parse_header_loop f2 h (l ++ x) =
    (fst (parse_header_loop f1 h l), ext_rest x (snd (parse_header_loop f1 h l))).
Proof.
  induction f1 as [|f1 IH]; intros f2 h l H1 H2; [lia|]. destruct f2 as [|f2]; [lia|].
  destruct l as [|b l]; [left; reflexivity|]. cbn [app parse_header_loop].
  destruct (b =? 13).
  { cbn [fst snd]. destruct (expect_stable 10 (EHttp NewLine) l x) as [E|E].
    - left. rewrite E. reflexivity.
    - right. rewrite E. destruct (expect 10 (EHttp NewLine) l) as [[u r]|e| |]; reflexivity. }
  destruct (b =? 10); [right; reflexivity|].
  destruct (parse_header_line_stable (b :: l) x) as [E|E].
  { left. rewrite E. reflexivity. }
  cbn [app] in E. rewrite E.
  destruct (parse_header_line (b :: l)) as [[[n v] r]|e| |] eqn:P; cbn [ext]; [|right; reflexivity..].
  apply parse_header_line_len in P. cbn [app length] in *. rewrite app_length in H2.
  apply IH; [lia|]. rewrite app_length. lia.
Qed.
Lemma parse_header_fields fs hs r : fields fs hs -> parse_header (fs ++ r) = (add_fields [] hs, Ok r).
Proof. intros H. apply fields_parse; [exact H|lia]. Qed.
Lemma parse_header_sound l h r : bytes_ok l -> parse_header l = (h, Ok r) ->
  exists fs hs, fields fs hs /\ l = fs ++ r /\ h = add_fields [] hs.
Proof. apply fields_sound. Qed.
Lemma parse_header_total l : returns (snd (parse_header l)).
Proof. apply parse_header_loop_total. lia. Qed.
Lemma parse_header_stable l x : snd (parse_header l) = partial \/
  parse_header (l ++ x) = (fst (parse_header l), ext_rest x (snd (parse_header l))).
Proof. apply parse_header_loop_stable; lia. Qed.

(** The text written by the RFC is a block. *)
Lemma field_text_field n v : name_ok n -> value_ok v -> field (field_text (n, v)) n v.
Proof.
  intros Hn Hv. unfold field_text. cbn [fst snd]. destruct v as [|b v].
  - change (n ++ [COLON; SP] ++ [] ++ CRLF) with (n ++ spaces 0 ++ COLON :: spaces 1 ++ CR :: [LF]).
    apply field_empty; [exact Hn|constructor].
  - change (n ++ [COLON; SP] ++ (b :: v) ++ CRLF) with (n ++ spaces 0 ++ COLON :: spaces 1 ++ (b :: v) ++ CRLF).
    apply field_value; [exact Hn|exact Hv|discriminate].
Qed.
Lemma fields_text_fields hs : Forall (fun nv => name_ok (fst nv) /\ value_ok (snd nv)) hs ->
  fields (fields_text hs) hs.
Proof.
  intros H. unfold fields_text. induction H as [|[n v] hs [Hn Hv] Hhs IH].
  - constructor.
  - cbn [map concat]. rewrite <- app_assoc. constructor; [apply field_text_field; assumption|exact IH].
Qed.
Lemma hm_encode_text h : hm_encode h = fields_text h.
Proof. reflexivity. Qed.

(** ** Name equality *)
Lemma eq_byte_ic_refl b : eq_byte_ic b b = true.
Proof. unfold eq_byte_ic. rewrite N.eqb_refl. reflexivity. Qed.
Lemma eq_byte_ic_sym a b : a < 256 -> b < 256 -> eq_byte_ic a b = eq_byte_ic b a.
Proof.
  intros Ha Hb. unfold eq_byte_ic. rewrite (N.eqb_sym b a). destruct (a =? b); [reflexivity|]. cbv zeta. lia.
Qed.
Lemma name_eq_refl a : name_eq a a = true.
Proof. unfold name_eq. induction a as [|x a IH]; [reflexivity|]. cbn [eq_bytes_ic]. rewrite eq_byte_ic_refl. exact IH. Qed.
Lemma name_eq_sym a b : bytes_ok a -> bytes_ok b -> name_eq a b = name_eq b a.
Proof.
  unfold name_eq. revert b. induction a as [|x a IH]; intros [|y b] Ha Hb; try reflexivity.
  apply bytes_ok_cons in Ha as [Hx Ha]. apply bytes_ok_cons in Hb as [Hy Hb].
  cbn [eq_bytes_ic]. rewrite eq_byte_ic_sym by assumption. rewrite IH by assumption. reflexivity.
Qed.

Lemma hm_insert_new h n v : Forall (fun nv => name_eq (fst nv) n = false) h -> hm_insert h n v = h ++ [(n, v)].
Proof.
  induction h as [|[n' v'] h IH]; intros H; [reflexivity|]. inversion H; subst. cbn [fst] in *.
  cbn [hm_insert app]. rewrite H2, IH by assumption. reflexivity.
Qed.
Lemma add_fields_distinct hs : forall h,
  Forall (fun nv => Forall (fun nv' => name_eq (fst nv) (fst nv') = false) hs) h ->
  distinct_names hs -> add_fields h hs = h ++ hs.
Proof.
  induction hs as [|[n v] hs IH]; intros h H Hd; [rewrite app_nil_r; reflexivity|].
  destruct Hd as [Hd1 Hd2]. cbn [add_fields fold_left fst snd].
  change (fold_left _ hs ?x) with (add_fields x hs).
  rewrite hm_insert_new.
  - rewrite IH; [rewrite <- app_assoc; reflexivity| |exact Hd2].
    apply Forall_app. split.
    + eapply Forall_impl; [|exact H]. intros nv K. inversion K; assumption.
    + constructor; [exact Hd1|constructor].
  - eapply Forall_impl; [|exact H]. intros nv K. inversion K; assumption.
Qed.
Lemma add_fields_nil hs : distinct_names hs -> add_fields [] hs = hs.
Proof. intros H. rewrite add_fields_distinct; [reflexivity|constructor|exact H]. Qed.
