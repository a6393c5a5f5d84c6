(** Lemmas for C08: what happens to an unfinished head when CR CR CR is put behind it. *)
From Coq Require Import Ascii String NArith ZArith Lia Bool List ZifyBool ZifyNat ZifyN.
From Verif Require Import Base P_Base M_Std P_Std M_Helper S_Http1 P_Helper M_Header M_Url M_Http1 S_Http1Api P_Header P_Http1 P_Msg S_Hex P_Chunk S_Url P_Url P_UrlForm S_Wait.
Import ListNotations.
Local Open Scope N_scope.

Definition W : bytes := [CR; CR; CR].
(** A definite refusal. *)
Definition fin {A} (r : res A) : Prop := exists e, r = Err e /\ e <> EHttp Partial.
Lemma fin_err {A} e : e <> EHttp Partial -> fin (@Err A e).
Proof. intros H. exists e. auto. Qed.
Lemma fin_bind {A B} (m : res A) (k : A -> res B) : fin m -> fin (bind m k).
Proof. intros (e & -> & H). exists e. auto. Qed.
Lemma fin_try {S A B} (s : S) (m : res A) (k : A -> S * res B) : fin m -> fin (snd (try_ s m k)).
Proof. intros (e & -> & H). exists e. auto. Qed.
Lemma fin_not {A} (r : res A) : fin r -> r <> partial.
Proof. intros (e & -> & H) E. unfold partial in E. congruence. Qed.

Lemma settle_bind {A B} (p : bytes -> res (A * bytes)) (k : A * bytes -> res B) l (Q : Prop) : stable p ->
  (p l = partial -> fin (p (l ++ W)) \/ (exists a, p (l ++ W) = Ok (a, W)) \/ Q) ->
  (forall a, fin (k (a, W))) ->
  (forall a r, p l = Ok (a, r) -> k (a, r) = partial -> fin (k (a, r ++ W)) \/ Q) ->
  bind (p l) k = partial -> fin (bind (p (l ++ W)) k) \/ Q.
Proof.
  intros Hs H1 H2 H3 E. destruct (p l) as [[a r]|e| |] eqn:P.
  - destruct (Hs l W) as [K|K]; rewrite P in K; [discriminate|]. rewrite K. cbn [ext bind] in *. eauto.
  - cbn [bind] in E. assert (@Err (A * bytes) e = partial) by (unfold partial in *; congruence).
    destruct (H1 H) as [K|[(a & K)|K]]; [left; apply fin_bind; exact K| |right; exact K].
    left. rewrite K. cbn [bind]. apply H2.
  - discriminate.
  - discriminate.
Qed.
Lemma settle_try {S A B} (s : S) (p : bytes -> res (A * bytes)) (k : A * bytes -> S * res B) l (Q : Prop) : stable p ->
  (p l = partial -> fin (p (l ++ W)) \/ (exists a, p (l ++ W) = Ok (a, W)) \/ Q) ->
  (forall a, fin (snd (k (a, W)))) ->
  (forall a r, p l = Ok (a, r) -> snd (k (a, r)) = partial -> fin (snd (k (a, r ++ W))) \/ Q) ->
  snd (try_ s (p l) k) = partial -> fin (snd (try_ s (p (l ++ W)) k)) \/ Q.
Proof.
  intros Hs H1 H2 H3 E. destruct (p l) as [[a r]|e| |] eqn:P.
  - destruct (Hs l W) as [K|K]; rewrite P in K; [discriminate|]. rewrite K. cbn [ext try_] in *. eauto.
  - cbn [try_ snd] in E. assert (@Err (A * bytes) e = partial) by (unfold partial in *; congruence).
    destruct (H1 H) as [K|[(a & K)|K]]; [left; apply fin_try; exact K| |right; exact K].
    left. rewrite K. cbn [try_]. apply H2.
  - discriminate.
  - discriminate.
Qed.

(** ** The small parsers *)
Lemma settle_empty l : skip_empty_lines l = partial -> fin (skip_empty_lines (l ++ W)).
Proof.
  induction l as [|l IH| |l IH|c l Hc|b l H1 H2] using skip_empty_lines_ind; intros H.
  - apply fin_err; discriminate.
  - exact (IH H).
  - apply fin_err; discriminate.
  - exact (IH H).
  - cbn [app skip_empty_lines] in *. change (CR =? 13) with true in *. cbn iota in *.
    destruct (c =? 10) eqn:E; [apply N.eqb_eq in E; unfold LF in Hc; contradiction|]. discriminate.
  - cbn [app skip_empty_lines] in *. apply N.eqb_neq in H1, H2. unfold CR, LF in *. rewrite H1, H2 in H. discriminate.
Qed.
Lemma settle_spaces l : skip_spaces l = partial -> skip_spaces (l ++ W) = Ok (tt, W).
Proof.
  induction l as [|b l IH]; [reflexivity|]. cbn [app skip_spaces]. destruct (b =? 32); [exact IH|discriminate].
Qed.
Lemma settle_token f e l : f CR = false -> e <> EHttp Partial -> parse_token_by f e false l = partial ->
  fin (parse_token_by f e false (l ++ W)) \/ exists a, parse_token_by f e false (l ++ W) = Ok (a, W).
Proof.
  intros Hf He H. unfold parse_token_by in *. destruct (scan f l) as [[t r]|] eqn:S.
  - destruct t; [|discriminate]. exfalso. apply He. unfold partial in H. congruence.
  - apply scan_none in S. unfold W. rewrite (scan_app f l CR [CR; CR] S Hf).
    destruct l as [|b l]; [left; apply fin_err; exact He|right; eauto].
Qed.
Lemma settle_expect b e l : b <> CR -> e <> EHttp Partial -> expect b e l = partial -> fin (expect b e (l ++ W)).
Proof.
  intros Hb He H. unfold expect, next in *. destruct l as [|c l]; cbn [app bind W] in *.
  - destruct (CR =? b) eqn:E; [apply N.eqb_eq in E; congruence|]. apply fin_err. exact He.
  - destruct (c =? b); [discriminate|]. apply fin_err. exact He.
Qed.
Lemma settle_eol l : skip_new_line l = partial -> fin (skip_new_line (l ++ W)) \/ exists b r, l = b :: r /\ no_eol b.
Proof.
  unfold skip_new_line, next. destruct l as [|b l]; cbn [app bind]; intros H; [left; apply fin_err; discriminate|].
  destruct (b =? 13) eqn:E1.
  - left. apply settle_expect; [discriminate|discriminate|exact H].
  - destruct (b =? 10) eqn:E2; [discriminate|]. destruct (b =? 32) eqn:E3; [discriminate|].
    right. exists b, l. split; [reflexivity|]. unfold no_eol, CR, LF, SP. lia.
Qed.
Lemma eol_W : fin (skip_new_line W). Proof. apply fin_err. discriminate. Qed.
Lemma token_W f e : f CR = false -> e <> EHttp Partial -> fin (parse_token_by f e false W).
Proof. intros Hf He. unfold parse_token_by. cbn [scan W]. rewrite Hf. apply fin_err. exact He. Qed.
Lemma hopeless_eol b r : no_eol b -> skip_new_line (b :: r) = partial.
Proof.
  intros (H1 & H2 & H3). unfold skip_new_line, next. cbn [bind]. unfold CR, LF, SP in *.
  apply N.eqb_neq in H1, H2, H3. rewrite H1, H2, H3. reflexivity.
Qed.

(** ** Header blocks *)
Definition hopeless_line (l : bytes) : Prop :=
  exists n i j b r, name_ok n /\ no_eol b /\ l = n ++ spaces i ++ COLON :: spaces j ++ CR :: b :: r.
Lemma hopeless_line_partial l : hopeless_line l -> parse_header_line l = partial.
Proof.
  intros (n & i & j & b & r & Hn & Hb & ->). unfold parse_header_line.
  rewrite parse_name_app by exact Hn. cbn [bind].
  rewrite skip_spaces_app by discriminate. cbn [bind]. rewrite expect_app. cbn [bind].
  rewrite skip_spaces_app by discriminate. cbn [bind].
  change (parse_header_value (CR :: b :: r)) with (Ok (@nil N, b :: r)). cbn [bind].
  rewrite hopeless_eol by exact Hb. reflexivity.
Qed.
Lemma name_ok_tok n : n <> [] -> forallb is_header_name_token n = true -> name_ok n.
Proof. intros H K. split; [exact H|]. apply (forallb_Forall is_header_name_token tchar); [apply header_name_token_spec|exact K]. Qed.
Lemma settle_line l : bytes_ok l -> parse_header_line l = partial -> fin (parse_header_line (l ++ W)) \/ hopeless_line l.
Proof.
  intros Hl. unfold parse_header_line at 1 2.
  apply (settle_bind parse_header_name (fun '(name, r1) => _)); [apply parse_token_by_stable| |intros n; apply fin_err; discriminate|].
  { intros H. apply settle_token in H; [|reflexivity|discriminate]. tauto. }
  intros n r1 H1. apply parse_token_by_ok in H1 as (-> & Hn & Ht & _). pose proof (name_ok_tok _ Hn Ht) as Hname.
  apply (settle_bind skip_spaces (fun '(_, r2) => _)); [apply skip_spaces_stable| |intros []; apply fin_err; discriminate|].
  { intros H. apply settle_spaces in H. eauto. }
  intros [] r2 H2. apply skip_spaces_ok in H2 as (i & _ & _ & -> & _ & _).
  apply (settle_bind (expect 58 (EHttp HeaderNameErr)) (fun '(_, r3) => _)); [apply expect_stable| |intros []; apply fin_err; discriminate|].
  { intros H. left. apply settle_expect; [discriminate|discriminate|exact H]. }
  intros [] r3 H3. apply expect_ok in H3. subst r2.
  apply (settle_bind skip_spaces (fun '(_, r4) => _)); [apply skip_spaces_stable| |intros []; apply fin_err; discriminate|].
  { intros H. apply settle_spaces in H. eauto. }
  intros [] r4 H4. apply skip_spaces_ok in H4 as (j & b & r' & -> & -> & Hb).
  assert (Hr : bytes_ok (b :: r')).
  { apply bytes_ok_app in Hl as [_ Hl]. apply bytes_ok_app in Hl as [_ Hl].
    apply bytes_ok_cons in Hl as [_ Hl]. apply bytes_ok_app in Hl as [_ Hl]. exact Hl. }
  unfold parse_header_value, parse_token_by.
  destruct (scan is_header_value_token (b :: r')) as [[t s]|] eqn:S.
  - pose proof (scan_more _ _ W _ _ S) as S2. rewrite S2.
    apply scan_some in S as (E & Hv & c & s' & -> & Hc).
    assert (Hc' : c = CR).
    { rewrite E in Hr. apply bytes_ok_app in Hr as [_ Hr]. apply bytes_ok_cons in Hr as [K _].
      rewrite header_value_token_spec in Hc by exact K. unfold CR. lia. }
    subst c. destruct t as [|t0 t].
    + cbn [app] in E. injection E as -> ->. cbn [app bind]. intros H.
      destruct (skip_new_line s') as [[[] r6]|e| |] eqn:N; cbn [bind] in H; try discriminate.
      assert (skip_new_line s' = partial) as N' by (unfold partial in *; congruence).
      destruct (settle_eol _ N') as [K|(b & r & -> & K)]; [left; apply fin_bind; exact K|].
      right. exists n, i, j, b, r. auto.
    + cbn [bind]. cbn [app]. intros H. change (skip_new_line (CR :: s')) with (expect 10 (EHttp NewLine) s') in *.
      change (skip_new_line (CR :: s' ++ W)) with (expect 10 (EHttp NewLine) (s' ++ W)).
      destruct (expect 10 (EHttp NewLine) s') as [[[] r6]|e| |] eqn:N; cbn [bind] in H; try discriminate.
      left. apply fin_bind. apply settle_expect; [discriminate|discriminate|unfold partial in *; congruence].
  - intros _. left. apply scan_none in S. unfold W. rewrite (scan_app _ (b :: r') CR [CR; CR] S) by reflexivity.
    cbn [bind]. apply fin_err. discriminate.
Qed.
Lemma field_first w n v : field w n v -> exists b r, w = b :: r /\ tchar b.
Proof.
  intros [n' i j v' [Hn Hf] _ _|n' i j e [Hn Hf] _]; (destruct n' as [|b n']; [contradiction|]);
  apply Forall_inv in Hf; cbn [app]; eauto.
Qed.
Lemma hopeless_first l : hopeless_fields l -> exists b r, l = b :: r /\ tchar b.
Proof.
  intros [n i j b r [Hn Hf] _|w n v l' H _].
  - destruct n as [|c n]; [contradiction|]. apply Forall_inv in Hf. cbn [app]. eauto.
  - apply field_first in H as (b & r & -> & Hb). cbn [app]. eauto.
Qed.
Lemma loop_tchar f h b l : tchar b -> parse_header_loop (S f) h (b :: l) =
  match parse_header_line (b :: l) with
  | Ok ((name, value), r) => parse_header_loop f (hm_insert h name value) r
  | Err e => (h, Err e) | Panic => (h, Panic) | Diverge => (h, Diverge)
  end.
Proof.
  intros H. apply tchar_not in H as (_ & _ & H1 & H2 & _). cbn [parse_header_loop].
  apply N.eqb_neq in H1, H2. rewrite H1, H2. reflexivity.
Qed.
Lemma hopeless_loop l : hopeless_fields l -> forall f h, (length l < f)%nat -> snd (parse_header_loop f h l) = partial.
Proof.
  intros H. induction H as [n i j b r Hn Hb|w n v l H _ IH]; intros f h Hf.
  - destruct f as [|f]; [lia|].
    assert (L : hopeless_line (n ++ spaces i ++ COLON :: spaces j ++ CR :: b :: r)) by (exists n, i, j, b, r; auto).
    apply hopeless_line_partial in L.
    destruct (hopeless_first _ (hf_line n i j b r Hn Hb)) as (c & s & E & Hc). rewrite E in *.
    rewrite loop_tchar by exact Hc. rewrite L. reflexivity.
  - destruct f as [|f]; [lia|]. pose proof (field_parses w n v l H) as P.
    pose proof (field_first _ _ _ H) as (c & s & E & Hc). subst w. cbn [app] in *.
    rewrite loop_tchar by exact Hc. rewrite P. apply IH. cbn [length] in Hf. rewrite app_length in Hf. lia.
Qed.
Lemma settle_loop f1 : forall f2 h l, (length l < f1)%nat -> (length (l ++ W) < f2)%nat -> bytes_ok l ->
  snd (parse_header_loop f1 h l) = partial -> fin (snd (parse_header_loop f2 h (l ++ W))) \/ hopeless_fields l.
Proof.
  induction f1 as [|f1 IH]; intros f2 h l H1 H2 Hl H; [lia|]. destruct f2 as [|f2]; [lia|].
  destruct l as [|b l]; [left; apply fin_err; discriminate|]. cbn [app parse_header_loop] in *.
  destruct (b =? 13).
  { left. cbn [snd] in *. destruct (expect 10 (EHttp NewLine) l) as [[u r]|e| |] eqn:E; cbn [bind] in H; try discriminate.
    apply fin_bind. apply settle_expect; [discriminate|discriminate|unfold partial in *; congruence]. }
  destruct (b =? 10); [discriminate|].
  destruct (parse_header_line (b :: l)) as [[[n v] r]|e| |] eqn:P; cbn [snd] in H; try discriminate.
  - destruct (parse_header_line_stable (b :: l) W) as [E|E]; rewrite P in E; [discriminate|].
    cbn [app ext] in E. rewrite E. pose proof (parse_header_line_len _ _ _ P) as Len.
    apply field_sound in P as (w & Hw & Ew); [|exact Hl].
    destruct (IH f2 (hm_insert h n v) r) as [K|K].
    + cbn [length] in *. lia.
    + rewrite app_length in *. cbn [length] in *. rewrite app_length in H2. lia.
    + rewrite Ew in Hl. apply bytes_ok_app in Hl as [_ Hl]. exact Hl.
    + exact H.
    + left. exact K.
    + right. rewrite Ew. eapply hf_later; eassumption.
  - assert (P' : parse_header_line (b :: l) = partial) by (unfold partial in *; congruence).
    destruct (settle_line _ Hl P') as [(e' & K & Ke)|(n & i & j & c & r & Hn & Hc & E)].
    + left. cbn [app] in K. rewrite K. apply fin_err. exact Ke.
    + right. rewrite E. constructor; assumption.
Qed.
Lemma settle_header l : bytes_ok l -> snd (parse_header l) = partial -> fin (snd (parse_header (l ++ W))) \/ hopeless_fields l.
Proof. intros Hl. apply settle_loop; [lia|lia|exact Hl]. Qed.
Lemma hopeless_header l : hopeless_fields l -> snd (parse_header l) = partial.
Proof. intros H. apply hopeless_loop; [exact H|lia]. Qed.
Lemma hopeless_fields_app l x : hopeless_fields l -> hopeless_fields (l ++ x).
Proof.
  intros H. induction H as [n i j b r Hn Hb|w n v l H _ IH].
  - replace ((n ++ spaces i ++ COLON :: spaces j ++ CR :: b :: r) ++ x)
      with (n ++ spaces i ++ COLON :: spaces j ++ CR :: b :: (r ++ x)) by (napp; reflexivity).
    constructor; assumption.
  - rewrite <- app_assoc. eapply hf_later; eassumption.
Qed.

(** ** Requests *)
Lemma method_of_str_fin t : fin (method_of_str t) \/ exists m, method_of_str t = Ok m.
Proof.
  destruct (method_of_str t) as [m|e| |] eqn:E; [right; eauto| |exfalso; apply (proj1 (method_of_str_total t)); exact E|exfalso; apply (proj2 (method_of_str_total t)); exact E].
  left. exists e. split; [reflexivity|]. intros ->. revert E. unfold method_of_str.
  repeat match goal with |- context [if ?c then _ else _] => destruct c end; discriminate.
Qed.
Lemma settle_method l : parse_method l = partial -> fin (parse_method (l ++ W)) \/ exists m, parse_method (l ++ W) = Ok (m, W).
Proof.
  unfold parse_method. destruct (parse_token l) as [[t r]|e| |] eqn:T; cbn [bind]; try discriminate.
  - destruct (method_of_str_fin t) as [F|[m F]].
    + intros H. exfalso. destruct F as (e & F & K). rewrite F in H. cbn [bind] in H. unfold partial in H. congruence.
    + rewrite F. discriminate.
  - intros H. assert (T' : parse_token l = partial) by (unfold partial in *; congruence).
    destruct (settle_token is_token (EHttp Token) l eq_refl ltac:(discriminate) T') as [K|[a K]].
    + left. apply fin_bind. exact K.
    + fold parse_token in K. rewrite K. cbn [bind]. destruct (method_of_str_fin a) as [F|[m F]].
      * left. apply fin_bind. exact F.
      * right. rewrite F. exists m. reflexivity.
Qed.
Lemma settle_version l : parse_version l = partial -> fin (parse_version (l ++ W)) \/ exists m, parse_version (l ++ W) = Ok (m, W).
Proof.
  unfold parse_version. destruct (parse_token l) as [[t r]|e| |] eqn:T; cbn [bind]; try discriminate.
  - repeat match goal with |- context [if ?c then _ else _] => destruct c end; discriminate.
  - intros H. assert (T' : parse_token l = partial) by (unfold partial in *; congruence).
    destruct (settle_token is_token (EHttp Token) l eq_refl ltac:(discriminate) T') as [K|[a K]].
    + left. apply fin_bind. exact K.
    + fold parse_token in K. rewrite K. cbn [bind].
      repeat match goal with |- context [if ?c then _ else _] => destruct c end; eauto.
      left. apply fin_err. discriminate.
Qed.
Lemma connect_not_partial u h : parse_connect_by_host u h <> partial.
Proof.
  unfold parse_connect_by_host. destruct u. destruct (split_on 58 h) as [|d [|p [|]]]; try discriminate.
  destruct (parse_uint 65536 p); discriminate.
Qed.
Lemma url_of_partial m t h : req_url_of m t h = partial <-> m <> MConnect /\ url_parse t = partial.
Proof.
  assert (G : req_complete_url t h = partial <-> url_parse t = partial).
  { unfold req_complete_url. destruct (url_parse t) as [u|e| |] eqn:U; cbn [bind]; try (split; discriminate).
    - split; [|discriminate]. intros H. exfalso.
      destruct (is_some (u_domain u)); cbn [bind] in H; [destruct u; discriminate|].
      destruct (hm_get_host h) as [hs|]; cbn [bind] in H; [|destruct u; discriminate].
      destruct (parse_connect_by_host u hs) as [u1|e| |] eqn:C; cbn [bind] in H; try discriminate.
      + destruct u1; discriminate.
      + apply (connect_not_partial u hs). unfold partial in *. congruence.
    - unfold partial. split; congruence. }
  destruct m; cbn [req_url_of]; try (rewrite G; split; [intros H; split; [discriminate|exact H]|intros [_ H]; exact H]).
  split; [intros H; apply connect_not_partial in H; contradiction|intros [H _]; contradiction].
Qed.
Lemma gap i (w b : bytes) c x : c :: x = spaces i ++ w ++ b -> is_token c = false -> word w -> exists i', i = S i'.
Proof.
  destruct i as [|i']; [|eauto]. intros E Hc Hw. exfalso. destruct (word_first _ Hw) as (wb & ww & -> & V).
  cbn in E. injection E as -> _. apply token_vchar in V. congruence.
Qed.
Lemma buffer_partial q l : snd (req_parse q l) = partial <-> snd (req_parse_buffer q l) = partial.
Proof. rewrite req_parse_eq. cbn [snd]. unfold partial. destruct (snd (req_parse_buffer q l)); split; congruence. Qed.
Lemma buffer_fin q l : fin (snd (req_parse_buffer q l)) -> fin (snd (req_parse q l)).
Proof. rewrite req_parse_eq. cbn [snd]. intros (e & -> & H). apply fin_err. exact H. Qed.
Lemma settle_request q l : bytes_ok l -> snd (req_parse_buffer q l) = partial ->
  fin (snd (req_parse_buffer q (l ++ W))) \/ hopeless_request l.
Proof.
  intros Hl. unfold req_parse_buffer. cbv zeta.
  apply (settle_try _ skip_empty_lines (fun '(_, l1) => _)); [apply skip_empty_lines_stable| |intros []; apply fin_err; discriminate|].
  { intros H. left. apply settle_empty. exact H. }
  intros [] l1 H1.
  apply (settle_try _ parse_method (fun '(m, l2) => _)); [apply parse_method_stable| |intros m; apply fin_err; discriminate|].
  { intros H. apply settle_method in H. tauto. }
  intros m l2 H2.
  apply (settle_try _ skip_spaces (fun '(_, l3) => _)); [apply skip_spaces_stable| |intros []; apply fin_err; discriminate|].
  { intros H. apply settle_spaces in H. eauto. }
  intros [] l3 H3.
  apply (settle_try _ parse_token (fun '(path, l4) => _)); [apply parse_token_by_stable| |intros t; apply fin_err; discriminate|].
  { intros H. apply settle_token in H; [|reflexivity|discriminate]. tauto. }
  intros t l4 H4.
  apply (settle_try _ skip_spaces (fun '(_, l5) => _)); [apply skip_spaces_stable| |intros []; apply fin_err; discriminate|].
  { intros H. apply settle_spaces in H. eauto. }
  intros [] l5 H5.
  apply (settle_try _ parse_version (fun '(v, l6) => _)); [apply parse_version_stable| |intros v; apply fin_err; discriminate|].
  { intros H. apply settle_version in H. tauto. }
  intros v l6 H6.
  pose proof H1 as P1. apply skip_empty_lines_ok in P1 as (bl & Hbl & El).
  pose proof H2 as P2. apply parse_method_ok in P2 as (Hm & El1 & mb & mr & Em & Vm).
  pose proof H3 as P3. apply skip_spaces_ok in P3 as (i & tb & tr & E3 & Et & Vt).
  pose proof H4 as P4. apply parse_token_by_ok in P4 as (E4 & Ht & Tt & xb & xr & Ex & Vx).
  pose proof H5 as P5. apply skip_spaces_ok in P5 as (j & vb & vr & E5 & Ev & Vv).
  pose proof H6 as P6. apply parse_version_ok in P6 as (Hv & E6 & yb & yr & Ey & Vy).
  pose proof (token_word _ Ht Tt) as Wt.
  assert (exists i', i = S i') as [i' Ei].
  { rewrite E4 in E3. rewrite Em in E3. exact (gap _ _ _ _ _ E3 Vm Wt). }
  assert (exists j', j = S j') as [j' Ej].
  { rewrite E6 in E5. rewrite Ex in E5. exact (gap _ _ _ _ _ E5 Vx (version_word _ Hv)). }
  assert (El6 : l = bl ++ method_str m ++ spaces (S i') ++ t ++ spaces (S j') ++ version_str v ++ l6).
  { rewrite El, El1, E3, E4, E5, E6, Ei, Ej. reflexivity. }
  apply (settle_try _ skip_new_line (fun '(_, l7) => _)); [apply skip_new_line_stable| |intros []; apply fin_err; discriminate|].
  { intros H. apply settle_eol in H as [H|(b & r & E & H)]; [tauto|]. right. right.
    rewrite El6, E. constructor; auto. rewrite E in Ey. injection Ey as -> _.
    intros K. apply token_vchar in K. congruence. }
  intros [] l7 H7.
  pose proof H7 as P7. apply skip_new_line_ok in P7 as (e & He & E7).
  assert (Hl7 : bytes_ok l7).
  { rewrite El6, E7 in Hl. repeat (apply bytes_ok_app in Hl as [_ Hl]). exact Hl. }
  destruct (parse_header l7) as [h r] eqn:P. destruct r as [r|er| |]; cbn [try_ snd]; try discriminate.
  - intros H. right.
    destruct (req_head_sound l l1 l2 l3 l4 l5 l6 l7 m t v h r tt tt tt tt Hl H1 H2 H3 H4 H5 H6 H7 P)
      as (wire & hs & Ew & _ & _ & Hh & _).
    rewrite Ew. assert (U : req_url_of m t h = partial).
    { destruct (req_url_of m t h); cbn [try_ snd] in H; unfold partial in *; congruence. }
    apply url_of_partial in U as [U1 U2]. eapply hq_target; eassumption.
  - intros H. assert (Pa : snd (parse_header l7) = partial) by (rewrite P; exact (f_equal (fun r => match r with Err e => Err e | _ => partial end) H)).
    destruct (settle_header l7 Hl7 Pa) as [K|K].
    + left. destruct (parse_header (l7 ++ W)) as [h' r]. apply fin_try. exact K.
    + right. rewrite El6, E7. apply hq_fields; assumption.
Qed.
Lemma hopeless_request_app l x : hopeless_request l -> hopeless_request (l ++ x).
Proof.
  intros [bl m i t j v b r Hbl Hm Ht Hv Hb1 Hb2|bl m i t j v e fs Hbl Hm Ht Hv He Hfs|wire m t v hs r Hh Hm Hv Hc Hu].
  - replace ((bl ++ method_str m ++ spaces (S i) ++ t ++ spaces (S j) ++ version_str v ++ b :: r) ++ x)
      with (bl ++ method_str m ++ spaces (S i) ++ t ++ spaces (S j) ++ version_str v ++ b :: (r ++ x)) by (rewrite <- !app_assoc; reflexivity).
    constructor; assumption.
  - rewrite <- !app_assoc. apply hq_fields; auto using hopeless_fields_app.
  - rewrite <- app_assoc. eapply hq_target; eassumption.
Qed.
(** A request line in front of anything that is not a token. *)
Lemma request_line q bl m i t j v b r : blanks bl -> In m known_methods -> word t -> In v known_versions -> is_token b = false ->
  exists q1 q2, req_parse_buffer q (bl ++ method_str m ++ spaces (S i) ++ t ++ spaces (S j) ++ version_str v ++ b :: r) =
  try_ q1 (skip_new_line (b :: r)) (fun '(_, l7) => let '(h, r) := parse_header l7 in
    try_ (q2 h) r (fun rest => try_ (req_set_partial (q2 h) false) (req_url_of m t h) (fun u => (req_set_url (req_set_partial (q2 h) false) u, Ok rest)))).
Proof.
  intros Hbl Hm Ht Hv Hb. pose proof (method_word _ Hm) as Hms. pose proof (version_word _ Hv) as Hvs.
  destruct (word_first _ Hms) as (mb & mw & Em & Vm).
  destruct (word_first _ Ht) as (tb & tw & Et & Vt).
  destruct (word_first _ Hvs) as (vb & vw & Ev & Vv).
  unfold req_parse_buffer.
  assert (E1 : forall x, skip_empty_lines (bl ++ method_str m ++ x) = Ok (tt, method_str m ++ x)).
  { intros x. rewrite Em. cbn [app]. apply skip_empty_lines_app; [exact Hbl|unfold vchar, CR, LF in *; lia..]. }
  rewrite E1, try_ok. cbv beta iota.
  change (spaces (S i)) with (SP :: spaces i) at 1. cbn [app].
  rewrite parse_method_app by (try reflexivity; exact Hm). rewrite try_ok. cbv beta iota zeta.
  assert (E2 : forall x, skip_spaces (SP :: spaces i ++ t ++ x) = Ok (tt, t ++ x)).
  { intros x. change (SP :: spaces i ++ ?x) with (spaces (S i) ++ x). rewrite Et. cbn [app].
    apply skip_spaces_app. unfold vchar, SP in *. lia. }
  rewrite E2, try_ok. cbv beta iota. change (spaces (S j)) with (SP :: spaces j) at 1. cbn [app].
  rewrite parse_token_word by (try reflexivity; exact Ht). rewrite try_ok. cbv beta iota.
  assert (E3 : forall x, skip_spaces (SP :: spaces j ++ version_str v ++ x) = Ok (tt, version_str v ++ x)).
  { intros x. change (SP :: spaces j ++ ?x) with (spaces (S j) ++ x). rewrite Ev. cbn [app].
    apply skip_spaces_app. unfold vchar, SP in *. lia. }
  rewrite E3, try_ok. cbv beta iota.
  rewrite parse_version_app by assumption. rewrite try_ok. cbv beta iota zeta.
  eexists. eexists (fun h => _). reflexivity.
Qed.
Lemma hopeless_request_partial q l : hopeless_request l -> snd (req_parse_buffer q l) = partial.
Proof.
  intros [bl m i t j v b r Hbl Hm Ht Hv Hb1 Hb2|bl m i t j v e fs Hbl Hm Ht Hv He Hfs|wire m t v hs r Hh Hm Hv Hc Hu].
  - destruct (request_line q bl m i t j v b r) as (q1 & q2 & ->); auto.
    { destruct (is_token b) eqn:E; [|reflexivity]. apply token_vchar in E. contradiction. }
    rewrite hopeless_eol by exact Hb2. reflexivity.
  - destruct (eol_first _ He) as (eb & ew & Ee & Ve).
    replace (e ++ fs) with (eb :: (ew ++ fs)) by (rewrite Ee; reflexivity).
    destruct (request_line q bl m i t j v eb (ew ++ fs)) as (q1 & q2 & ->); auto.
    replace (eb :: ew ++ fs) with (e ++ fs) by (rewrite Ee; reflexivity).
    rewrite skip_new_line_eol by exact He. cbn [try_]. apply hopeless_header in Hfs.
    destruct (parse_header fs) as [h rr]. cbn [snd] in Hfs. rewrite Hfs. reflexivity.
  - rewrite (req_parse_head q wire m t v hs r Hh Hm Hv).
    assert (U : req_url_of m t (add_fields [] hs) = partial) by (apply url_of_partial; auto). rewrite U. reflexivity.
Qed.
Lemma request_wait q l : bytes_ok l -> snd (req_parse q l) = partial ->
  hopeless_request l \/ exists e, snd (req_parse q (l ++ [CR; CR; CR])) = Err e /\ e <> EHttp Partial.
Proof.
  intros Hl H. apply buffer_partial in H. destruct (settle_request q l Hl H) as [K|K]; [right|left; exact K].
  apply buffer_fin. exact K.
Qed.
Lemma request_hopeless q l : bytes_ok l -> ((forall x, snd (req_parse q (l ++ x)) = partial) <-> hopeless_request l).
Proof.
  intros Hl. split.
  - intros H. pose proof (H []) as H0. rewrite app_nil_r in H0.
    destruct (request_wait q l Hl H0) as [K|(e & K & Ke)]; [exact K|]. exfalso.
    rewrite H in K. unfold partial in K. congruence.
  - intros H x. apply buffer_partial. apply hopeless_request_partial. apply hopeless_request_app. exact H.
Qed.

(** ** Responses *)
Lemma status_fin t : fin (status_from_bytes t) \/ exists c, status_from_bytes t = Ok c.
Proof.
  unfold status_from_bytes. destruct t as [|x [|y [|z [|w t]]]]; try (left; apply fin_err; discriminate).
  cbv zeta. match goal with |- context [if ?c then _ else _] => destruct c end; [left; apply fin_err; discriminate|right; eauto].
Qed.
Lemma settle_status l : parse_status l = partial -> fin (parse_status (l ++ W)) \/ exists m, parse_status (l ++ W) = Ok (m, W).
Proof.
  unfold parse_status. destruct (parse_token l) as [[t r]|e| |] eqn:T; cbn [bind]; try discriminate.
  - destruct (status_fin t) as [F|[m F]].
    + intros H. exfalso. destruct F as (e & F & K). rewrite F in H. cbn [bind] in H. unfold partial in H. congruence.
    + rewrite F. discriminate.
  - intros H. assert (T' : parse_token l = partial) by (unfold partial in *; congruence).
    destruct (settle_token is_token (EHttp Token) l eq_refl ltac:(discriminate) T') as [K|[a K]].
    + left. apply fin_bind. exact K.
    + fold parse_token in K. rewrite K. cbn [bind]. destruct (status_fin a) as [F|[m F]].
      * left. apply fin_bind. exact F.
      * right. rewrite F. exists m. reflexivity.
Qed.
Lemma settle_response p l : bytes_ok l -> snd (resp_parse_buffer p l) = partial ->
  fin (snd (resp_parse_buffer p (l ++ W))) \/ hopeless_response l.
Proof.
  intros Hl. unfold resp_parse_buffer. cbv zeta.
  apply (settle_try _ skip_empty_lines (fun '(_, l1) => _)); [apply skip_empty_lines_stable| |intros []; apply fin_err; discriminate|].
  { intros H. left. apply settle_empty. exact H. }
  intros [] l1 H1.
  apply (settle_try _ parse_version (fun '(v, l2) => _)); [apply parse_version_stable| |intros m; apply fin_err; discriminate|].
  { intros H. apply settle_version in H. tauto. }
  intros v l2 H2.
  apply (settle_try _ skip_spaces (fun '(_, l3) => _)); [apply skip_spaces_stable| |intros []; apply fin_err; discriminate|].
  { intros H. apply settle_spaces in H. eauto. }
  intros [] l3 H3.
  apply (settle_try _ parse_status (fun '(s, l4) => _)); [apply parse_status_stable| |intros t; apply fin_err; discriminate|].
  { intros H. apply settle_status in H. tauto. }
  intros c l4 H4.
  apply (settle_try _ skip_spaces (fun '(_, l5) => _)); [apply skip_spaces_stable| |intros []; apply fin_err; discriminate|].
  { intros H. apply settle_spaces in H. eauto. }
  intros [] l5 H5.
  apply (settle_try _ parse_status_token (fun '(_, l6) => _)); [apply parse_token_by_stable| |intros v'; apply fin_err; discriminate|].
  { intros H. apply settle_token in H; [|reflexivity|discriminate]. tauto. }
  intros rs l6 H6.
  apply skip_empty_lines_ok in H1 as (bl & Hbl & El). pose proof Hl as Hl'. rewrite El in Hl'. apply bytes_ok_app in Hl' as [_ Hl'].
  apply parse_version_ok in H2 as (Hv & El1 & vb & vr & Ev & Vv). rewrite El1 in Hl'. apply bytes_ok_app in Hl' as [_ Hl'].
  apply skip_spaces_ok in H3 as (i & cb & cr & E3 & _ & _). rewrite E3 in Hl'. apply bytes_ok_app in Hl' as [_ Hl'].
  apply parse_status_ok in H4 as (Hc & E4 & xb & xr & Ex & Vx); [|exact Hl'].
  rewrite E4 in Hl'. apply bytes_ok_app in Hl' as [_ Hl'].
  apply skip_spaces_ok in H5 as (j & rb & rr & E5 & Er & Vr). rewrite E5 in Hl'. apply bytes_ok_app in Hl' as [_ Hl'].
  apply parse_token_by_ok in H6 as (E6 & Hrs & Trs & yb & yr & Ey & Vy).
  rewrite E6 in Hl'. apply bytes_ok_app in Hl' as [_ Hl'].
  assert (Wr : reason_ok rs).
  { split; [exact Hrs|]. split.
    - apply (forallb_Forall is_status_token (fun b => 32 <= b <= 126)) in Trs; [exact Trs|apply status_token_spec].
    - destruct rs as [|b rs]; [contradiction|]. cbn. rewrite E6 in Er. injection Er as -> _. congruence. }
  assert (exists i', i = S i') as [i' Ei].
  { destruct i as [|i']; [|eauto]. exfalso. destruct (word_first _ (status_word c Hc)) as (wb & ww & E & V).
    rewrite E4, E, Ev in E3. cbn in E3. injection E3 as -> _. apply token_vchar in V. congruence. }
  assert (exists j', j = S j') as [j' Ej].
  { destruct j as [|j']; [|eauto]. exfalso. destruct rs as [|b rs]; [contradiction|].
    rewrite E6, Ex in E5. cbn in E5. injection E5 as -> _.
    destruct Wr as (_ & K & K2). apply Forall_inv in K. cbn in K2.
    assert (b <> SP) by congruence. unfold is_token, SP in *. lia. }
  assert (El6 : l = bl ++ version_str v ++ spaces (S i') ++ status_str c ++ spaces (S j') ++ rs ++ l6).
  { rewrite El, El1, E3, E4, E5, E6, Ei, Ej. reflexivity. }
  apply (settle_try _ skip_new_line (fun '(_, l7) => _)); [apply skip_new_line_stable| |intros []; apply fin_err; discriminate|].
  { intros H. apply settle_eol in H as [H|(b & r & E & H)]; [tauto|]. right. right.
    rewrite El6, E. constructor; auto. rewrite E in Ey. injection Ey as -> _.
    intros K. apply status_token_spec in K. congruence. }
  intros [] l7 H7. apply skip_new_line_ok in H7 as (e & He & E7). rewrite E7 in Hl'. apply bytes_ok_app in Hl' as [_ Hl7].
  assert (He' : e = [CR; LF] \/ e = [LF]).
  { destruct He; auto. rewrite Ey in E7. injection E7 as -> _. discriminate Vy. }
  destruct (parse_header l7) as [h r] eqn:P. destruct r as [r|er| |]; cbn [try_ snd]; try discriminate.
  intros H. assert (Pa : snd (parse_header l7) = partial) by (rewrite P; exact H).
  destruct (settle_header l7 Hl7 Pa) as [K|K].
  + left. destruct (parse_header (l7 ++ W)) as [h' r]. apply fin_try. exact K.
  + right. rewrite El6, E7. apply hp_fields; assumption.
Qed.
Lemma hopeless_response_app l x : hopeless_response l -> hopeless_response (l ++ x).
Proof.
  intros [bl v i c j rs b r Hbl Hv Hc Hr Hb1 Hb2|bl v i c j rs e fs Hbl Hv Hc Hr He Hfs].
  - replace ((bl ++ version_str v ++ spaces (S i) ++ status_str c ++ spaces (S j) ++ rs ++ b :: r) ++ x)
      with (bl ++ version_str v ++ spaces (S i) ++ status_str c ++ spaces (S j) ++ rs ++ b :: (r ++ x)) by (rewrite <- !app_assoc; reflexivity).
    constructor; assumption.
  - rewrite <- !app_assoc. apply hp_fields; auto using hopeless_fields_app.
Qed.
Lemma response_line p bl v i c j rs b r : blanks bl -> In v known_versions -> 100 <= c <= 999 -> reason_ok rs -> is_status_token b = false ->
  exists p1 p2 p3, resp_parse_buffer p (bl ++ version_str v ++ spaces (S i) ++ status_str c ++ spaces (S j) ++ rs ++ b :: r) =
  try_ p1 (skip_new_line (b :: r)) (fun '(_, l7) => let '(h, r) := parse_header l7 in try_ (p2 h) r (fun rest => (p3 h, Ok rest))).
Proof.
  intros Hbl Hv Hc Hrs Hb. pose proof (version_word _ Hv) as Hvs. pose proof (status_word _ Hc) as Hcs.
  destruct (word_first _ Hvs) as (vb & vw & Ev & Vv).
  destruct (word_first _ Hcs) as (cb & cw & Ec & Vc).
  destruct (reason_first _ Hrs) as (rb & rw & Er & Vr).
  unfold resp_parse_buffer.
  assert (E1 : forall x, skip_empty_lines (bl ++ version_str v ++ x) = Ok (tt, version_str v ++ x)).
  { intros x. rewrite Ev. cbn [app]. apply skip_empty_lines_app; [exact Hbl|unfold vchar, CR, LF in *; lia..]. }
  rewrite E1, try_ok. cbv beta iota.
  change (spaces (S i)) with (SP :: spaces i) at 1. cbn [app].
  rewrite parse_version_app by (try reflexivity; exact Hv). rewrite try_ok. cbv beta iota zeta.
  assert (E2 : forall x, skip_spaces (SP :: spaces i ++ status_str c ++ x) = Ok (tt, status_str c ++ x)).
  { intros x. change (SP :: spaces i ++ ?x) with (spaces (S i) ++ x). rewrite Ec. cbn [app].
    apply skip_spaces_app. unfold vchar, SP in *. lia. }
  rewrite E2, try_ok. cbv beta iota. change (spaces (S j)) with (SP :: spaces j) at 1. cbn [app].
  rewrite parse_status_app by (try reflexivity; exact Hc). rewrite try_ok. cbv beta iota zeta.
  assert (E3 : forall x, skip_spaces (SP :: spaces j ++ rs ++ x) = Ok (tt, rs ++ x)).
  { intros x. change (SP :: spaces j ++ ?x) with (spaces (S j) ++ x). rewrite Er. cbn [app].
    apply skip_spaces_app. exact Vr. }
  rewrite E3, try_ok. cbv beta iota.
  assert (E4 : parse_status_token (rs ++ b :: r) = Ok (rs, b :: r)).
  { destruct Hrs as (R1 & R2 & R3).
    assert (T : forallb is_status_token rs = true)
      by (apply (forallb_Forall is_status_token (fun b => 32 <= b <= 126)); [apply status_token_spec|exact R2]).
    apply parse_token_by_app; auto. }
  rewrite E4, try_ok. cbv beta iota.
  eexists. eexists (fun h => _). eexists (fun h => _). reflexivity.
Qed.
Lemma hopeless_response_partial p l : hopeless_response l -> snd (resp_parse_buffer p l) = partial.
Proof.
  intros [bl v i c j rs b r Hbl Hv Hc Hr Hb1 Hb2|bl v i c j rs e fs Hbl Hv Hc Hr He Hfs].
  - destruct (response_line p bl v i c j rs b r) as (p1 & p2 & p3 & ->); auto.
    { destruct (is_status_token b) eqn:E; [|reflexivity]. apply status_token_spec in E. contradiction. }
    rewrite hopeless_eol by exact Hb2. reflexivity.
  - assert (He' : eol e) by (destruct He as [->| ->]; constructor).
    assert (Ee : exists eb ew, e = eb :: ew /\ is_status_token eb = false) by (destruct He as [->| ->]; eauto).
    destruct Ee as (eb & ew & Ee & Ve).
    replace (e ++ fs) with (eb :: (ew ++ fs)) by (rewrite Ee; reflexivity).
    destruct (response_line p bl v i c j rs eb (ew ++ fs)) as (p1 & p2 & p3 & ->); auto.
    replace (eb :: ew ++ fs) with (e ++ fs) by (rewrite Ee; reflexivity).
    rewrite skip_new_line_eol by exact He'. cbn [try_]. apply hopeless_header in Hfs.
    destruct (parse_header fs) as [h rr]. cbn [snd] in Hfs. rewrite Hfs. reflexivity.
Qed.
Lemma resp_buffer_partial q l : snd (resp_parse q l) = partial <-> snd (resp_parse_buffer q l) = partial.
Proof. rewrite resp_parse_eq. cbn [snd]. unfold partial. destruct (snd (resp_parse_buffer q l)); split; congruence. Qed.
Lemma response_wait q l : bytes_ok l -> snd (resp_parse q l) = partial ->
  hopeless_response l \/ exists e, snd (resp_parse q (l ++ [CR; CR; CR])) = Err e /\ e <> EHttp Partial.
Proof.
  intros Hl H. apply resp_buffer_partial in H. destruct (settle_response q l Hl H) as [K|K]; [right|left; exact K].
  rewrite resp_parse_eq. cbn [snd]. destruct K as (e & K & Ke). unfold W in K. rewrite K. eauto.
Qed.
Lemma response_hopeless q l : bytes_ok l -> ((forall x, snd (resp_parse q (l ++ x)) = partial) <-> hopeless_response l).
Proof.
  intros Hl. split.
  - intros H. pose proof (H []) as H0. rewrite app_nil_r in H0.
    destruct (response_wait q l Hl H0) as [K|(e & K & Ke)]; [exact K|]. exfalso.
    rewrite H in K. unfold partial in K. congruence.
  - intros H x. apply resp_buffer_partial. apply hopeless_response_partial. apply hopeless_response_app. exact H.
Qed.
Lemma fields_hopeless l : bytes_ok l -> ((forall x, snd (parse_header (l ++ x)) = partial) <-> hopeless_fields l).
Proof.
  intros Hl. split.
  - intros H. pose proof (H []) as H0. rewrite app_nil_r in H0.
    destruct (settle_header l Hl H0) as [K|K]; [|exact K]. exfalso. apply fin_not in K. apply K. apply H.
  - intros H x. apply hopeless_header. apply hopeless_fields_app. exact H.
Qed.

(** ** Unfinished targets *)
Lemma pct_cut l : pct_decode l = partial <-> cut_escape l.
Proof.
  split.
  - remember (length l) as n eqn:En. revert l En. induction n as [n IH] using lt_wf_ind. intros l En H.
    destruct l as [|b l]; [discriminate|]. cbn [pct_decode length] in *.
    destruct (b =? 37) eqn:E.
    + apply N.eqb_eq in E. subst b. destruct l as [|a [|c l]].
      * exists [], [], [37]. split; [constructor|]. auto.
      * exists [], [], [37; a]. split; [constructor|]. split; [right; eauto|reflexivity].
      * destruct (convert_hex a) as [t|] eqn:Ea; [|discriminate]. destruct (convert_hex c) as [u|] eqn:Ec; [|discriminate].
        assert (P : pct_decode l = partial) by (destruct (pct_decode l); cbn [bind] in H; unfold partial in *; congruence).
        destruct (IH (length l) ltac:(cbn [length] in En; lia) l eq_refl P) as (p & s & x & Hp & Hx & ->).
        exists (37 :: a :: c :: p), (16 * t + u :: s), x. split; [|auto].
        constructor; [apply hexv_spec, Ea|apply hexv_spec, Ec|exact Hp].
    + assert (P : pct_decode l = partial) by (destruct (pct_decode l); cbn [bind] in H; unfold partial in *; congruence).
      destruct (IH (length l) ltac:(lia) l eq_refl P) as (p & s & x & Hp & Hx & ->).
      exists (b :: p), (b :: s), x. split; [|auto]. constructor; [lia|exact Hp].
  - intros (a & s & x & Ha & Hx & ->).
    induction Ha as [|b l s Hb H IH|h x' k y l s H1 H2 H IH].
    + destruct Hx as [->|[c ->]]; reflexivity.
    + cbn [app pct_decode]. destruct (b =? 37) eqn:E; [lia|]. rewrite IH. reflexivity.
    + cbn [app pct_decode]. change (37 =? 37) with true. cbv iota. apply hexv_spec in H1, H2. rewrite H1, H2, IH. reflexivity.
Qed.
Lemma token_cut l : parse_url_token l = partial <-> cut_escape l.
Proof.
  rewrite <- pct_cut. unfold parse_url_token. destruct (pct_decode l) as [r|e| |]; cbn [bind]; try (split; discriminate).
  - destruct (utf8_valid r); split; discriminate.
  - unfold partial. split; congruence.
Qed.
Lemma origin_start l : url_parse (47 :: l) =
  (s <- url_loop false (mkUst None None None None None None true [47]) l ;; url_build ScNone s).
Proof.
  unfold url_parse. change (is_alpha 47) with false. change (47 =? 47) with true. cbv iota.
  unfold ust0. cbn [url_loop url_step negb is_some].
  change (47 =? 58) with false. change (47 =? 64) with false. change (47 =? 47) with true. cbv iota. reflexivity.
Qed.
Lemma step_not_partial hd s b : url_step hd s b <> partial.
Proof.
  destruct s as [us pw dom po pa q fs v]. unfold url_step.
  repeat match goal with |- (if ?c then _ else _) <> _ => destruct c end; discriminate.
Qed.
Lemma loop_not_partial hd l : forall s, url_loop hd s l <> partial.
Proof.
  induction l as [|b l IH]; intros s; [discriminate|]. cbn [url_loop].
  pose proof (step_not_partial hd s b) as N. destruct (url_step hd s b); cbn [bind]; [apply IH|exact N|discriminate..].
Qed.
Lemma origin_build t q : url_build ScNone (mkUst None None None None (Some t) q true []) = partial <->
  cut_escape t \/ (exists p, text_of t p) /\ exists y, q = Some y /\ cut_escape y.
Proof.
  unfold url_build. cbn [s_user s_pass s_domain s_port s_path s_query decode_opt bind].
  destruct (parse_url_token t) as [p|e| |] eqn:T; cbn [bind].
  - assert (Nt : ~ cut_escape t) by (intros K; apply token_cut in K; unfold partial in K; congruence).
    apply parse_url_token_ok in T. destruct q as [y|]; cbn [decode_opt bind].
    + destruct (parse_url_token y) as [r|e| |] eqn:Y; cbn [bind].
      * split; [discriminate|]. intros [K|(_ & y' & E & K)]; [contradiction|]. injection E as <-. apply token_cut in K. unfold partial in K. congruence.
      * split.
        -- intros H. right. split; [exists p; exact T|]. exists y. split; [reflexivity|]. apply token_cut. unfold partial in *. congruence.
        -- intros [K|(_ & y' & E & K)]; [contradiction|]. injection E as <-. apply token_cut in K. unfold partial in *. congruence.
      * split; [discriminate|]. intros [K|(_ & y' & E & K)]; [contradiction|]. injection E as <-. apply token_cut in K. unfold partial in K. congruence.
      * split; [discriminate|]. intros [K|(_ & y' & E & K)]; [contradiction|]. injection E as <-. apply token_cut in K. unfold partial in K. congruence.
    + split; [discriminate|]. intros [K|(_ & y' & E & K)]; [contradiction|discriminate].
  - rewrite <- (token_cut t), T. unfold partial. split; [intros H; left; congruence|].
    intros [K|((p & K) & _)]; [congruence|]. apply parse_url_token_ok in K. congruence.
  - exfalso. exact (proj1 (parse_url_token_returns t) T).
  - exfalso. exact (proj2 (parse_url_token_returns t) T).
Qed.
Lemma path_no_at t qq q : Forall path_char t -> raw_query qq q -> ~ In 64 (t ++ qq).
Proof.
  intros Ht Hq K. apply in_app_or in K as [K|K].
  - rewrite Forall_forall in Ht. apply Ht in K. destruct K as (_ & _ & K). congruence.
  - destruct Hq as [|x Hx]; [destruct K|]. destruct K as [K|K]; [discriminate|].
    rewrite Forall_forall in Hx. apply Hx in K. destruct K as [_ K]. congruence.
Qed.
Lemma origin_unfinished t : hd_error t = Some 47 -> (url_parse t = partial <-> unfinished_origin t).
Proof.
  destruct t as [|b l]; [discriminate|]. cbn [hd_error]. intros E. injection E as ->. rewrite origin_start. split.
  - intros H. destruct (url_loop false (mkUst None None None None None None true [47]) l) as [st|e| |] eqn:L; cbn [bind] in H; try discriminate.
    + pose proof (origin_no_at _ _ _ _ _ L) as N64.
      apply path_loop in L; [|exact N64|right; reflexivity]. destruct L as (t & qq & q & -> & Ht & Hq & ->).
      apply origin_build in H as [H|((p & Hp) & y & -> & Hy)].
      * apply uo_path; [exact Ht|exact H|]. destruct Hq as [|y Hy]; eauto.
      * inversion Hq; subst. eapply uo_query; eassumption.
    + exfalso. apply (loop_not_partial false l (mkUst None None None None None None true [47])). unfold partial in *. congruence.
  - assert (G : forall t qq q, Forall path_char t -> raw_query qq q ->
      url_loop false (mkUst None None None None None None true [47]) (t ++ qq) = Ok (mkUst None None None None (Some (47 :: t)) q true [])).
    { intros t qq q Ht Hq. apply path_loop; [eapply path_no_at; eassumption|right; reflexivity|].
      exists t, qq, q. auto. }
    intros H. inversion H as [t qq Ht Hc Hq E|t p y Ht Hp Hy Hc E]; subst.
    + assert (R : exists q, raw_query qq q) by (destruct Hq as [->|(y & -> & Hy)]; [exists None|exists (Some y)]; constructor; assumption).
      destruct R as [q R]. rewrite (G t qq q Ht R). cbn [bind]. apply origin_build. left. exact Hc.
    + rewrite (G t (63 :: y) (Some y) Ht (rq_some y Hy)). cbn [bind]. apply origin_build. right. split; [exists p; exact Hp|]. eauto.
Qed.
