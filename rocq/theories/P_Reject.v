(** Lemmas for C103: every refused head, URL and chunk, with its error. *)
From Coq Require Import Ascii String NArith ZArith Lia Bool List ZifyBool ZifyNat ZifyN.
From Verif Require Import Base S_Utf8 P_Base M_Std P_Std M_Helper S_Http1 P_Helper M_Header M_Url M_Http1 S_Http1Api P_Header P_Http1 P_Msg S_Hex P_Chunk S_Url P_Url P_UrlForm S_UrlAll P_UrlAll S_Wait P_Wait S_Reject.
Import ListNotations.
Local Open Scope N_scope.

Lemma bind_err {A B} (m : res A) (k : A -> res B) e : bind m k = Err e <-> m = Err e \/ exists a, m = Ok a /\ k a = Err e.
Proof.
  destruct m as [a|x| |]; cbn [bind]; split; intros H.
  - right. eauto.
  - destruct H as [H|(b & H & K)]; [discriminate|]. injection H as <-. exact K.
  - left. congruence.
  - destruct H as [H|(b & H & K)]; [congruence|discriminate].
  - discriminate.
  - destruct H as [H|(b & H & K)]; discriminate.
  - discriminate.
  - destruct H as [H|(b & H & K)]; discriminate.
Qed.
Lemma try_err {S A B} (s s' : S) (m : res A) (k : A -> S * res B) e : try_ s m k = (s', Err e) <->
  m = Err e /\ s' = s \/ exists a, m = Ok a /\ k a = (s', Err e).
Proof.
  destruct m as [a|x| |]; cbn [try_]; split; intros H.
  - right. eauto.
  - destruct H as [[H _]|(b & H & K)]; [discriminate|]. injection H as <-. exact K.
  - left. split; congruence.
  - destruct H as [[H ->]|(b & H & K)]; [congruence|discriminate].
  - discriminate.
  - destruct H as [[H _]|(b & H & K)]; discriminate.
  - discriminate.
  - destruct H as [[H _]|(b & H & K)]; discriminate.
Qed.

(** ** Lines and words *)
Ltac noeol := match goal with K : no_eol _ |- _ => exfalso; destruct K as (? & ? & ?); unfold CR, LF, SP in *; contradiction end.
Lemma expect_err b e0 l e : expect b e0 l = Err e <-> l = [] /\ e = unfinished \/ exists c r, l = c :: r /\ c <> b /\ e = e0.
Proof.
  unfold expect, next. destruct l as [|c l]; cbn [bind].
  - unfold partial, unfinished. cbn [bind]. split; [intros H; left; split; [reflexivity|congruence]|]. intros [[_ ->]|(c & r & H & _)]; [reflexivity|discriminate].
  - destruct (c =? b) eqn:E.
    + apply N.eqb_eq in E. subst c. split; [discriminate|]. intros [[H _]|(c & r & H & K & _)]; [discriminate|]. injection H as <- <-. contradiction.
    + apply N.eqb_neq in E. split; [intros H; right; exists c, l; repeat split; congruence|].
      intros [[H _]|(c' & r & H & K & ->)]; [discriminate|reflexivity].
Qed.
Lemma eol_bad_iff l e : skip_new_line l = Err e <-> eol_bad l e.
Proof.
  unfold skip_new_line, next. destruct l as [|b l]; cbn [bind].
  - unfold partial. cbn [bind]. split; [intros H; injection H as <-; constructor|]. intros H; inversion H; reflexivity.
  - destruct (b =? 13) eqn:E1.
    + apply N.eqb_eq in E1. subst b. rewrite expect_err. split.
      * intros [[-> ->]|(c & r & -> & H & ->)]; [constructor|constructor; exact H].
      * intros H. inversion H; subst; [left; auto|right; eauto|]. noeol.
    + apply N.eqb_neq in E1. destruct (b =? 10) eqn:E2; [|destruct (b =? 32) eqn:E3].
      * apply N.eqb_eq in E2. subst b. split; [discriminate|]. intros H. inversion H; subst. noeol.
      * apply N.eqb_eq in E3. subst b. split; [discriminate|]. intros H. inversion H; subst. noeol.
      * apply N.eqb_neq in E2, E3. unfold partial. split; [intros H; injection H as <-; constructor; repeat split; assumption|].
        intros H. inversion H; subst; [unfold CR in E1; contradiction..|reflexivity].
Qed.
Lemma line_bad_cr x e : line_bad (CR :: x) e <-> expect 10 (EHttp NewLine) x = Err e.
Proof.
  rewrite expect_err. split.
  - intros H. inversion H; subst; [left; auto|right; eauto].
  - intros [[-> ->]|(c & r & -> & H & ->)]; constructor. exact H.
Qed.
Lemma blank_err l e : skip_empty_lines l = Err e <-> exists bl x, l = bl ++ x /\ blanks bl /\ line_bad x e.
Proof.
  split.
  - induction l as [|l IH| |l IH|c l Hc|b l H1 H2] using skip_empty_lines_ind; intros H.
    + injection H as <-. exists [], []. repeat split; constructor.
    + destruct (IH H) as (bl & x & -> & B & X). exists (LF :: bl), x. repeat split; [constructor; exact B|exact X].
    + injection H as <-. exists [], [CR]. repeat split; constructor.
    + destruct (IH H) as (bl & x & -> & B & X). exists (CR :: LF :: bl), x. repeat split; [constructor; exact B|exact X].
    + cbn [skip_empty_lines] in H. change (CR =? 13) with true in H. cbv iota in H.
      destruct (c =? 10) eqn:E; [apply N.eqb_eq in E; unfold LF in Hc; contradiction|]. injection H as <-.
      exists [], (CR :: c :: l). repeat split; [constructor|constructor; exact Hc].
    + cbn [skip_empty_lines] in H. apply N.eqb_neq in H1, H2. unfold CR, LF in *. rewrite H1, H2 in H. discriminate.
  - intros (bl & x & -> & B & X). induction B as [|l _ IH|l _ IH]; [|exact IH|exact IH].
    destruct X as [| |b r H]; [reflexivity..|]. cbn [app skip_empty_lines]. change (CR =? 13) with true. cbv iota.
    apply N.eqb_neq in H. unfold LF in H. rewrite H. reflexivity.
Qed.
Lemma word_bad_iff f P e0 l e : (forall b, f b = true <-> P b) -> (parse_token_by f e0 false l = Err e <-> word_bad P e0 l e).
Proof.
  intros HP. unfold parse_token_by. destruct (scan f l) as [[t r]|] eqn:S.
  - apply scan_some in S as (-> & Ht & b & r' & -> & Hb). assert (NP : ~ P b) by (intros K; apply HP in K; congruence).
    destruct t as [|c t].
    + cbn [app]. split; [intros H; injection H as <-; constructor; exact NP|].
      intros H. inversion H; subst; [|reflexivity]. apply Forall_inv in H0. contradiction.
    + split; [discriminate|]. intros H. inversion H; subst.
      * apply Forall_app in H0 as [_ H0]. apply Forall_inv in H0. contradiction.
      * cbn [forallb] in Ht. apply andb_true_iff in Ht as [Ht _]. apply HP in Ht. contradiction.
  - apply scan_none in S. apply (forallb_Forall f P) in S; [|exact HP]. unfold partial.
    split; [intros H; injection H as <-; constructor; exact S|]. intros H. inversion H; subst; [reflexivity|].
    apply Forall_inv in S. contradiction.
Qed.
Lemma token_bad_iff l e : parse_token l = Err e <-> word_bad vchar (EHttp Token) l e.
Proof. apply word_bad_iff. apply token_vchar. Qed.
(** A word and a lookup. *)
Lemma named_bad_iff {A} (look : bytes -> res A) (known : bytes -> Prop) e0 l e :
  (forall w, word w -> known w <-> exists a, look w = Ok a) -> (forall w x, word w -> look w = Err x -> x = e0) ->
  (forall w, returns (look w)) ->
  ((' (t, l1) <- parse_token l ;; m <- look t ;; Ok (m, l1)) = Err e <-> named_bad known e0 l e).
Proof.
  intros K E R. rewrite bind_err. split.
  - intros [H|([t l1] & H & L)]; [constructor; apply token_bad_iff; exact H|].
    apply parse_token_by_ok in H as (-> & Hn & Ht & b & r & -> & Hb). pose proof (token_word _ Hn Ht) as W.
    apply bind_err in L as [L|(a & _ & L)]; [|discriminate]. pose proof (E _ _ W L). subst e. constructor; [exact W| |].
    + intros V. apply token_vchar in V. congruence.
    + intros V. apply K in V as [a V]; [congruence|exact W].
  - intros [x e' H|w b r W V NK].
    + left. apply token_bad_iff. exact H.
    + right. exists (w, b :: r). split.
      * apply parse_token_word; [exact W|]. destruct (is_token b) eqn:T; [apply token_vchar in T; contradiction|reflexivity].
      * destruct (look w) as [a|x| |] eqn:L; cbn [bind].
        -- exfalso. apply NK, K; [exact W|eauto].
        -- rewrite (E _ _ W L). reflexivity.
        -- exfalso. exact (proj1 (R w) L).
        -- exfalso. exact (proj2 (R w) L).
Qed.
Lemma method_bad_iff l e : parse_method l = Err e <-> named_bad a_method (EHttp MethodErr) l e.
Proof.
  apply named_bad_iff.
  - intros w _. split; [intros (m & M & ->); exists m; apply method_of_str_known; exact M|].
    intros [m H]. apply method_of_str_ok in H as [H ->]. exists m. auto.
  - intros w x _. unfold method_of_str. repeat match goal with |- context [if ?c then _ else _] => destruct c end; congruence.
  - apply method_of_str_total.
Qed.
Definition version_look (t : bytes) : res version :=
  if beq t (str "HTTP/1.0") then Ok V10 else if beq t (str "HTTP/1.1") then Ok V11
  else if beq t (str "HTTP/2") then Ok V2 else if beq t (str "HTTP/3") then Ok V3 else Err (EHttp VersionErr).
Lemma parse_version_look l : parse_version l = (' (t, l1) <- parse_token l ;; m <- version_look t ;; Ok (m, l1)).
Proof.
  unfold parse_version, version_look. destruct (parse_token l) as [[t l1]|e| |]; cbn [bind]; try reflexivity.
  repeat match goal with |- context [if ?c then _ else _] => destruct c end; reflexivity.
Qed.
Lemma version_bad_iff l e : parse_version l = Err e <-> named_bad a_version (EHttp VersionErr) l e.
Proof.
  rewrite parse_version_look. apply named_bad_iff.
  - intros w _. split.
    + intros (v & V & ->). cbn in V. destruct V as [<-|[<-|[<-|[<-|[]]]]]; (eexists; reflexivity).
    + intros [v H]. unfold version_look in H.
      destruct (beq w (str "HTTP/1.0")) eqn:E1; [apply beq_eq in E1; exists V10; split; [cbn; tauto|exact E1]|].
      destruct (beq w (str "HTTP/1.1")) eqn:E2; [apply beq_eq in E2; exists V11; split; [cbn; tauto|exact E2]|].
      destruct (beq w (str "HTTP/2")) eqn:E3; [apply beq_eq in E3; exists V2; split; [cbn; tauto|exact E3]|].
      destruct (beq w (str "HTTP/3")) eqn:E4; [apply beq_eq in E4; exists V3; split; [cbn; tauto|exact E4]|]. discriminate H.
  - intros w x _. unfold version_look. repeat match goal with |- context [if ?c then _ else _] => destruct c end; congruence.
  - intros w. unfold version_look. repeat match goal with |- context [if ?c then _ else _] => destruct c end; split; discriminate.
Qed.
Lemma word_bytes w : word w -> bytes_ok w.
Proof. intros [_ H]. unfold bytes_ok. eapply Forall_impl; [|exact H]. intros b K. unfold vchar, byte_ok in *. lia. Qed.
Lemma status_bad_iff l e : parse_status l = Err e <-> named_bad a_status (EHttp InvalidStatusCode) l e.
Proof.
  apply named_bad_iff.
  - intros w W. split.
    + intros (c & C & ->). exists c. rewrite <- status_str_three by exact C. apply status_str_from. exact C.
    + intros [c H]. apply status_from_ok in H as [C ->]; [|apply word_bytes; exact W]. exists c. split; [exact C|apply status_str_three; exact C].
  - intros w x _. unfold status_from_bytes. destruct w as [|a [|b [|c [|]]]]; try congruence. cbv zeta.
    match goal with |- context [if ?c then _ else _] => destruct c end; congruence.
  - apply status_from_bytes_total.
Qed.
Lemma spaced_some x y : spaced x y -> (y = [] /\ skip_spaces x = partial) \/ exists b r, y = b :: r /\ skip_spaces x = Ok (tt, y).
Proof.
  intros (i & -> & H). destruct y as [|b r].
  - left. split; [reflexivity|]. rewrite app_nil_r. clear H. induction i as [|i IH]; [reflexivity|exact IH].
  - right. exists b, r. split; [reflexivity|]. apply skip_spaces_app. cbn in H. congruence.
Qed.
Lemma skip_spaces_cases x : exists y, spaced x y.
Proof.
  induction x as [|b x (y & i & -> & H)]; [exists [], 0%nat; split; [reflexivity|discriminate]|].
  destruct (N.eq_dec b SP) as [->|N]; [exists y, (S i); split; [reflexivity|exact H]|].
  exists (b :: spaces i ++ y), 0%nat. split; [reflexivity|]. cbn. congruence.
Qed.
(** Spaces and then something that fails on nothing. *)
Lemma gap_err {A} (p : bytes -> res A) x y e : p [] = partial -> spaced x y ->
  ((skip_spaces x = Err e \/ exists a, skip_spaces x = Ok a /\ p (snd a) = Err e) <-> p y = Err e).
Proof.
  intros P0 H. destruct (spaced_some _ _ H) as [[-> E]|(b & r & -> & E)]; rewrite E.
  - rewrite P0. unfold partial. split; [intros [K|(a & K & _)]; [injection K as <-; reflexivity|discriminate]|intros K; left; injection K as <-; reflexivity].
  - split; [intros [K|(a & K & L)]; [discriminate|]; injection K as <-; exact L|]. intros K. right. exists (tt, b :: r). auto.
Qed.

(** ** Header lines *)
Lemma name_tok b : ~ tchar b -> is_header_name_token b = false.
Proof. intros H. destruct (is_header_name_token b) eqn:E; [apply header_name_token_spec in E; contradiction|reflexivity]. Qed.
Lemma name_then n x : name_ok n -> (exists b r, x = b :: r /\ ~ tchar b) -> parse_header_name (n ++ x) = Ok (n, x).
Proof.
  intros N (b & r & -> & B). apply name_token in N as [N1 N2]. apply parse_token_by_app; [exact N1|exact N2|apply name_tok; exact B].
Qed.
Lemma spaces_then i b r : ~ tchar b -> exists c s, spaces i ++ b :: r = c :: s /\ ~ tchar c.
Proof.
  intros H. destruct i as [|i]; [cbn; eauto|]. exists SP, (spaces i ++ b :: r). split; [reflexivity|].
  intros K. apply tchar_not in K as [K _]. unfold SP in K. contradiction.
Qed.
Lemma colon_tchar : ~ tchar COLON. Proof. intros K. apply tchar_not in K as (_ & K & _). unfold COLON in K. contradiction. Qed.
Lemma sp_tchar : ~ tchar SP. Proof. intros K. apply tchar_not in K as [K _]. unfold SP in K. contradiction. Qed.
(** The line up to and including the colon and the spaces behind it. *)
Lemma line_colon n i j v : name_ok n -> hd_error v <> Some SP -> v <> [] -> parse_header_line (n ++ spaces i ++ COLON :: spaces j ++ v) =
  (' (value, r5) <- parse_header_value v ;; ' (_, r6) <- skip_new_line r5 ;; Ok ((n, value), r6)).
Proof.
  intros N V V0. unfold parse_header_line. rewrite name_then; [|exact N|apply spaces_then, colon_tchar]. cbn [bind].
  rewrite skip_spaces_app by discriminate. cbn [bind]. rewrite expect_app. cbn [bind].
  destruct v as [|b v]; [contradiction|]. rewrite skip_spaces_app by (cbn in V; congruence). reflexivity.
Qed.
Lemma no_cr_token v : bytes_ok v -> ~ In CR v -> forallb is_header_value_token v = true.
Proof.
  intros B N. apply forallb_forall. intros b Hb. unfold bytes_ok in B. rewrite Forall_forall in B.
  rewrite header_value_token_spec by (apply B; exact Hb). destruct (b =? 13) eqn:E; [|reflexivity].
  apply N.eqb_eq in E. subst b. contradiction.
Qed.
Lemma field_bad_err l e : bytes_ok l -> field_bad l e -> parse_header_line l = Err e.
Proof.
  intros Hl H. destruct H as [n N|b r B|n i N|n i b r N B1 B2 B3|n i j v N V1 V2|n i j v x e N V V0 X|n i j x e N X].
  - unfold parse_header_line. apply name_token in N as [_ N]. apply scan_none in N.
    unfold parse_header_name, parse_token_by. rewrite N. reflexivity.
  - unfold parse_header_line, parse_header_name, parse_token_by. cbn [scan]. rewrite name_tok by exact B. reflexivity.
  - unfold parse_header_line. rewrite name_then; [|exact N|exists SP, (spaces i); split; [reflexivity|apply sp_tchar]]. cbn [bind].
    assert (E : skip_spaces (spaces (S i)) = partial) by (clear; cbn [spaces repeat skip_spaces]; change (SP =? 32) with true; cbv iota; induction i as [|i IH]; [reflexivity|exact IH]).
    rewrite E. reflexivity.
  - unfold parse_header_line. rewrite name_then; [|exact N|].
    + cbn [bind]. rewrite skip_spaces_app by exact B1. cbn [bind]. unfold expect, next. cbn [bind].
      destruct (b =? 58) eqn:E; [apply N.eqb_eq in E; contradiction|]. reflexivity.
    + destruct i as [|i]; [cbn; eauto|]. exists SP, (spaces i ++ b :: r). split; [reflexivity|apply sp_tchar].
  - destruct v as [|b v].
    + rewrite app_nil_r. unfold parse_header_line. rewrite name_then; [|exact N|apply spaces_then, colon_tchar]. cbn [bind].
      rewrite skip_spaces_app by discriminate. cbn [bind]. rewrite expect_app. cbn [bind].
      assert (E : skip_spaces (spaces j) = partial) by (clear; induction j as [|j IH]; [reflexivity|exact IH]). rewrite E. reflexivity.
    + rewrite line_colon by (assumption || discriminate). unfold parse_header_value, parse_token_by.
      apply bytes_ok_app in Hl as [_ Hl]. apply bytes_ok_app in Hl as [_ Hl]. apply bytes_ok_cons in Hl as [_ Hl]. apply bytes_ok_app in Hl as [_ Hl].
      pose proof (no_cr_token _ Hl V1) as T. apply scan_none in T. rewrite T. reflexivity.
  - destruct v as [|b v]; [contradiction|]. rewrite line_colon; [|exact N| |discriminate].
    + unfold parse_header_value, parse_token_by. rewrite scan_app; [|apply value_token; exact V|reflexivity]. cbn [bind].
      change (skip_new_line (CR :: x)) with (expect 10 (EHttp NewLine) x). apply line_bad_cr in X. rewrite X. reflexivity.
    + destruct V as (_ & _ & V). exact V.
  - rewrite line_colon by (assumption || discriminate). change (parse_header_value (CR :: x)) with (@Ok (bytes * bytes) ([], x)). cbn [bind].
    apply eol_bad_iff in X. rewrite X. reflexivity.
Qed.
Lemma field_err_bad l e : bytes_ok l -> l <> [] -> parse_header_line l = Err e -> field_bad l e.
Proof.
  intros Hl L0 H. unfold parse_header_line in H. apply bind_err in H as [H|([n r1] & H1 & H)].
  { apply (word_bad_iff _ tchar) in H; [|apply header_name_token_spec]. destruct H as [w W|b r B]; [|constructor; exact B].
    apply fb_open. split; assumption. }
  apply parse_token_by_ok in H1 as (-> & Hn & Ht & b1 & r1' & -> & Hb1). pose proof (name_ok_tok _ Hn Ht) as N.
  assert (B1 : ~ tchar b1) by (intros K; apply header_name_token_spec in K; congruence).
  destruct (skip_spaces_cases (b1 :: r1')) as (y & Hy). pose proof Hy as (i & Ey & Sy).
  destruct (spaced_some _ _ Hy) as [[-> E]|(b & r & -> & E)].
  { rewrite E in H. cbn [bind] in H. unfold partial in H. injection H as <-. rewrite app_nil_r in Ey. rewrite Ey.
    destruct i as [|i]; [discriminate|]. apply fb_open_spaces. exact N. }
  rewrite E in H. cbn [bind] in H. rewrite Ey in *. clear E Hy.
  apply bind_err in H as [H|([[] r3] & H3 & H)].
  { apply expect_err in H as [[K _]|(c & s & K & Hc & ->)]; [discriminate|]. injection K as <- <-.
    apply fb_no_colon; [exact N|cbn in Sy; congruence|exact Hc|]. intros ->. cbn in Ey. injection Ey as <- <-. exact B1. }
  apply expect_ok in H3. injection H3 as -> ->.
  destruct (skip_spaces_cases r3) as (v & Hv). pose proof Hv as (j & Ev & Sv).
  destruct (spaced_some _ _ Hv) as [[-> E]|(c & s & -> & E)].
  { rewrite E in H. cbn [bind] in H. unfold partial in H. injection H as <-. rewrite Ev.
    apply (fb_open_value n i j []); [exact N|auto|discriminate]. }
  rewrite E in H. cbn [bind] in H. clear E Hv Ey. subst r3.
  assert (Bv : bytes_ok (c :: s)).
  { apply bytes_ok_app in Hl as [_ Hl]. apply bytes_ok_app in Hl as [_ Hl]. apply bytes_ok_cons in Hl as [_ Hl]. apply bytes_ok_app in Hl as [_ Hl]. exact Hl. }
  unfold parse_header_value, parse_token_by in H. destruct (scan is_header_value_token (c :: s)) as [[t z]|] eqn:S.
  - apply scan_some in S as (Es & Tv & d & z' & -> & Hd).
    assert (d = CR).
    { rewrite Es in Bv. apply bytes_ok_app in Bv as [_ Bv]. apply bytes_ok_cons in Bv as [K _].
      rewrite header_value_token_spec in Hd by exact K. unfold CR. lia. }
    subst d. destruct t as [|t0 t].
    + cbn [app] in Es. rewrite Es. cbn [bind] in H. apply bind_err in H as [H|([[] r6] & _ & H)]; [|discriminate].
      apply fb_empty_end; [exact N|]. apply eol_bad_iff. exact H.
    + cbn [bind] in H. apply bind_err in H as [H|([[] r6] & _ & H)]; [|discriminate].
      change (skip_new_line (CR :: z')) with (expect 10 (EHttp NewLine) z') in H. rewrite Es in *. cbn [app] in Es. injection Es as -> ->.
      apply fb_value_end; [exact N| |discriminate|apply line_bad_cr; exact H].
      split; [apply bytes_ok_app in Bv; apply Bv|]. split; [|exact Sv].
      intros K. rewrite forallb_forall in Tv. apply Tv in K. discriminate.
  - cbn [bind] in H. unfold partial in H. cbn [bind] in H. injection H as <-. apply scan_none in S.
    apply fb_open_value; [exact N| |exact Sv]. intros K. rewrite forallb_forall in S. apply S in K. discriminate.
Qed.
Lemma fields_bad_loop l hs e : fields_bad l hs e -> forall f h, bytes_ok l -> (length l < f)%nat ->
  parse_header_loop f h l = (add_fields h hs, Err e).
Proof.
  intros H. induction H as [x e X|b r e B1 B2 X|w n v l hs e F _ IH]; intros f h Hl Hf; (destruct f as [|f]; [lia|]).
  - destruct x as [|b x]; [inversion X; reflexivity|].
    assert (b = CR) by (inversion X; reflexivity). subst b. apply line_bad_cr in X.
    cbn [parse_header_loop]. change (CR =? 13) with true. cbv iota. rewrite X. reflexivity.
  - cbn [parse_header_loop]. apply N.eqb_neq in B1, B2. unfold CR, LF in B1, B2. rewrite B1, B2.
    rewrite (field_bad_err _ _ Hl X). reflexivity.
  - pose proof (field_parses w n v l F) as P. destruct (P_Header.field_first _ _ _ F) as (b & w' & -> & C1 & C2).
    cbn [app parse_header_loop] in *. apply N.eqb_neq in C1, C2. unfold CR, LF in C1, C2. rewrite C1, C2, P.
    rewrite IH; [reflexivity| |cbn [length] in Hf; rewrite app_length in Hf; lia].
    apply bytes_ok_cons in Hl as [_ Hl]. apply bytes_ok_app in Hl as [_ Hl]. exact Hl.
Qed.
Lemma fields_loop_bad f : forall h l h' e, bytes_ok l -> (length l < f)%nat -> parse_header_loop f h l = (h', Err e) ->
  exists hs, fields_bad l hs e /\ h' = add_fields h hs.
Proof.
  induction f as [|f IH]; intros h l h' e Hl Hf H; [lia|]. destruct l as [|b l].
  { cbn [parse_header_loop] in H. unfold partial in H. injection H as <- <-. exists []. split; [constructor; constructor|reflexivity]. }
  cbn [parse_header_loop] in H. destruct (b =? 13) eqn:E1; [|destruct (b =? 10) eqn:E2].
  - apply N.eqb_eq in E1. subst b. injection H as <- H. apply bind_err in H as [H|([[] r] & _ & H)]; [|discriminate].
    exists []. split; [constructor; apply line_bad_cr; exact H|reflexivity].
  - discriminate.
  - apply N.eqb_neq in E1, E2. destruct (parse_header_line (b :: l)) as [[[n v] r]|x| |] eqn:P; try discriminate.
    + pose proof (parse_header_line_len _ _ _ P) as Len. apply field_sound in P as (w & F & E); [|exact Hl].
      destruct (IH (hm_insert h n v) r h' e) as (hs & B & ->).
      * rewrite E in Hl. apply bytes_ok_app in Hl as [_ Hl]. exact Hl.
      * cbn [length] in *. lia.
      * exact H.
      * exists ((n, v) :: hs). split; [rewrite E; econstructor; eassumption|reflexivity].
    + injection H as <- <-. exists []. split; [|reflexivity]. apply fsb_line; [exact E1|exact E2|]. apply field_err_bad; [exact Hl|discriminate|exact P].
Qed.
Lemma fields_bad_iff l h e : bytes_ok l -> (parse_header l = (h, Err e) <-> exists hs, fields_bad l hs e /\ h = add_fields [] hs).
Proof.
  intros Hl. split.
  - apply fields_loop_bad; [exact Hl|lia].
  - intros (hs & B & ->). apply fields_bad_loop; [exact B|exact Hl|lia].
Qed.

(** ** URLs *)
Definition opt_part (f : bytes -> part) (o : option bytes) : list part := match o with Some r => [f r] | None => [] end.
Definition parts_of (st : ust) : list part :=
  opt_part Text (s_user st) ++ opt_part Text (s_pass st) ++ opt_part Text (s_domain st) ++ opt_part Port (s_port st) ++
  opt_part Text (s_path st) ++ opt_part Text (s_query st).
Lemma first_cut_nil : ~ first_cut [].
Proof. intros (a & p & b & E & _). destruct a; discriminate. Qed.
Lemma first_cut_cons p ps : first_cut (p :: ps) <-> cut_escape (raw_of p) \/ fine p /\ first_cut ps.
Proof.
  split.
  - intros (a & q & b & E & F & C). destruct a as [|x a]; injection E as <- E; [left; exact C|].
    right. split; [exact (Forall_inv F)|]. exists a, q, b. split; [exact E|]. split; [exact (Forall_inv_tail F)|exact C].
  - intros [C|[F (a & q & b & -> & G & C)]]; [exists [], p, ps; auto|]. exists (p :: a), q, b. split; [reflexivity|]. split; [constructor; assumption|exact C].
Qed.
Lemma decode_opt_cut {A} (k : option bytes -> res A) o (ps : list part) :
  (forall s, decode_opt o = Ok s -> (k s = partial <-> first_cut ps)) ->
  ((s <- decode_opt o ;; k s) = partial <-> first_cut (opt_part Text o ++ ps)).
Proof.
  intros H. destruct o as [r|]; cbn [opt_part app]; [|apply H; reflexivity].
  rewrite first_cut_cons. cbn [raw_of fine]. destruct (decode_opt (Some r)) as [s|e| |] eqn:D; cbn [bind].
  - rewrite (H s eq_refl). pose proof D as D'. apply decode_opt_ok in D'. destruct s as [s|]; [|contradiction].
    split; [intros K; right; split; [exists s; exact D'|exact K]|]. intros [K|[_ K]]; [|exact K].
    exfalso. apply token_cut in K. cbn [decode_opt] in D. rewrite K in D. discriminate.
  - cbn [decode_opt] in D. split.
    + intros K. left. apply token_cut. destruct (parse_url_token r); cbn [bind] in D; unfold partial in *; congruence.
    + intros [K|[(s & K) _]].
      * apply token_cut in K. rewrite K in D. unfold partial in *. cbn [bind] in D. congruence.
      * apply parse_url_token_ok in K. rewrite K in D. discriminate.
  - exfalso. exact (proj1 (decode_opt_returns _) D).
  - exfalso. exact (proj2 (decode_opt_returns _) D).
Qed.
Lemma decode_port_cut {A} (k : option N -> res A) o (ps : list part) :
  (forall n, (k n = partial <-> first_cut ps)) ->
  ((po <- decode_opt o ;; port <- match po with None => Ok None | Some p => match parse_uint 65536 p with Some n => Ok (Some n) | None => Err (EUrl UrlInvalid) end end ;; k port) = partial
   <-> first_cut (opt_part Port o ++ ps)).
Proof.
  intros H. destruct o as [r|]; cbn [opt_part app]; [|cbn [decode_opt bind]; apply H].
  rewrite first_cut_cons. cbn [raw_of fine]. destruct (decode_opt (Some r)) as [s|e| |] eqn:D; cbn [bind].
  - pose proof D as D'. apply decode_opt_ok in D'. destruct s as [s|]; [|contradiction].
    assert (NC : ~ cut_escape r). { intros K. apply token_cut in K. cbn [decode_opt] in D. rewrite K in D. discriminate. }
    destruct (parse_uint 65536 s) as [n|] eqn:P; cbn [bind].
    + rewrite H. apply parse_uint_spec in P. split; [intros K; right; split; [exists s, n; split; [exact D'|exact P]|exact K]|]. intros [K|[_ K]]; [contradiction|exact K].
    + split; [discriminate|]. intros [K|[(s' & n & K1 & K2) _]]; [contradiction|]. exfalso. destruct D' as [D1 _]. destruct K1 as [K1 _].
      rewrite (pct_form_fun _ _ K1 _ D1) in K2. apply parse_uint_spec in K2. congruence.
  - cbn [decode_opt] in D. split.
    + intros K. left. apply token_cut. destruct (parse_url_token r); cbn [bind] in D; unfold partial in *; congruence.
    + intros [K|[(s & n & K & _) _]].
      * apply token_cut in K. rewrite K in D. unfold partial in *. cbn [bind] in D. congruence.
      * apply parse_url_token_ok in K. rewrite K in D. discriminate.
  - exfalso. exact (proj1 (decode_opt_returns _) D).
  - exfalso. exact (proj2 (decode_opt_returns _) D).
Qed.
Lemma build_cut sc st : url_build sc st = partial <-> first_cut (parts_of st).
Proof.
  unfold url_build, parts_of. apply decode_opt_cut. intros us _. apply decode_opt_cut. intros pw _. apply decode_opt_cut. intros dom _.
  apply (decode_port_cut (fun port => pa <- decode_opt (s_path st) ;; q <- decode_opt (s_query st) ;; _)). intros port.
  apply decode_opt_cut. intros pa _. rewrite <- (app_nil_r (opt_part Text (s_query st))). apply decode_opt_cut. intros q _.
  split; [discriminate|]. intros K. destruct (first_cut_nil K).
Qed.
Lemma step_err hd s b e : url_step hd s b = Err e -> e = EUrl UrlInvalid.
Proof.
  destruct s as [us pw dom po pa q fs v]. unfold url_step.
  repeat match goal with |- context [if ?c then _ else _] => destruct c end; congruence.
Qed.
Lemma loop_err hd l : forall s e, url_loop hd s l = Err e -> e = EUrl UrlInvalid.
Proof.
  induction l as [|b l IH]; intros s e; [discriminate|]. cbn [url_loop]. intros H. apply bind_err in H as [H|(s' & _ & H)]; [eapply step_err; exact H|eapply IH; exact H].
Qed.
Lemma pct_err l : forall e, pct_decode l = Err e -> e = unfinished \/ e = EUrl UrlInvalid.
Proof.
  remember (length l) as n eqn:En. revert l En. induction n as [n IH] using lt_wf_ind. intros l En e H.
  destruct l as [|b l]; [discriminate|]. cbn [pct_decode length] in *. destruct (b =? 37).
  - destruct l as [|a [|c l]]; [left; unfold partial in H; unfold unfinished; congruence..|].
    destruct (convert_hex a); [|right; congruence]. destruct (convert_hex c); [|right; congruence].
    apply bind_err in H as [H|(s & _ & H)]; [|discriminate]. apply (IH (length l)) in H; [exact H|cbn [length] in En; lia|reflexivity].
  - apply bind_err in H as [H|(s & _ & H)]; [|discriminate]. apply (IH (length l)) in H; [exact H|lia|reflexivity].
Qed.
Lemma decode_opt_err o e : decode_opt o = Err e -> e = unfinished \/ e = EUrl UrlInvalid.
Proof.
  destruct o as [r|]; [|discriminate]. cbn [decode_opt]. intros H. apply bind_err in H as [H|(s & _ & H)]; [|discriminate].
  unfold parse_url_token in H. apply bind_err in H as [H|(s & _ & H)]; [apply pct_err in H; exact H|].
  destruct (utf8_valid s); [discriminate|]. right. congruence.
Qed.
Lemma build_err sc st e : url_build sc st = Err e -> e = unfinished \/ e = EUrl UrlInvalid.
Proof.
  unfold url_build. intros H. apply bind_err in H as [H|(us & _ & H)]; [apply decode_opt_err in H; exact H|].
  apply bind_err in H as [H|(pw & _ & H)]; [apply decode_opt_err in H; exact H|].
  apply bind_err in H as [H|(dom & _ & H)]; [apply decode_opt_err in H; exact H|].
  apply bind_err in H as [H|(po & _ & H)]; [apply decode_opt_err in H; exact H|].
  apply bind_err in H as [H|(port & _ & H)].
  { destruct po as [p|]; [|discriminate]. destruct (parse_uint 65536 p); [discriminate|right; congruence]. }
  apply bind_err in H as [H|(pa & _ & H)]; [apply decode_opt_err in H; exact H|].
  apply bind_err in H as [H|(q & _ & H)]; [apply decode_opt_err in H; exact H|discriminate].
Qed.
(** The components that the scanning loop leaves. *)
Lemma login_parts_iff k lg : login_parts k lg <-> exists us pw, last_login k us pw /\ lg = opt_part Text us ++ opt_part Text pw.
Proof.
  split.
  - intros [|k' a c t K A C T]; [exists None, None; split; [constructor|reflexivity]|]. exists (Some a), (Some (no_q t)). split; [constructor; assumption|reflexivity].
  - intros (us & pw & L & ->). destruct L; constructor; assumption.
Qed.
Lemma port_parts_iff pp po : port_parts pp po <-> exists o, raw_port pp o /\ po = opt_part Port o.
Proof.
  split.
  - intros [|c t C T]; [exists None; split; [constructor|reflexivity]|]. exists (Some (no_q t)). split; [constructor; assumption|reflexivity].
  - intros (o & R & ->). destruct R; constructor; assumption.
Qed.
Lemma tail_parts_iff r ps : tail_parts r ps <-> exists pa q, raw_path_query r pa q /\ ps = opt_part Text pa ++ opt_part Text q.
Proof.
  split.
  - intros [|t T|t y T Y].
    + exists None, None. split; [constructor|reflexivity].
    + exists (Some (47 :: t)), None. split; [|reflexivity]. rewrite <- (app_nil_r t) at 1. constructor; [exact T|constructor].
    + exists (Some (47 :: t)), (Some y). split; [|reflexivity]. constructor; [exact T|constructor; exact Y].
  - intros (pa & q & R & ->). destruct R as [|t qq q T Q]; [constructor|]. destruct Q as [|y Y]; [rewrite app_nil_r|]; constructor; assumption.
Qed.
(** The part of [url_parts] behind "://". *)
Definition abs_parts (r : bytes) (ps : list part) : Prop :=
  exists st, url_loop true (ust0 false) r = Ok st /\ ps = parts_of st.
Lemma abs_parts_iff s r ps : legal_scheme s -> (abs_parts r ps <->
  (exists k lg h pp po t tl, r = k ++ h ++ pp ++ t /\ ps = lg ++ Text h :: po ++ tl /\ login_parts k lg /\ Forall part_char h /\ port_parts pp po /\ tail_parts t tl) \/
  (exists k h pp po t y, r = k ++ h ++ pp ++ 47 :: t ++ 64 :: y /\ ps = [Text h; Text (47 :: t); Text y] ++ po /\ logins k /\ Forall part_char h /\ port_parts pp po /\ Forall path_char t /\ Forall path_char y) \/
  (exists k h pp po t y z, r = k ++ h ++ pp ++ 47 :: t ++ 64 :: y ++ 63 :: z /\ ps = [Text h; Text (47 :: t)] ++ po ++ [Text y; Text z] /\ logins k /\ Forall part_char h /\ port_parts pp po /\ Forall path_char t /\ Forall path_char y /\ Forall query_char z) \/
  (exists k h pp po t y z, r = k ++ h ++ pp ++ 47 :: t ++ 63 :: y ++ 64 :: z /\ ps = [Text h; Text y] ++ po ++ [Text (47 :: t); Text z] /\ logins k /\ Forall part_char h /\ port_parts pp po /\ Forall path_char t /\ Forall query_char y /\ Forall query_char z)).
Proof.
  intros _. unfold abs_parts. change (ust0 false) with (fresh None None). split.
  - intros (st & H & ->). apply abs_exact, raw_abs_spec in H as (k & us & pw & r' & -> & L & B). pose proof (last_login_logins _ _ _ L) as LG.
    destruct B as [us pw h pp po r pa q A P C|us pw h pp po t r A P T R|us pw h pp po t r y A P T R Y|us pw h pp po t y z A P T Y Z];
      unfold parts_of; cbn [s_user s_pass s_domain s_port s_path s_query opt_part].
    + left. exists k, (opt_part Text us ++ opt_part Text pw), h, pp, (opt_part Port po), r, (opt_part Text pa ++ opt_part Text q).
      split; [reflexivity|]. split; [rewrite <- !app_assoc; reflexivity|]. split; [apply login_parts_iff; eauto|]. split; [exact A|].
      split; [apply port_parts_iff; eauto|apply tail_parts_iff; eauto].
    + right. left. exists k, h, pp, (opt_part Port po), t, r. split; [reflexivity|]. split; [rewrite !app_nil_r; reflexivity|].
      split; [exact LG|]. split; [exact A|]. split; [apply port_parts_iff; eauto|]. auto.
    + right. right. left. exists k, h, pp, (opt_part Port po), t, r, y. split; [reflexivity|]. split; [reflexivity|].
      split; [exact LG|]. split; [exact A|]. split; [apply port_parts_iff; eauto|]. auto.
    + right. right. right. exists k, h, pp, (opt_part Port po), t, y, z. split; [reflexivity|]. split; [reflexivity|].
      split; [exact LG|]. split; [exact A|]. split; [apply port_parts_iff; eauto|]. auto.
  - intros [H|[H|[H|H]]].
    + destruct H as (k & lg & h & pp & po & t & tl & -> & -> & L & A & P & T). apply login_parts_iff in L as (us & pw & L & ->).
      apply port_parts_iff in P as (o & P & ->). apply tail_parts_iff in T as (pa & q & T & ->).
      exists (mkUst us pw (Some h) o pa q (is_some pa) []). split.
      * apply abs_exact, raw_abs_spec. exists k, us, pw, (h ++ pp ++ t). split; [reflexivity|]. split; [exact L|constructor; assumption].
      * unfold parts_of. cbn [s_user s_pass s_domain s_port s_path s_query opt_part]. rewrite <- !app_assoc. reflexivity.
    + destruct H as (k & h & pp & po & t & y & -> & -> & L & A & P & T & Y). apply logins_last in L as (us & pw & L). apply port_parts_iff in P as (o & P & ->).
      exists (mkUst (Some h) (Some (47 :: t)) (Some y) o None None true []). split.
      * apply abs_exact, raw_abs_spec. exists k, us, pw, (h ++ pp ++ 47 :: t ++ 64 :: y). split; [reflexivity|]. split; [exact L|constructor; assumption].
      * unfold parts_of. cbn [s_user s_pass s_domain s_port s_path s_query opt_part]. rewrite !app_nil_r. reflexivity.
    + destruct H as (k & h & pp & po & t & y & z & -> & -> & L & A & P & T & Y & Z). apply logins_last in L as (us & pw & L). apply port_parts_iff in P as (o & P & ->).
      exists (mkUst (Some h) (Some (47 :: t)) None o (Some y) (Some z) true []). split.
      * apply abs_exact, raw_abs_spec. exists k, us, pw, (h ++ pp ++ 47 :: t ++ 64 :: y ++ 63 :: z). split; [reflexivity|]. split; [exact L|constructor; assumption].
      * reflexivity.
    + destruct H as (k & h & pp & po & t & y & z & -> & -> & L & A & P & T & Y & Z). apply logins_last in L as (us & pw & L). apply port_parts_iff in P as (o & P & ->).
      exists (mkUst (Some h) (Some y) None o (Some (47 :: t)) (Some z) true []). split.
      * apply abs_exact, raw_abs_spec. exists k, us, pw, (h ++ pp ++ 47 :: t ++ 63 :: y ++ 64 :: z). split; [reflexivity|]. split; [exact L|constructor; assumption].
      * reflexivity.
Qed.
Lemma url_parts_abs s r ps : legal_scheme s -> abs_parts r ps -> url_parts (scheme_str s ++ str "://" ++ r) ps.
Proof.
  intros LS H. apply (abs_parts_iff s) in H; [|exact LS]. destruct H as [H|[H|[H|H]]].
  - destruct H as (k & lg & h & pp & po & t & tl & -> & -> & L & A & P & T). apply ur_absolute; assumption.
  - destruct H as (k & h & pp & po & t & y & -> & -> & L & A & P & T & Y). apply ur_at_path; assumption.
  - destruct H as (k & h & pp & po & t & y & z & -> & -> & L & A & P & T & Y & Z). apply ur_at_path_query; assumption.
  - destruct H as (k & h & pp & po & t & y & z & -> & -> & L & A & P & T & Y & Z). apply ur_at_query; assumption.
Qed.
Lemma url_parts_inv l ps : url_parts l ps -> (exists s r, legal_scheme s /\ l = scheme_str s ++ str "://" ++ r /\ abs_parts r ps) \/ (tail_parts l ps /\ l <> []).
Proof.
  intros H. destruct H as [l ps T N|s k lg h pp po r ps LS L A P T|s k h pp po t r LS L A P T R|s k h pp po t r y LS L A P T R Y|s k h pp po t y z LS L A P T Y Z]; [right; auto|left..];
    eexists s, _; (split; [exact LS|]; split; [reflexivity|]); apply (abs_parts_iff s _ _ LS).
  - left. do 7 eexists. split; [reflexivity|]. split; [reflexivity|]. auto.
  - right. left. do 6 eexists. split; [reflexivity|]. split; [reflexivity|]. auto.
  - right. right. left. do 7 eexists. split; [reflexivity|]. split; [reflexivity|]. repeat split; assumption.
  - right. right. right. do 7 eexists. split; [reflexivity|]. split; [reflexivity|]. repeat split; assumption.
Qed.
Lemma scheme_chars_tok t : bytes_ok t -> (forallb is_scheme_token t = true <-> Forall scheme_char t).
Proof.
  intros B. split.
  - intros H. rewrite forallb_forall in H. unfold bytes_ok in B. rewrite Forall_forall in *. intros b Hb. apply scheme_token_iff; [apply B; exact Hb|apply H; exact Hb].
  - intros H. apply forallb_forall. intros b Hb. rewrite Forall_forall in H. apply scheme_token_spec, H. exact Hb.
Qed.
Lemma alpha_scheme b : alpha b -> scheme_char b. Proof. intros H. left. exact H. Qed.
(** The scheme and what follows it. *)
Lemma parse_scheme_cases b l : bytes_ok (b :: l) -> alpha b ->
  (Forall scheme_char l /\ parse_scheme (b :: l) = partial) \/
  (long_scheme (b :: l) /\ parse_scheme (b :: l) = Err (EHttp SchemeTooLong)) \/
  (exists s c r, legal_scheme s /\ b :: l = scheme_str s ++ c :: r /\ ~ scheme_char c /\ parse_scheme (b :: l) = Ok (s, c :: r)).
Proof.
  intros Hl A. unfold parse_scheme at 1 2, parse_scheme_token, parse_token_by. pose proof (parse_scheme_sound b l) as PS.
  unfold parse_scheme, parse_scheme_token, parse_token_by in *. cbn [scan] in *.
  rewrite (scheme_token_spec _ (alpha_scheme _ A)) in *. destruct (scan is_scheme_token l) as [[t r]|] eqn:S.
  - right. pose proof S as S'. apply scan_some in S' as (-> & Ht & c & r' & -> & Hc). cbn [bind] in *.
    assert (Bc : c < 256). { apply bytes_ok_cons in Hl as [_ Hl]. apply bytes_ok_app in Hl as [_ Hl]. apply bytes_ok_cons in Hl as [Hl _]. exact Hl. }
    assert (Bt : bytes_ok t). { apply bytes_ok_cons in Hl as [_ Hl]. apply bytes_ok_app in Hl as [Hl _]. exact Hl. }
    assert (NC : ~ scheme_char c) by (intros K; apply scheme_token_spec in K; congruence).
    apply scheme_chars_tok in Ht; [|exact Bt].
    destruct (64 <? blen (b :: t)) eqn:E.
    + left. split; [|reflexivity]. exists b, t, c, r'. split; [reflexivity|]. split; [exact A|]. split; [exact Ht|]. split; [|exact NC].
      unfold blen in E. cbn [length] in E. lia.
    + right. destruct (scheme_of_str (b :: t)) as [s|e| |] eqn:Es; cbn [bind] in *.
      * exists s, c, r'. destruct (PS s (c :: r') Hl (proj2 (alpha_iff b) A) eq_refl) as [P1 P2]. repeat split; assumption.
      * exfalso. unfold scheme_of_str in Es. rewrite E in Es. repeat match type of Es with (if ?c then _ else _) = _ => destruct c end; discriminate.
      * exfalso. exact (proj1 (scheme_of_str_returns _) Es).
      * exfalso. exact (proj2 (scheme_of_str_returns _) Es).
  - left. apply scan_none in S. split; [|reflexivity]. apply scheme_chars_tok; [apply bytes_ok_cons in Hl; apply Hl|exact S].
Qed.

Lemma origin_cut l : url_parse (47 :: l) = partial <-> exists ps, tail_parts (47 :: l) ps /\ first_cut ps.
Proof.
  rewrite origin_start. split.
  - intros H. destruct (url_loop false (mkUst None None None None None None true [47]) l) as [st|e| |] eqn:L; cbn [bind] in H; try discriminate.
    + apply build_cut in H. pose proof (origin_no_at _ _ _ _ _ L) as NA. apply path_loop in L; [|exact NA|right; reflexivity].
      destruct L as (t & qq & q & -> & T & Q & ->). exists (parts_of (mkUst None None None None (Some ([47] ++ t)) q true [])).
      split; [|exact H]. apply tail_parts_iff. exists (Some (47 :: t)), q. split; [|reflexivity]. apply (rpq_some t qq q); assumption.
    + apply loop_err in L. unfold partial in H. congruence.
  - intros (ps & T & C). apply tail_parts_iff in T as (pa & q & T & ->). remember (47 :: l) as l' eqn:E. destruct T as [|t qq q T Q]; [discriminate|].
    injection E as <-. assert (NA : ~ In 64 (t ++ qq)).
    { intros K. apply in_app_or in K as [K|K].
      - rewrite Forall_forall in T. specialize (T _ K). cbv in T. intuition discriminate.
      - destruct Q as [|y Y]; [destruct K|]. destruct K as [K|K]; [discriminate|]. rewrite Forall_forall in Y. specialize (Y _ K). cbv in Y. intuition discriminate. }
    destruct (path_loop false None None None None [47] (t ++ qq) (mkUst None None None None (Some ([47] ++ t)) q true []) NA (or_intror eq_refl)) as [_ L].
    rewrite L by (exists t, qq, q; auto). cbn [bind]. apply build_cut. exact C.
Qed.
Lemma absolute_cut s r : legal_scheme s -> (url_parse (scheme_str s ++ str "://" ++ r) = partial <-> exists ps, abs_parts r ps /\ first_cut ps).
Proof.
  intros LS. rewrite parse_absolute by exact LS. unfold abs_parts. change (ust0 false) with (fresh None None). split.
  - intros H. destruct (url_loop true (fresh None None) r) as [st|e| |] eqn:L; cbn [bind] in H; try discriminate.
    + apply build_cut in H. exists (parts_of st). split; [|exact H]. exists st. auto.
    + apply loop_err in L. unfold partial in H. congruence.
  - intros (ps & (st & L & ->) & C). rewrite L. cbn [bind]. apply build_cut. exact C.
Qed.
Lemma scheme_then s r : legal_scheme s -> url_parse (scheme_str s ++ 58 :: r) =
  (' (_, l3) <- expect 47 (EUrl UrlInvalid) r ;; ' (_, l4) <- expect 47 (EUrl UrlInvalid) l3 ;;
   st <- url_loop true (ust0 false) l4 ;; url_build s st).
Proof.
  intros LS. destruct (legal_scheme_parse s r LS) as [E (b & t & Eb & Ha)].
  unfold url_parse. rewrite E. rewrite Eb. cbn [app]. rewrite Ha. cbn [bind]. unfold expect at 1, next. cbn [bind]. change (58 =? 58) with true. cbv iota. cbn [bind]. reflexivity.
Qed.
Lemma scheme_starts s : legal_scheme s -> exists b t, scheme_str s = b :: t /\ is_alpha b = true.
Proof. intros LS. apply (legal_scheme_parse s [] LS). Qed.
Lemma open_cut l : bytes_ok l -> url_open l -> url_parse l = partial.
Proof.
  intros B H. destruct H as [|b t A T|s x LS X|l ps P C].
  - reflexivity.
  - unfold url_parse. rewrite (proj2 (alpha_iff b) A). unfold parse_scheme, parse_scheme_token, parse_token_by. cbn [scan].
    rewrite (scheme_token_spec _ (alpha_scheme _ A)). rewrite (proj2 (scan_none _ t)); [reflexivity|].
    apply scheme_chars_tok; [apply bytes_ok_cons in B; apply B|exact T].
  - destruct X as [->| ->]; rewrite scheme_then by exact LS; reflexivity.
  - apply url_parts_inv in P as [(s & r & LS & -> & P)|[T N]].
    + apply absolute_cut; [exact LS|]. eauto.
    + destruct T as [|t T|t y T Y]; [contradiction|apply origin_cut; eexists; split; [constructor; assumption|exact C]..].
Qed.
Lemma long_err l : bytes_ok l -> long_scheme l -> url_parse l = Err (EHttp SchemeTooLong).
Proof.
  intros B (b & t & c & r & -> & A & T & L & N). unfold url_parse. rewrite (proj2 (alpha_iff b) A). unfold parse_scheme, parse_scheme_token, parse_token_by. cbn [scan].
  rewrite (scheme_token_spec _ (alpha_scheme _ A)). apply bytes_ok_cons in B as [_ B]. apply bytes_ok_app in B as [B1 B2]. apply bytes_ok_cons in B2 as [B2 _].
  apply scheme_chars_tok in T; [|exact B1]. assert (Nc : is_scheme_token c = false). { destruct (is_scheme_token c) eqn:K; [|reflexivity]. apply scheme_token_iff in K; [contradiction|exact B2]. }
  assert (S : scan is_scheme_token (t ++ c :: r) = Some (t, c :: r)).
  { clear B1 L. induction t as [|x t IH]; cbn [app scan forallb] in *; [rewrite Nc; reflexivity|]. apply andb_prop in T as [T1 T2]. rewrite T1, (IH T2). reflexivity. }
  rewrite S. cbn [bind]. replace (64 <? blen (b :: t)) with true; [reflexivity|]. unfold blen. cbn [length]. lia.
Qed.
Lemma url_err_cases l e : bytes_ok l -> url_parse l = Err e ->
  (e = unfinished /\ url_open l) \/ (e = EHttp SchemeTooLong /\ long_scheme l) \/ e = EUrl UrlInvalid.
Proof.
  intros B H. destruct l as [|b l]; [left; split; [unfold url_parse, partial in H; unfold unfinished; congruence|constructor]|].
  destruct (is_alpha b) eqn:A.
  - assert (A' : alpha b) by (apply alpha_iff; exact A).
    destruct (parse_scheme_cases b l B A') as [(T & E)|[(T & E)|(s & c & r & LS & El & N & E)]].
    + left. split; [|constructor; assumption]. unfold url_parse in H. rewrite A, E in H. unfold partial in H. cbn [bind] in H. unfold unfinished. congruence.
    + right. left. split; [|exact T]. unfold url_parse in H. rewrite A, E in H. cbn [bind] in H. congruence.
    + destruct (N.eq_dec c 58) as [->|Nc].
      * rewrite El in *. rewrite scheme_then in H by exact LS. destruct r as [|x r].
        { left. split; [unfold expect, next, partial in H; cbn [bind] in H; unfold unfinished; congruence|apply uo_slashes; [exact LS|left; reflexivity]]. }
        destruct (N.eq_dec x 47) as [->|Nx].
        2: { right. right. unfold expect, next in H. cbn [bind] in H. rewrite (proj2 (N.eqb_neq _ _) Nx) in H. cbn [bind] in H. congruence. }
        destruct r as [|y r].
        { left. split; [unfold expect, next, partial in H; cbn [bind] in H; change (47 =? 47) with true in H; cbn [bind] in H; unfold unfinished; congruence|apply uo_slashes; [exact LS|right; reflexivity]]. }
        destruct (N.eq_dec y 47) as [->|Ny].
        2: { right. right. unfold expect, next in H. cbn [bind] in H. change (47 =? 47) with true in H. cbn [bind] in H. rewrite (proj2 (N.eqb_neq _ _) Ny) in H. cbn [bind] in H. congruence. }
        destruct (url_loop true (ust0 false) r) as [st|e'| |] eqn:L; unfold expect, next in H; cbn [bind] in H; rewrite N.eqb_refl in H; cbn [bind] in H; rewrite ?N.eqb_refl in H; cbn [bind] in H; rewrite L in H; cbn [bind] in H; try discriminate.
        -- pose proof H as H'. apply build_err in H as [->| ->]; [left|right; right; reflexivity]. split; [reflexivity|].
           apply (uo_escape _ (parts_of st)); [|apply build_cut in H'; exact H']. apply (url_parts_abs s r); [exact LS|]. exists st. auto.
        -- right. right. apply loop_err in L. congruence.
      * right. right. unfold url_parse in H. rewrite A, E in H. cbn [bind] in H. unfold expect, next in H. cbn [bind] in H. rewrite (proj2 (N.eqb_neq _ _) Nc) in H. cbn [bind] in H. congruence.
  - destruct (N.eq_dec b 47) as [->|Nb].
    + pose proof H as H'. rewrite origin_start in H. apply bind_err in H as [H|(st & _ & H)]; [right; right; apply loop_err in H; exact H|].
      apply build_err in H as [->| ->]; [left|right; right; reflexivity]. split; [reflexivity|]. change (url_parse (47 :: l) = partial) in H'.
      apply origin_cut in H' as (ps & T & C). apply (uo_escape _ ps); [|exact C]. apply ur_origin; [exact T|discriminate].
    + right. right. unfold url_parse in H. rewrite A, (proj2 (N.eqb_neq _ _) Nb) in H. congruence.
Qed.
Lemma url_bad_iff l e : bytes_ok l -> (url_parse l = Err e <-> url_bad l e).
Proof.
  intros B. split.
  - intros H. destruct (url_err_cases l e B H) as [(-> & O)|[(-> & O)| ->]]; [constructor; exact O..|]. apply ub_else.
    + intros O. apply open_cut in O; [|exact B]. unfold partial in O. congruence.
    + intros O. apply long_err in O; [|exact B]. congruence.
    + intros u U. apply url_means_iff in U; [|exact B]. congruence.
  - intros [O|O|NO NL NU].
    + apply open_cut in O; [|exact B]. exact O.
    + apply long_err; assumption.
    + destruct (url_parse l) as [u|e'| |] eqn:U.
      * apply url_means_iff in U; [|exact B]. destruct (NU u U).
      * destruct (url_err_cases l e' B U) as [(-> & O)|[(-> & O)| ->]]; [contradiction..|reflexivity].
      * destruct (proj1 (url_parse_returns l) U).
      * destruct (proj2 (url_parse_returns l) U).
Qed.

(** ** The URL of a request *)
Lemma split_on_length x l : length (split_on x l) = S (length (filter (fun b => b =? x) l)).
Proof.
  induction l as [|b l IH]; [reflexivity|]. cbn [split_on filter]. destruct (b =? x); [cbn [length]; rewrite IH; reflexivity|].
  destruct (split_on x l) as [|d r]; [discriminate|]. exact IH.
Qed.
Lemma split_colons a b c : (3 <= length (split_on 58 (a ++ COLON :: b ++ COLON :: c)))%nat.
Proof.
  rewrite split_on_length, filter_app, app_length. cbn [filter]. change (COLON =? 58) with true. cbv iota. cbn [length].
  rewrite filter_app, app_length. cbn [filter]. change (COLON =? 58) with true. cbv iota. cbn [length]. lia.
Qed.
Lemma host_bad_iff u h e : parse_connect_by_host u h = Err e <-> host_bad h e.
Proof.
  destruct u as [sc pa us pw dom po q]. unfold parse_connect_by_host. split.
  - intros H. destruct (split_on_join 58 h) as [J F].
    destruct (split_on 58 h) as [|d [|p [|x r]]] eqn:S.
    + exfalso. exact (split_on_nonnil _ _ S).
    + discriminate.
    + destruct (parse_uint 65536 p) as [n|] eqn:E; [discriminate|]. injection H as <-. cbn in J. rewrite <- J.
      inversion F as [|? ? F1 F2]; subst. inversion F2; subst. apply hb_port; [assumption..|]. intros n K. apply parse_uint_spec in K. congruence.
    + injection H as <-. cbn in J. rewrite <- J. apply (hb_colons d p).
  - intros [a b c|d p Hd Hp Hn].
    + assert (L : (3 <= length (split_on 58 (a ++ COLON :: b ++ COLON :: c)))%nat) by (apply split_colons).
      destruct (split_on 58 (a ++ COLON :: b ++ COLON :: c)) as [|d [|p [|x r]]]; cbn [length] in L; try lia. reflexivity.
    + rewrite split_on_app by exact Hd. rewrite split_on_none by exact Hp.
      destruct (parse_uint 65536 p) as [n|] eqn:E; [|reflexivity]. apply parse_uint_spec in E. destruct (Hn n E).
Qed.
Lemma target_bad_iff m t h e : bytes_ok t -> (req_url_of m t h = Err e <-> target_bad m t h e).
Proof.
  intros B.
  assert (G : req_complete_url t h = Err e <->
    url_parse t = Err e \/ exists u hst, url_parse t = Ok u /\ u_domain u = None /\ hm_get_host h = Some hst /\ host_bad hst e).
  { unfold req_complete_url. rewrite bind_err. split.
    - intros [H|(u & U & H)]; [left; exact H|]. right. exists u. apply bind_err in H as [H|(u1 & _ & H)]; [|destruct u1; discriminate].
      destruct (u_domain u) eqn:D; cbn [is_some] in H; [discriminate|]. destruct (hm_get_host h) as [hst|] eqn:Hh; [|discriminate].
      exists hst. apply host_bad_iff in H. auto.
    - intros [H|(u & hst & U & D & Hh & Hb)]; [left; exact H|]. right. exists u. split; [exact U|]. apply bind_err. left. rewrite D. cbn [is_some]. rewrite Hh.
      apply host_bad_iff. exact Hb. }
  assert (C : m = MConnect \/ m <> MConnect) by (destruct m; try (right; discriminate); left; reflexivity).
  destruct C as [->|C].
  - cbn [req_url_of]. rewrite host_bad_iff. split; [intros H; apply tb_connect; [reflexivity|exact H]|]. intros [e' _ H|e' H|u hst e' H]; [exact H|contradiction..].
  - assert (E : req_url_of m t h = req_complete_url t h) by (destruct m; try reflexivity; contradiction). rewrite E, G. split.
    + intros [H|(u & hst & U & D & Hh & Hb)]; [apply tb_url; [exact C|apply url_bad_iff; assumption]|].
      apply (tb_host _ _ _ u hst); [exact C|apply url_means_iff; assumption|assumption..].
    + intros [e' H|e' _ H|u hst e' _ U D Hh Hb]; [contradiction|left; apply url_bad_iff; assumption|]. right. exists u, hst. split; [apply url_means_iff; assumption|auto].
Qed.

(** ** Requests *)
Lemma blank_ok l a r : skip_empty_lines l = Ok (a, r) -> exists bl b x, blanks bl /\ l = bl ++ b :: x /\ r = b :: x /\ b <> CR /\ b <> LF.
Proof.
  induction l as [|l IH| |l IH|c l Hc|b l H1 H2] using skip_empty_lines_ind; intros H; try discriminate H.
  - destruct (IH H) as (bl & b & x & Hb & -> & K). exists (LF :: bl), b, x. split; [constructor; exact Hb|]. split; [reflexivity|exact K].
  - destruct (IH H) as (bl & b & x & Hb & -> & K). exists (CR :: LF :: bl), b, x. split; [constructor; exact Hb|]. split; [reflexivity|exact K].
  - exfalso. cbn [skip_empty_lines] in H. change (CR =? 13) with true in H. apply N.eqb_neq in Hc. unfold LF in Hc. cbv iota in H. rewrite Hc in H. discriminate H.
  - assert (E : skip_empty_lines (b :: l) = Ok (tt, b :: l)) by (apply (skip_empty_lines_app [] b l); [constructor|exact H1|exact H2]).
    rewrite E in H. injection H as <- <-. exists [], b, l. repeat split; [constructor|exact H1|exact H2].
Qed.
Lemma start_word bl w x : blanks bl -> word w -> skip_empty_lines (bl ++ w ++ x) = Ok (tt, w ++ x).
Proof.
  intros Hb Hw. destruct (word_first _ Hw) as (b & w' & -> & V). cbn [app]. apply skip_empty_lines_app; [exact Hb|unfold vchar, CR, LF in *; lia..].
Qed.
Lemma over_spaces i w x : word w -> skip_spaces (spaces i ++ w ++ x) = Ok (tt, w ++ x).
Proof.
  intros Hw. destruct (word_first _ Hw) as (b & w' & -> & V). cbn [app]. apply skip_spaces_app. unfold vchar, SP in *. lia.
Qed.
Lemma gap_try {S A B} (s : S) (p : bytes -> res A) (k : A -> S * res B) x y e : p [] = partial -> spaced x y -> p y = Err e ->
  try_ s (skip_spaces x) (fun '(_, l) => try_ s (p l) k) = (s, Err e).
Proof.
  intros P0 H E. destruct (spaced_some _ _ H) as [[-> K]|(b & r & -> & K)]; rewrite K.
  - unfold partial. cbn [try_]. rewrite P0 in E. unfold partial in E. congruence.
  - rewrite try_ok. cbv beta iota. rewrite E. reflexivity.
Qed.
Lemma gap_try_inv {S A B} (s s' : S) (p : bytes -> res A) (k : A -> S * res B) x e : p [] = partial ->
  try_ s (skip_spaces x) (fun '(_, l) => try_ s (p l) k) = (s', Err e) ->
  (exists y, spaced x y /\ p y = Err e /\ s' = s) \/
  exists i y a, x = spaces i ++ y /\ skip_spaces x = Ok (tt, y) /\ p y = Ok a /\ k a = (s', Err e).
Proof.
  intros P0 H. destruct (skip_spaces_cases x) as (y & Y). apply try_err in H as [[H ->]|([[] l] & H & K)].
  - left. exists y. split; [exact Y|]. split; [|reflexivity]. destruct (spaced_some _ _ Y) as [[-> E]|(b & r & -> & E)]; [|congruence].
    rewrite P0. rewrite E in H. unfold partial in *. congruence.
  - destruct (spaced_some _ _ Y) as [[-> E]|(b & r & -> & E)]; rewrite E in H; [discriminate|]. injection H as <-.
    apply try_err in K as [[K ->]|(a & K1 & K2)]; [left; eauto|]. right. destruct Y as (i & Y & _). exists i, (b :: r), a. auto.
Qed.
Lemma not_tok b : ~ vchar b <-> is_token b = false.
Proof. rewrite <- token_vchar. destruct (is_token b); split; congruence. Qed.
Lemma ended_tok x : ended x <-> exists b r, x = b :: r /\ is_token b = false.
Proof. unfold ended. split; intros (b & r & -> & H); exists b, r; (split; [reflexivity|]); apply not_tok; exact H. Qed.
Lemma ended_gap i w x : ended (spaces i ++ w ++ x) -> word w -> exists i', i = S i'.
Proof. intros (b & r & E & H) W. apply (gap i w x b r); [symmetry; exact E|apply not_tok; exact H|exact W]. Qed.
Lemma ended_spaces i x : ended (spaces (S i) ++ x).
Proof. exists SP, (spaces i ++ x). split; [reflexivity|]. unfold vchar, SP. lia. Qed.
Lemma request_err q l q' e : bytes_ok l -> req_parse_buffer q l = (q', Err e) -> request_bad q l q' e.
Proof.
  intros Hl H. unfold req_parse_buffer in H. cbv zeta in H. apply try_err in H as [[H ->]|([[] l1] & H1 & H)].
  { apply blank_err in H as (bl & x & -> & Hb & L). apply rb_blank; assumption. }
  pose proof H1 as P1. apply blank_ok in P1 as (bl & b & x1 & Hbl & El & El1 & Nb1 & Nb2). 
  apply try_err in H as [[H ->]|([m l2] & H2 & H)].
  { rewrite El. rewrite El1 in H. apply method_bad_iff in H. apply rb_method; assumption. }
  rewrite <- El1 in El. clear b x1 El1 Nb1 Nb2.
  pose proof H2 as P2. apply parse_method_ok in P2 as (Hm & El1 & X2). apply ended_tok in X2.
  apply gap_try_inv in H as [(y & Y & H & ->)|(i & l3 & [t l4] & E3 & H3 & H4 & H)]; [| |reflexivity].
  { rewrite El, El1. apply token_bad_iff in H. apply (rb_target q bl m l2 y); assumption. }
  pose proof H4 as P4. apply parse_token_by_ok in P4 as (E4 & Ht & Tt & X4). apply ended_tok in X4. pose proof (token_word _ Ht Tt) as Wt.
  rewrite E4 in E3. rewrite E3 in X2. destruct (ended_gap _ _ _ X2 Wt) as [i' ->].
  apply gap_try_inv in H as [(y & Y & H & ->)|(j & l5 & [v l6] & E5 & H5 & H6 & H)]; [| |reflexivity].
  { rewrite El, El1, E3. apply version_bad_iff in H. apply (rb_version q bl m i' t l4 y); assumption. }
  pose proof H6 as P6. apply parse_version_ok in P6 as (Hv & E6 & X6). apply ended_tok in X6.
  rewrite E6 in E5. rewrite E5 in X4. destruct (ended_gap _ _ _ X4 (version_word _ Hv)) as [j' ->].
  assert (El6 : l = bl ++ method_str m ++ spaces (S i') ++ t ++ spaces (S j') ++ version_str v ++ l6).
  { rewrite El, El1, E3, E5. reflexivity. }
  apply try_err in H as [[H ->]|([[] l7] & H7 & H)].
  { rewrite El6. apply eol_bad_iff in H. apply (rb_line q bl m i' t j' v l6); assumption. }
  pose proof H7 as P7. apply skip_new_line_ok in P7 as (eo & He & E7).
  assert (Hl7 : bytes_ok l7).
  { rewrite El6, E7 in Hl. repeat (apply bytes_ok_app in Hl as [_ Hl]). exact Hl. }
  destruct (parse_header l7) as [h r] eqn:P. apply try_err in H as [[-> ->]|(rest & -> & H)].
  { apply fields_bad_iff in P as (hs & F & ->); [|exact Hl7]. rewrite El6, E7. apply (rb_fields q bl m i' t j' v eo l7 hs); assumption. }
  apply try_err in H as [[H ->]|(u & _ & H)]; [|discriminate].
  destruct (req_head_sound l l1 l2 l3 l4 l5 l6 l7 m t v h rest tt tt tt tt Hl H1 H2 H3 H4 H5 H6 H7 P) as (wire & hs & Ew & _ & _ & Hh & ->).
  rewrite Ew. apply (rb_url q wire m t v hs); try assumption. apply target_bad_iff; [apply word_bytes; exact Wt|exact H].
Qed.
Lemma request_bad_err q l q' e : bytes_ok l -> request_bad q l q' e -> req_parse_buffer q l = (q', Err e).
Proof.
  intros Hl H. unfold req_parse_buffer. cbv zeta.
  destruct H as [bl x e Hb L|bl b r e Hb N1 N2 L|bl m x y e Hb Hm X Y L|bl m i t x y e Hb Hm Ht X Y L|bl m i t j v x e Hb Hm Ht Hv X L|bl m i t j v eo x hs e Hb Hm Ht Hv He L|wire m t v hs r e Hh Hm Hv L].
  - assert (E : skip_empty_lines (bl ++ x) = Err e) by (apply blank_err; eauto). rewrite E. reflexivity.
  - rewrite skip_empty_lines_app, try_ok by assumption. apply method_bad_iff in L. rewrite L. reflexivity.
  - rewrite start_word, try_ok by (try apply method_word; assumption). pose proof X as X'. apply ended_tok in X' as (b & r & -> & T). rewrite parse_method_app, try_ok by assumption.
    apply token_bad_iff in L. apply (gap_try _ _ _ _ y); [reflexivity|assumption..].
  - rewrite start_word, try_ok by (try apply method_word; assumption). change (spaces (S i)) with (SP :: spaces i) at 1. cbn [app].
    rewrite parse_method_app, try_ok by (try reflexivity; exact Hm). cbv beta iota. change (SP :: spaces i ++ t ++ x) with (spaces (S i) ++ t ++ x).
    rewrite over_spaces, try_ok by exact Ht. pose proof X as X'. apply ended_tok in X' as (b & r & -> & T). rewrite parse_token_word, try_ok by assumption.
    apply version_bad_iff in L. apply (gap_try _ _ _ _ y); [reflexivity|assumption..].
  - apply ended_tok in X as (b & r & -> & T).
    rewrite start_word, try_ok by (try apply method_word; assumption). change (spaces (S i)) with (SP :: spaces i) at 1. cbn [app].
    rewrite parse_method_app, try_ok by (try reflexivity; exact Hm). cbv beta iota. match goal with |- context [SP :: spaces i ++ ?z] => change (SP :: spaces i ++ z) with (spaces (S i) ++ z) end.
    rewrite over_spaces, try_ok by exact Ht. change (spaces (S j)) with (SP :: spaces j) at 1. cbn [app]. rewrite parse_token_word, try_ok by (try reflexivity; exact Ht). cbv beta iota.
    match goal with |- context [SP :: spaces j ++ ?z] => change (SP :: spaces j ++ z) with (spaces (S j) ++ z) end.
    rewrite over_spaces, try_ok by (apply version_word; exact Hv). rewrite parse_version_app, try_ok by assumption.
    apply eol_bad_iff in L. rewrite L. reflexivity.
  - destruct (eol_first _ He) as (b & r & Ee & T).
    rewrite start_word, try_ok by (try apply method_word; assumption). change (spaces (S i)) with (SP :: spaces i) at 1. cbn [app].
    rewrite parse_method_app, try_ok by (try reflexivity; exact Hm). cbv beta iota. match goal with |- context [SP :: spaces i ++ ?z] => change (SP :: spaces i ++ z) with (spaces (S i) ++ z) end.
    rewrite over_spaces, try_ok by exact Ht. change (spaces (S j)) with (SP :: spaces j) at 1. cbn [app]. rewrite parse_token_word, try_ok by (try reflexivity; exact Ht). cbv beta iota.
    match goal with |- context [SP :: spaces j ++ ?z] => change (SP :: spaces j ++ z) with (spaces (S j) ++ z) end.
    rewrite over_spaces, try_ok by (apply version_word; exact Hv).
    assert (E4 : parse_version (version_str v ++ eo ++ x) = Ok (v, eo ++ x)) by (rewrite Ee; cbn [app]; apply parse_version_app; assumption).
    rewrite E4, try_ok. rewrite skip_new_line_eol, try_ok by exact He.
    assert (Hx : bytes_ok x). { repeat (apply bytes_ok_app in Hl as [_ Hl]). exact Hl. }
    destruct (fields_bad_iff x (add_fields [] hs) e Hx) as [_ K]. rewrite K by eauto. reflexivity.
  - pose proof (req_parse_head q wire m t v hs r Hh Hm Hv) as E. unfold req_parse_buffer in E. cbv zeta in E. rewrite E.
    destruct Hh as [bl ms i t j vs eo fs hs Hbl Hms Ht Hvs He Hfs]. apply target_bad_iff in L; [|apply word_bytes; exact Ht]. rewrite L. reflexivity.
Qed.
Lemma request_bad_iff q l q' e : bytes_ok l -> (req_parse q l = (q', Err e) <-> request_bad q l q' e).
Proof.
  intros Hl. rewrite req_parse_eq. split.
  - intros H. apply request_err; [exact Hl|]. destruct (req_parse_buffer q l) as [q0 [r|x| |]]; cbn [fst snd] in H; congruence.
  - intros H. rewrite (request_bad_err q l q' e Hl H). reflexivity.
Qed.

(** ** Responses *)
Lemma reason_bad_iff l e : parse_status_token l = Err e <-> word_bad reason_char (EHttp Token) l e.
Proof. apply word_bad_iff. apply status_token_spec. Qed.
Lemma three_word c : 100 <= c <= 999 -> word (three_digits c).
Proof. intros H. rewrite <- status_str_three by exact H. apply status_word. exact H. Qed.
Lemma over_reason i rs x : reason_ok rs -> skip_spaces (spaces i ++ rs ++ x) = Ok (tt, rs ++ x).
Proof. intros H. destruct (reason_first _ H) as (b & w & -> & V). cbn [app]. apply skip_spaces_app. exact V. Qed.
Lemma reason_tok rs b r : reason_ok rs -> ~ reason_char b -> parse_status_token (rs ++ b :: r) = Ok (rs, b :: r).
Proof.
  intros (H1 & H2 & _) N. apply parse_token_by_app; [exact H1| |].
  - apply (forallb_Forall is_status_token (fun b => 32 <= b <= 126)); [apply status_token_spec|exact H2].
  - destruct (is_status_token b) eqn:K; [|reflexivity]. apply status_token_spec in K. contradiction.
Qed.
Lemma response_err p l p' e : bytes_ok l -> resp_parse_buffer p l = (p', Err e) -> response_bad p l p' e.
Proof.
  intros Hl H. unfold resp_parse_buffer in H. cbv zeta in H. apply try_err in H as [[H ->]|([[] l1] & H1 & H)].
  { apply blank_err in H as (bl & x & -> & Hb & L). apply sb_blank; assumption. }
  apply blank_ok in H1 as (bl & b & x1 & Hbl & El & El1 & Nb1 & Nb2). subst l1.
  apply try_err in H as [[H ->]|([v l2] & H2 & H)].
  { rewrite El. apply version_bad_iff in H. apply sb_version; assumption. }
  clear Nb1 Nb2. apply parse_version_ok in H2 as (Hv & El1 & X2). apply ended_tok in X2. rewrite El1 in El. clear b x1 El1.
  apply gap_try_inv in H as [(y & Y & H & ->)|(i & l3 & [c l4] & E3 & _ & H4 & H)]; [| |reflexivity].
  { rewrite El. apply status_bad_iff in H. apply (sb_status p bl v l2 y); assumption. }
  assert (B3 : bytes_ok l3). { rewrite El, E3 in Hl. repeat (apply bytes_ok_app in Hl as [_ Hl]). exact Hl. }
  apply parse_status_ok in H4 as (Hc & E4 & X4); [|exact B3]. apply ended_tok in X4. rewrite status_str_three in E4 by exact Hc.
  rewrite E4 in E3. rewrite E3 in X2. destruct (ended_gap _ _ _ X2 (three_word _ Hc)) as [i' ->]. clear X2. rewrite E3 in El. clear E3.
  apply gap_try_inv in H as [(y & Y & H & ->)|(j & l5 & [rs l6] & E5 & H5 & H6 & H)]; [| |reflexivity].
  { rewrite El. apply reason_bad_iff in H. apply (sb_reason p bl v i' c l4 y); assumption. }
  apply parse_token_by_ok in H6 as (E6 & Hrs & Trs & yb & yr & Ey & Vy).
  assert (Nsp : hd_error l5 <> Some SP). { apply skip_spaces_ok in H5 as (n & b & r' & _ & -> & Nb). cbn. congruence. }
  assert (Wr : reason_ok rs).
  { split; [exact Hrs|]. split.
    - apply (forallb_Forall is_status_token (fun b => 32 <= b <= 126)) in Trs; [exact Trs|apply status_token_spec].
    - destruct rs as [|b rs]; [contradiction|]. cbn. rewrite E6 in Nsp. cbn in Nsp. exact Nsp. }
  rewrite E6 in E5. assert (exists j', j = S j') as [j' ->].
  { destruct j as [|j']; [|eauto]. exfalso. destruct rs as [|b rs]; [contradiction|]. rewrite E5 in X4. destruct X4 as (b' & r' & E & V). injection E as <- _.
    destruct Wr as (_ & K & K2). apply Forall_inv in K. cbn in K2. assert (b <> SP) by congruence. unfold vchar, SP in *. lia. }
  rewrite E5 in El. clear E5 E4 X4 H5.
  assert (Nb : ~ reason_char yb). { intros K. apply status_token_spec in K. congruence. }
  apply try_err in H as [[H ->]|([[] l7] & H7 & H)].
  { rewrite El. apply eol_bad_iff in H. rewrite Ey in *. apply (sb_line p bl v i' c j' rs yb yr); assumption. }
  apply skip_new_line_ok in H7 as (eo & He & E7). assert (He' : eo = [CR; LF] \/ eo = [LF]).
  { destruct He; auto. exfalso. rewrite Ey in E7. injection E7 as -> _. apply Nb. unfold reason_char, SP. lia. }
  rewrite E7 in El. assert (Hl7 : bytes_ok l7). { rewrite El in Hl. repeat (apply bytes_ok_app in Hl as [_ Hl]). exact Hl. }
  destruct (parse_header l7) as [h r] eqn:P. apply try_err in H as [[-> ->]|(rest & -> & H)]; [|discriminate].
  apply fields_bad_iff in P as (hs & F & ->); [|exact Hl7]. rewrite El. apply (sb_fields p bl v i' c j' rs eo l7 hs); assumption.
Qed.
Lemma response_bad_err p l p' e : bytes_ok l -> response_bad p l p' e -> resp_parse_buffer p l = (p', Err e).
Proof.
  intros Hl H. unfold resp_parse_buffer. cbv zeta.
  destruct H as [bl x e Hb L|bl b r e Hb N1 N2 L|bl v x y e Hb Hv X Y L|bl v i c x y e Hb Hv Hc X Y L|bl v i c j rs b r e Hb Hv Hc Hr N L|bl v i c j rs eo x hs e Hb Hv Hc Hr He L].
  - assert (E : skip_empty_lines (bl ++ x) = Err e) by (apply blank_err; eauto). rewrite E. reflexivity.
  - rewrite skip_empty_lines_app, try_ok by assumption. apply version_bad_iff in L. rewrite L. reflexivity.
  - rewrite start_word, try_ok by (try apply version_word; assumption). pose proof X as X'. apply ended_tok in X' as (b & r & -> & T). rewrite parse_version_app, try_ok by assumption.
    apply status_bad_iff in L. apply (gap_try _ _ _ _ y); [reflexivity|assumption..].
  - rewrite start_word, try_ok by (try apply version_word; assumption). change (spaces (S i)) with (SP :: spaces i) at 1. cbn [app].
    rewrite parse_version_app, try_ok by (try reflexivity; exact Hv). cbv beta iota. match goal with |- context [SP :: spaces i ++ ?z] => change (SP :: spaces i ++ z) with (spaces (S i) ++ z) end.
    rewrite over_spaces, try_ok by (apply three_word; exact Hc). pose proof X as X'. apply ended_tok in X' as (b & r & -> & T).
    rewrite <- status_str_three by exact Hc. rewrite parse_status_app, try_ok by assumption.
    apply reason_bad_iff in L. apply (gap_try _ _ _ _ y); [reflexivity|assumption..].
  - rewrite start_word, try_ok by (try apply version_word; assumption). change (spaces (S i)) with (SP :: spaces i) at 1. cbn [app].
    rewrite parse_version_app, try_ok by (try reflexivity; exact Hv). cbv beta iota. match goal with |- context [SP :: spaces i ++ ?z] => change (SP :: spaces i ++ z) with (spaces (S i) ++ z) end.
    rewrite over_spaces, try_ok by (apply three_word; exact Hc). rewrite <- status_str_three by exact Hc.
    change (spaces (S j)) with (SP :: spaces j) at 1. cbn [app]. rewrite parse_status_app, try_ok by (try reflexivity; exact Hc). cbv beta iota.
    match goal with |- context [SP :: spaces j ++ ?z] => change (SP :: spaces j ++ z) with (spaces (S j) ++ z) end.
    rewrite over_reason, try_ok by exact Hr. rewrite reason_tok, try_ok by assumption. apply eol_bad_iff in L. rewrite L. reflexivity.
  - assert (T : exists b r, eo = b :: r /\ ~ reason_char b).
    { destruct He as [->| ->]; eexists _, _; (split; [reflexivity|]); unfold reason_char, CR, LF; lia. }
    destruct T as (b & r & Ee & T).
    rewrite start_word, try_ok by (try apply version_word; assumption). change (spaces (S i)) with (SP :: spaces i) at 1. cbn [app].
    rewrite parse_version_app, try_ok by (try reflexivity; exact Hv). cbv beta iota. match goal with |- context [SP :: spaces i ++ ?z] => change (SP :: spaces i ++ z) with (spaces (S i) ++ z) end.
    rewrite over_spaces, try_ok by (apply three_word; exact Hc). rewrite <- status_str_three by exact Hc.
    change (spaces (S j)) with (SP :: spaces j) at 1. cbn [app]. rewrite parse_status_app, try_ok by (try reflexivity; exact Hc). cbv beta iota.
    match goal with |- context [SP :: spaces j ++ ?z] => change (SP :: spaces j ++ z) with (spaces (S j) ++ z) end.
    rewrite over_reason, try_ok by exact Hr.
    assert (E4 : parse_status_token (rs ++ eo ++ x) = Ok (rs, eo ++ x)) by (rewrite Ee; cbn [app]; apply reason_tok; assumption).
    rewrite E4, try_ok. rewrite skip_new_line_eol, try_ok by (destruct He as [->| ->]; constructor).
    assert (Hx : bytes_ok x). { repeat (apply bytes_ok_app in Hl as [_ Hl]). exact Hl. }
    destruct (fields_bad_iff x (add_fields [] hs) e Hx) as [_ K]. rewrite K by eauto. reflexivity.
Qed.
Lemma response_bad_iff p l p' e : bytes_ok l -> (resp_parse p l = (p', Err e) <-> response_bad p l p' e).
Proof.
  intros Hl. rewrite resp_parse_eq. split.
  - intros H. apply response_err; [exact Hl|]. destruct (resp_parse_buffer p l) as [p0 [r|x| |]]; cbn [fst snd] in H; congruence.
  - intros H. rewrite (response_bad_err p l p' e Hl H). reflexivity.
Qed.

(** ** Chunks *)
Lemma size_bad_iff l e : parse_hex l = Err e <-> word_bad hex_byte (EHttp Token) l e.
Proof. apply word_bad_iff. apply is_hex_spec. Qed.
Lemma not_hex b : ~ hex_byte b <-> is_hex b = false.
Proof. rewrite <- is_hex_spec. destruct (is_hex b); split; congruence. Qed.
Lemma size_word ds n b r : ds <> [] -> hex_num ds n -> ~ hex_byte b -> parse_hex (ds ++ b :: r) = Ok (ds, b :: r) /\ hex_val ds = n.
Proof.
  intros Hn Hd Hb. apply hex_num_spec in Hd as [Hd ->]. split; [|reflexivity]. apply parse_token_by_app; [exact Hn|exact Hd|apply not_hex; exact Hb].
Qed.
Lemma chunk_bad_iff l e : parse_chunk_data l = Err e <-> chunk_bad l e.
Proof.
  unfold parse_chunk_data. cbv zeta. split.
  - intros H. apply bind_err in H as [H|([ds l1] & H1 & H)]; [apply cb_size, size_bad_iff; exact H|].
    apply parse_token_by_ok in H1 as (-> & Hn & Hd & b & r & -> & Hb). assert (D : hex_num ds (hex_val ds)) by (apply hex_num_spec; auto).
    apply not_hex in Hb. destruct (usize_max1 <=? hex_val ds) eqn:U; [discriminate|]. unfold usize_max1 in U.
    apply bind_err in H as [H|([[] l2] & H2 & H)]; [apply eol_bad_iff in H; apply (cb_line ds (hex_val ds)); try assumption; lia|].
    apply skip_new_line_ok in H2 as (eo & He & E). rewrite E. destruct (usize_max1 <=? hex_val ds + 2) eqn:U2; [discriminate|]. unfold usize_max1 in U2.
    destruct (blen l2 <? hex_val ds + 2) eqn:U3; [|discriminate]. unfold partial in H. injection H as <-. rewrite app_assoc. apply (cb_short (ds ++ eo) (hex_val ds)); [|lia..].
    constructor; assumption.
  - intros [l' e' H|ds n b r e' Hn Hd Hu Hb He|line n r L Hs Hr].
    + apply size_bad_iff in H. rewrite H. reflexivity.
    + destruct (size_word ds n b r Hn Hd Hb) as [E V]. rewrite E. cbn [bind]. rewrite V. unfold usize_max1. replace (2 ^ 64 <=? n) with false by lia.
      apply eol_bad_iff in He. rewrite He. reflexivity.
    + destruct L as [ds n eo Hn Hd He]. rewrite <- app_assoc. destruct (eol_not_hex _ He) as (b & x & Ee & Hb). apply not_hex in Hb. rewrite Ee. cbn [app].
      destruct (size_word ds n b (x ++ r) Hn Hd Hb) as [E V]. rewrite E. cbn [bind]. rewrite V. unfold usize_max1. replace (2 ^ 64 <=? n) with false by lia.
      change (b :: x ++ r) with ((b :: x) ++ r). rewrite <- Ee. rewrite skip_new_line_eol by exact He. cbn [bind]. replace (2 ^ 64 <=? n + 2) with false by lia.
      replace (blen r <? n + 2) with true by lia. reflexivity.
Qed.
Lemma chunk_crash_iff l : parse_chunk_data l = Panic <-> chunk_crash l.
Proof.
  unfold parse_chunk_data. cbv zeta. split.
  - intros H. destruct (parse_hex l) as [[ds l1]|e| |] eqn:H1; cbn [bind] in H; try discriminate.
    + apply parse_token_by_ok in H1 as (-> & Hn & Hd & b & r & -> & Hb). assert (D : hex_num ds (hex_val ds)) by (apply hex_num_spec; auto).
      apply not_hex in Hb. destruct (usize_max1 <=? hex_val ds) eqn:U; unfold usize_max1 in U; [apply (cc_size ds (hex_val ds)); try assumption; lia|].
      destruct (skip_new_line (b :: r)) as [[[] l2]|e| |] eqn:H2; cbn [bind] in H; try discriminate.
      * apply skip_new_line_ok in H2 as (eo & He & E). rewrite E. destruct (usize_max1 <=? hex_val ds + 2) eqn:U2; unfold usize_max1 in U2.
        -- rewrite app_assoc. apply (cc_sum (ds ++ eo) (hex_val ds)); [constructor; assumption|lia].
        -- destruct (blen l2 <? hex_val ds + 2); discriminate.
      * destruct (proj1 (skip_new_line_total (b :: r)) H2).
    + destruct (proj1 (parse_token_by_total is_hex (EHttp Token) false l) H1).
  - intros [ds n b r Hn Hd Hb Hu|line n r L Hs].
    + destruct (size_word ds n b r Hn Hd Hb) as [E V]. rewrite E. cbn [bind]. rewrite V. unfold usize_max1. replace (2 ^ 64 <=? n) with true by lia. reflexivity.
    + destruct L as [ds n eo Hn Hd He]. rewrite <- app_assoc. destruct (eol_not_hex _ He) as (b & x & Ee & Hb). apply not_hex in Hb. rewrite Ee. cbn [app].
      destruct (size_word ds n b (x ++ r) Hn Hd Hb) as [E V]. rewrite E. cbn [bind]. rewrite V. unfold usize_max1. destruct (2 ^ 64 <=? n) eqn:U; [reflexivity|].
      change (b :: x ++ r) with ((b :: x) ++ r). rewrite <- Ee. rewrite skip_new_line_eol by exact He. cbn [bind]. replace (2 ^ 64 <=? n + 2) with true by lia. reflexivity.
Qed.

(** ** The errors that can occur *)
Lemma eol_bad_in l e : eol_bad l e -> e = unfinished \/ e = EHttp NewLine.
Proof. intros []; auto. Qed.
Lemma line_bad_in l e : line_bad l e -> e = unfinished \/ e = EHttp NewLine.
Proof. intros []; auto. Qed.
Lemma word_bad_in P e0 l e : word_bad P e0 l e -> e = unfinished \/ e = e0.
Proof. intros []; auto. Qed.
Lemma named_bad_in K e0 l e : named_bad K e0 l e -> e = unfinished \/ e = EHttp Token \/ e = e0.
Proof. intros [l' e' H|]; [apply word_bad_in in H; tauto|auto]. Qed.
Lemma field_bad_in l e : field_bad l e -> e = unfinished \/ e = EHttp NewLine \/ e = EHttp HeaderNameErr.
Proof. intros []; auto; match goal with H : line_bad _ _ |- _ => apply line_bad_in in H; tauto | H : eol_bad _ _ |- _ => apply eol_bad_in in H; tauto end. Qed.
Lemma fields_bad_in l hs e : fields_bad l hs e -> e = unfinished \/ e = EHttp NewLine \/ e = EHttp HeaderNameErr.
Proof. induction 1 as [x e H|b r e _ _ H|w n v l hs e _ _ IH]; [apply line_bad_in in H; tauto|apply field_bad_in in H; exact H|exact IH]. Qed.
Lemma target_bad_in m t h e : target_bad m t h e ->
  e = unfinished \/ e = EHttp SchemeTooLong \/ e = EUrl UrlInvalid \/ e = EInto \/ e = EExtension "parse int error".
Proof. intros [e' _ []|e' _ []|u hst e' _ _ _ _ []]; auto. Qed.
Lemma request_bad_in q l q' e : request_bad q l q' e ->
  In e [unfinished; EHttp NewLine; EHttp Token; EHttp MethodErr; EHttp VersionErr; EHttp HeaderNameErr; EHttp SchemeTooLong; EUrl UrlInvalid; EInto; EExtension "parse int error"].
Proof.
  intros H. assert (G : e = unfinished \/ e = EHttp NewLine \/ e = EHttp Token \/ e = EHttp MethodErr \/ e = EHttp VersionErr \/ e = EHttp HeaderNameErr \/
    e = EHttp SchemeTooLong \/ e = EUrl UrlInvalid \/ e = EInto \/ e = EExtension "parse int error").
  { destruct H as [bl x e _ L|bl b r e _ _ _ L|bl m x y e _ _ _ _ L|bl m i t x y e _ _ _ _ _ L|bl m i t j v x e _ _ _ _ _ L|bl m i t j v eo x hs e _ _ _ _ _ L|wire m t v hs r e _ _ _ L].
    - apply line_bad_in in L. tauto.
    - apply named_bad_in in L. tauto.
    - apply word_bad_in in L. tauto.
    - apply named_bad_in in L. tauto.
    - apply eol_bad_in in L. tauto.
    - apply fields_bad_in in L. tauto.
    - apply target_bad_in in L. tauto. }
  cbn [In]. repeat (destruct G as [->|G]; [tauto|]). rewrite G. tauto.
Qed.
Lemma response_bad_in p l p' e : response_bad p l p' e ->
  In e [unfinished; EHttp NewLine; EHttp Token; EHttp VersionErr; EHttp InvalidStatusCode; EHttp HeaderNameErr].
Proof.
  intros H. assert (G : e = unfinished \/ e = EHttp NewLine \/ e = EHttp Token \/ e = EHttp VersionErr \/ e = EHttp InvalidStatusCode \/ e = EHttp HeaderNameErr).
  { destruct H as [bl x e _ L|bl b r e _ _ _ L|bl v x y e _ _ _ _ L|bl v i c x y e _ _ _ _ _ L|bl v i c j rs b r e _ _ _ _ _ L|bl v i c j rs eo x hs e _ _ _ _ _ L].
    - apply line_bad_in in L. tauto.
    - apply named_bad_in in L. tauto.
    - apply named_bad_in in L. tauto.
    - apply word_bad_in in L. tauto.
    - apply eol_bad_in in L. tauto.
    - apply fields_bad_in in L. tauto. }
  cbn [In]. repeat (destruct G as [->|G]; [tauto|]). rewrite G. tauto.
Qed.
Lemma chunk_bad_in l e : chunk_bad l e -> In e [unfinished; EHttp NewLine; EHttp Token].
Proof.
  intros H. cbn [In]. destruct H as [l e L|ds n b r e _ _ _ _ L|]; [apply word_bad_in in L as [->| ->]; tauto|apply eol_bad_in in L as [->| ->]; tauto|tauto].
Qed.
