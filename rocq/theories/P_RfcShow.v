(** Lemmas for C121. *)
From Coq Require Import Ascii String NArith ZArith Lia Bool List ZifyBool ZifyNat ZifyN.
From Verif Require Import Base S_Utf8 P_Base M_Std M_Helper M_Header M_Url M_Http1 S_Hex S_Http1 S_Http1Api P_Std P_Helper P_Header P_Http1 P_Msg
  P_Chunk S_Map P_Map S_Url P_Url P_UrlForm S_UrlAll P_UrlAll P_UrlExact S_Exact S_Reject P_Reject S_Rfc9112 P_Rfc9112 S_Rfc3986 P_Rfc3986 P_Huffman S_RfcSend P_RfcSend S_RfcShow.
Import ListNotations.
Local Open Scope N_scope.

(** *** What is decoded from a beginning *)
Lemma pct_no_more a s : pct_form a s -> forall w, pct_form (a ++ w) s -> w = [].
Proof.
  induction 1 as [|b l s Hb H IH|h x k y l s Hx Hy H IH]; intros w W.
  - cbn in W. inversion W; reflexivity.
  - inversion W; subst; [auto|contradiction].
  - inversion W; subst; [contradiction|auto].
Qed.
Lemma enc_whole a w s : is_utf8 s -> text_of a s -> url_encode s = a ++ w -> w = [].
Proof. intros U [F _] E. apply (pct_no_more a s F). rewrite <- E. apply enc_pct, U. Qed.
(** Two texts up to the first [x]: the one is encoded, the other is what it should be. *)
Lemma first_of (x : N) (A B R R' : bytes) : A ++ x :: R = B ++ x :: R' -> ~ In x A -> (forall w, B = A ++ w -> w = []) -> A = B /\ R = R'.
Proof.
  intros E NA K. destruct (app_eq_app _ _ _ _ E) as (w & [[-> E2]|[-> E2]]).
  - destruct w as [|c w]; cbn in E2; [injection E2 as ->; rewrite app_nil_r; auto|]. injection E2 as -> _. exfalso. apply NA, in_app_iff. right. left. reflexivity.
  - rewrite (K w eq_refl) in *. cbn in E2. injection E2 as ->. rewrite app_nil_r. auto.
Qed.

(** *** The parts of a URI *)
Lemma name_length t s : map lower_byte (scheme_str s) = map lower_byte t -> length (scheme_str s) = length t.
Proof. intros E. apply (f_equal (@length N)) in E. rewrite !map_length in E. exact E. Qed.
Lemma host_no_slash h : uri_host h -> Forall (fun b => b <> 47 /\ b <> 63 /\ b <> 35 /\ b <> 64) h.
Proof.
  intros [H|[a H]].
  - eapply pct_all; [..|exact H]; cbv beta; [|lia|].
    + intros b [K|K]; unfold unreserved, sub_delim, alpha, upper, lower, digit in K; cbn in K; lia.
    + intros b [d [K|K]]; apply nth_error_In in K; cbn in K; lia.
  - constructor; [lia|]. apply Forall_app. split; [|repeat constructor; lia]. eapply Forall_impl; [|exact H]. cbv beta.
    intros b [K|[K|K]]; unfold unreserved, sub_delim, alpha, upper, lower, digit in K; cbn in K; lia.
Qed.

Lemma user_not_at x : pct_text (fun b => unreserved b \/ sub_delim b \/ b = 58) x -> none_of (str "@/?") x.
Proof. intros H c I C. apply user_chars in H. exact (user_not c x H C I). Qed.
Lemma suffix_text u s n : u_scheme u = s -> s <> ScNone -> u_port u = Some n ->
  (port_suffix u = [] /\ n = default_port s) \/ port_suffix u = 58 :: dec_print n.
Proof.
  intros S NS P. unfold port_suffix. rewrite S, P. destruct s; try contradiction; cbn [scheme_eqb andb]; auto.
  - destruct (n =? 80) eqn:E; [left; split; [reflexivity|]|auto]. apply N.eqb_eq in E. exact E.
  - destruct (n =? 443) eqn:E; [left; split; [reflexivity|]|auto]. apply N.eqb_eq in E. exact E.
Qed.
(** A host with more behind it: only the text of a port. *)
Lemma host_itself h x y po z d : uri_host h -> text_of h d -> h ++ x = d ++ po ++ y -> (po = [] \/ exists ds, po = 58 :: ds /\ Forall digit ds) ->
  y = [] \/ y = 47 :: z -> h = d /\ x = po ++ y /\ ~ In 37 d.
Proof.
  intros H T E PO Y. assert (L : (length d <= length h)%nat) by (destruct T as [F _]; clear - F; induction F; cbn; lia).
  assert (W : h = d).
  { destruct (app_eq_app _ _ _ _ E) as (w & [[E1 E2]|[E1 E2]]).
    2:{ rewrite E1, app_length in L. destruct w; [rewrite E1, app_nil_r; reflexivity|cbn in L; lia]. }
    destruct w as [|c w]; [rewrite app_nil_r in E1; exact E1|]. exfalso.
    assert (Q : exists v, po = (c :: w) ++ v).
    { destruct (app_eq_app _ _ _ _ E2) as (v & [[E3 E4]|[E3 E4]]).
      - exists v; exact E3.
      - destruct v as [|b v]; [exists []; rewrite app_nil_r in *; auto|]. exfalso. destruct Y as [->| ->]; [discriminate E4|]. injection E4 as <- _.
        apply host_no_slash in H. rewrite E1, E3, !Forall_app in H. destruct H as (_ & _ & H). apply Forall_inv in H. lia. }
    destruct Q as (v & Q). destruct PO as [->|(ds & -> & D)]; [discriminate Q|]. injection Q as <- Q. subst ds.
    destruct H as [H|H].
    - assert (K : Forall (fun b => b <> 58) h). { eapply pct_all; [..|exact H]; cbv beta; [|lia|].
        - intros b [K|K]; unfold unreserved, sub_delim, alpha, upper, lower, digit in K; cbn in K; lia.
        - intros b [i [K|K]]; apply nth_error_In in K; cbn in K; lia. }
      rewrite E1, Forall_app in K. destruct K as [_ K]. apply Forall_inv in K. lia.
    - apply Forall_app in D as [D _]. destruct (exists_last (l := 58 :: w)) as (w' & b & EW); [discriminate|].
      assert (B : b = 58 \/ digit b).
      { assert (I : In b (58 :: w)) by (rewrite EW; apply in_app_iff; right; left; reflexivity). destruct I as [<-|I]; [auto|]. right. rewrite Forall_forall in D. exact (D b I). }
      rewrite EW in E1. rewrite app_assoc in E1. inversion H as [a A EH]. rewrite <- EH in E1. change (91 :: a ++ [93]) with ((91 :: a) ++ [93]) in E1. apply app_inj_tail in E1. destruct E1 as [_ E1].
      unfold digit in B. lia. }
  subst d. apply app_inv_head in E. split; [reflexivity|]. split; [exact E|]. destruct T as [F _].
  exact (proj2 (pct_equal _ _ F eq_refl)).
Qed.

Lemma host_ascii d : host_plain d -> text_of d d.
Proof.
  intros [H N37]. assert (A : Forall (fun b => b < 128) d).
  { destruct H as [H|[a H]].
    - eapply pct_all; [..|exact H]; cbv beta; [|lia|].
      + intros b [K|K]; unfold unreserved, sub_delim, alpha, upper, lower, digit in K; cbn in K; lia.
      + intros b [i [K|K]]; apply nth_error_In in K; cbn in K; lia.
    - constructor; [lia|]. apply Forall_app. split; [|repeat constructor; lia]. eapply Forall_impl; [|exact H]. cbv beta.
      intros b [K|[K|K]]; unfold unreserved, sub_delim, alpha, upper, lower, digit in K; cbn in K; lia. }
  split; [|apply utf8_valid_iff, utf8_valid_ascii, A]. clear - N37. induction d as [|b d IH]; [constructor|].
  apply pf_char; [intros ->; apply N37; left; reflexivity|]. apply IH. intros I. apply N37. right. exact I.
Qed.
Lemma enc_has c s : is_utf8 s -> In c s -> In c (str ":@/?") -> In c (url_encode s).
Proof. intros U I D. apply (esc_in s); [apply enc_esc, U|exact I|apply delim_safe, D]. Qed.
Lemma digit_print n : Forall digit (dec_print n).
Proof. apply dec_print_decimal. Qed.
(** Digits, and what follows them. *)
Lemma digits_end ds X es Y : Forall digit ds -> Forall digit es -> (forall c, hd_error X = Some c -> ~ digit c) -> (forall c, hd_error Y = Some c -> ~ digit c) ->
  ds ++ X = es ++ Y -> ds = es /\ X = Y.
Proof.
  intros D. revert es. induction D as [|a ds Ha D IH]; intros es E HX HY EQ; destruct E as [|b es Hb E]; cbn in EQ.
  - auto.
  - exfalso. apply (HX b); [rewrite EQ; reflexivity|exact Hb].
  - exfalso. apply (HY a); [rewrite <- EQ; reflexivity|exact Ha].
  - injection EQ as -> EQ. destruct (IH es E HX HY EQ) as [-> ->]. auto.
Qed.
Lemma suffix_form u : port_suffix u = [] \/ exists ds, port_suffix u = 58 :: ds /\ Forall digit ds.
Proof.
  unfold port_suffix. destruct scheme_eqb; [auto|]. destruct u_port as [n|]; [|auto]. destruct (_ && _); [auto|]. destruct (_ && _); [auto|].
  right. exists (dec_print n). split; [reflexivity|apply digit_print].
Qed.
Lemma port_end po X pu Y : port_opt po -> pu = [] \/ (exists ds, pu = 58 :: ds /\ Forall digit ds) ->
  (forall c, hd_error X = Some c -> ~ digit c /\ c <> 58) -> (forall c, hd_error Y = Some c -> ~ digit c /\ c <> 58) -> po ++ X = pu ++ Y -> po = pu /\ X = Y.
Proof.
  intros PO PU HX HY E. destruct PO as [|ds D]; destruct PU as [->|(es & -> & De)]; cbn in E.
  - auto.
  - exfalso. apply (HX 58); [rewrite E; reflexivity|reflexivity].
  - exfalso. apply (HY 58); [rewrite <- E; reflexivity|reflexivity].
  - injection E as E. apply digits_end in E; [destruct E as [-> ->]; auto|exact D|exact De|intros c K; apply HX, K|intros c K; apply HY, K].
Qed.
Lemma not_mark c : In c [47; 63; 35] -> ~ digit c /\ c <> 58.
Proof. intros [<-|[<-|[<-|[]]]]; unfold digit; lia. Qed.
Lemma tail_head p q f c : (p = [] \/ abs_path p) -> query_text q -> fragment_opt f -> hd_error (p ++ q ++ f) = Some c -> In c [47; 63; 35].
Proof.
  intros [->|P] Q F.
  - destruct Q; [destruct F|]; cbn; intros E; [discriminate|injection E as <-; tauto..].
  - destruct P as [p P]. cbn. intros E. injection E as <-. auto.
Qed.
Lemma enc_first p : is_utf8 p -> hd_error p = Some 47 -> exists z, url_encode p = 47 :: z.
Proof. destruct p as [|b p]; [discriminate|]. intros U E. injection E as ->. apply enc_slash, U. Qed.

(** *** The text of a URL *)
Lemma shows_plain u : utf8_url u -> shows u (url_print u) -> url_plain u.
Proof.
  intros (_ & Up & Uu & Uw & Ud & Uq) (r & (T & K & H & O & P & Q & F) & E & (SM & UM & (d & HT & HD) & (n0 & n & OP & PM & LN & PN) & PA & _)).
  unfold uri_text in E. destruct SM as [SM1 SM2]. pose proof (name_length _ _ SM1) as SL.
  assert (NS : scheme_eqb (u_scheme u) ScNone = false).
  { destruct (u_scheme u); try reflexivity. cbn in SL. destruct T. discriminate. }
  unfold url_print in E. rewrite NS, <- !app_assoc, HD in E. cbn [opt_bytes] in E.
  apply app_inj_length in E; [|exact SL]. destruct E as [ES E]. apply app_inv_head in E.
  assert (FP : hd_error (u_path u) = Some 47 /\ (forall X Y, ui_path r ++ X = url_encode (u_path u) ++ Y -> none_of (str "?") (u_path u))).
  { unfold path_meant in PA. destruct (blen (ui_path r) =? 0) eqn:B.
    - rewrite PA. split; [reflexivity|]. intros _ _ _ c [<-|[]] [C|[]]. discriminate.
    - destruct P as [P|P]; [rewrite P in B; discriminate|]. pose proof (path_no_mark _ P) as NM. split.
      + destruct PA as [PF _]. destruct P as [p P]. inversion PF; subst; reflexivity.
      + intros X Y EP c I C. assert (c = 63) as -> by (cbn in C; intuition). apply NM. symmetry in EP.
        assert (I' : In 63 (url_encode (u_path u))) by (apply enc_has; [exact Up|exact I|cbn; auto]).
        destruct (app_eq_app _ _ _ _ EP) as (w & [[E1 E2]|[E1 E2]]).
        * rewrite (enc_whole _ _ _ Up PA E1), app_nil_r in E1. rewrite <- E1. exact I'.
        * rewrite E1. apply in_app_iff. left. exact I'. }
  destruct FP as [FP1 FP2]. destruct (enc_first _ Up FP1) as (z & EZ).
  assert (REST : ui_host r ++ ui_port r ++ ui_path r ++ ui_query r ++ ui_frag r =
    d ++ port_suffix u ++ url_encode (u_path u) ++ match u_query u with Some q => 63 :: url_encode q | None => [] end ->
    (exists d, u_domain u = Some d /\ host_plain d) /\ none_of (str "?") (u_path u)).
  { intros R. rewrite EZ in R. cbn [app] in R. eapply host_itself in R; [|exact H|exact HT|apply suffix_form|right; reflexivity].
    destruct R as (R1 & R2 & R3). split; [exists d; split; [exact HD|]; split; [rewrite <- R1; exact H|exact R3]|].
    apply port_end in R2; [|exact O|apply suffix_form|intros c C; eapply not_mark, tail_head; [..|exact C]; assumption|intros c C; injection C as <-; apply not_mark; cbn; auto].
    destruct R2 as [_ R2]. rewrite app_comm_cons, <- EZ in R2. exact (FP2 _ _ R2). }
  assert (UR : ((u_user u = None /\ u_pass u = None) \/
     exists a b, u_user u = Some a /\ u_pass u = Some b /\ none_of (str ":@/?") a /\ none_of (str "@/?") b) /\ ui_host r ++ ui_port r ++ ui_path r ++ ui_query r ++ ui_frag r =
    d ++ port_suffix u ++ url_encode (u_path u) ++ match u_query u with Some q => 63 :: url_encode q | None => [] end).
  { destruct UM as [(K0 & US & PW)|[(a & s & K0 & NA & TA & US & PW)|(a & b & s & t & K0 & NA & TA & TB & US & PW)]]; rewrite US, PW, K0 in E; cbn [is_some orb opt_bytes app] in E.
    - rewrite US, PW. auto.
    - exfalso. rewrite US in Uu. cbn in Uu. rewrite <- !app_assoc in E. cbn [app] in E. symmetry in E.
      destruct (app_eq_app _ _ _ _ E) as (w & [[E1 E2]|[E1 E2]]).
      + destruct w as [|c w]; [discriminate E2|]. injection E2 as <- _. apply NA. rewrite E1. apply in_app_iff. right. left. reflexivity.
      + rewrite (enc_whole _ _ _ Uu TA E1) in E2. discriminate E2.
    - rewrite US in Uu. rewrite PW in Uw. cbn in Uu, Uw. rewrite <- !app_assoc in E. cbn [app] in E. rewrite <- !app_assoc in E. cbn [app] in E. symmetry in E.
      apply first_of in E; [|exact NA|intros w W; exact (enc_whole _ _ _ Uu TA W)]. destruct E as [EA E].
      rewrite K0 in K. assert (KU : none_of (str "@/?") (a ++ 58 :: b)).
      { inversion K as [KK|x KX KK]; [destruct a; discriminate|]. assert (x = a ++ 58 :: b) as ->.
        { apply (app_inj_tail x (a ++ 58 :: b) 64 64). rewrite KK, <- app_assoc. reflexivity. }
        apply user_not_at, KX. }
      apply first_of in E; [|intros I; apply (KU 64); [apply in_app_iff; right; right; exact I|cbn; auto]|intros w W; exact (enc_whole _ _ _ Uw TB W)].
      destruct E as [EB E]. split; [|exact E]. right. exists s, t. split; [exact US|]. split; [exact PW|]. split.
      + intros c I C. pose proof (enc_has c s Uu I C) as J. rewrite <- EA in J. assert (C2 : c = 58 \/ In c (str "@/?")) by (cbn in C |- *; intuition). clear C. destruct C2 as [->|C]; [exact (NA J)|].
        apply (KU c); [apply in_app_iff; left; exact J|exact C].
      + intros c I C. pose proof (enc_has c t Uw I (or_intror C)) as J. rewrite <- EB in J.
        apply (KU c); [apply in_app_iff; right; right; exact J|exact C]. }
  destruct UR as [UR1 UR2]. destruct (REST UR2) as [R1 R2]. split; [rewrite ES; exact T|]. split.
  { intros x SX I. apply (SM2 ltac:(rewrite <- ES, SX; exact I) x SX). }
  split; [exact UR1|]. split; [exact R1|]. split; [exists n; auto|]. auto.
Qed.
Lemma plain_shows u : utf8_url u -> url_plain u -> shows u (url_print u).
Proof.
  destruct u as [s pa us pw dom po qu]. unfold utf8_url, url_plain, shows. cbn [u_scheme u_domain u_port u_user u_pass u_path u_query].
  intros (_ & Up & Uu & Uw & _ & Uq) (T & Ks & Ui & (d & -> & Hd) & (n & -> & Ln) & Lp & Fp).
  assert (NS : scheme_eqb s ScNone = false) by (destruct s; try reflexivity; inversion T).
  assert (NS' : s <> ScNone) by (intros ->; discriminate).
  pose proof (suffix_text (mkUrl s pa us pw (Some d) (Some n) qu) s n eq_refl NS' eq_refl) as PS.
  pose proof (suffix_form (mkUrl s pa us pw (Some d) (Some n) qu)) as PF.
  destruct pa as [|b pa]; [discriminate|]. injection Lp as ->. destruct (enc_slash pa Up) as (ep & Ep).
  assert (Te : forall x, is_utf8 x -> text_of (url_encode x) x) by (intros x X; split; [apply enc_pct, X|exact X]).
  assert (App : forall P x y, pct_text P x -> pct_text P y -> pct_text P (x ++ y)).
  { intros P x y X Y. induction X; [exact Y|apply pt_char; assumption|apply pt_esc; assumption]. }
  assert (exists k, userinfo_opt k /\ user_meant k us pw /\ (if is_some us || is_some pw then url_encode (opt_bytes us) ++ 58 :: url_encode (opt_bytes pw) ++ [64] else []) = k) as (k & K1 & K2 & K3).
  { eexists. split; [|split; [|reflexivity]]; destruct Ui as [[-> ->]|(a & b & -> & -> & Fa & Fb)]; cbn [is_some orb opt_bytes]; cbn in Uu, Uw.
    - constructor.
    - replace (url_encode a ++ 58 :: url_encode b ++ [64]) with ((url_encode a ++ 58 :: url_encode b) ++ [64]) by (rewrite <- app_assoc; reflexivity). constructor.
      assert (J : forall x, is_utf8 x -> none_of (str "@/?") x -> pct_text (fun c => unreserved c \/ sub_delim c \/ c = 58) (url_encode x)).
      { intros x X F. apply (esc_text _ x); [apply enc_esc, X|]. intros c I S. apply F in I. apply safe_kinds in S as [S|[S|S]]; [auto|auto|].
        right. right. cbn in S, I. intuition. }
      apply App; [apply J; [assumption|]|apply pt_char; [auto|apply J; assumption]]. intros c I C. apply (Fa c I). right. exact C.
    - left. auto.
    - right. right. exists (url_encode a), (url_encode b), a, b. split; [reflexivity|]. split; [|auto]. intros I.
      assert (Q : pct_text (fun c => In c a /\ safe_char c) (url_encode a)) by (apply (esc_text _ a); [apply enc_esc, Uu|auto]).
      apply (pct_all _ (fun c => c <> 58)) in Q; [rewrite Forall_forall in Q; exact (Q 58 I eq_refl)|..].
      + intros c [Ic _] ->. apply (Fa 58 Ic). cbn. auto.
      + lia.
      + intros c Hc ->. exact (hex_not 58 ltac:(cbn; auto) Hc). }
  assert (exists q, query_text q /\ query_meant q qu /\ match qu with Some x => 63 :: url_encode x | None => [] end = q) as (q & Q1 & Q2 & Q3).
  { eexists. split; [|split; [|reflexivity]]; destruct qu as [x|]; cbn in Uq.
    - constructor. apply (esc_text _ x); [apply enc_esc, Uq|]. intros c I S. apply safe_kinds in S as [S|[S|S]]; [left; left; exact S|left; right; left; exact S|].
      destruct S as [<-|[<-|[<-|[<-|[]]]]]; [left; right; right|left; right; right|right|right]; cbn; auto.
    - constructor.
    - exists x. auto.
    - reflexivity. }
  exists (mkUri (scheme_str s) k d (port_suffix (mkUrl s (47 :: pa) us pw (Some d) (Some n) qu)) (47 :: ep) q []).
  unfold uri_ok, uri_text, uri_meant. cbn [ui_scheme ui_user ui_host ui_port ui_path ui_query ui_frag u_scheme u_domain u_port u_user u_pass u_path u_query].
  split; [|split].
  - split; [exact T|]. split; [exact K1|]. split; [apply Hd|]. split; [|split; [|split; [exact Q1|constructor]]].
    + destruct PF as [-> |(ds & -> & D)]; constructor; exact D.
    + right. constructor. pose proof (enc_esc _ Up) as Es. rewrite Ep in Es. inversion Es as [|b s0 l0 Sb Es' E4 E5|]; subst. apply (esc_text _ pa); [exact Es'|].
      intros c I Sc. assert (X : ~ In c (str "?")) by (apply Fp; right; exact I). apply safe_kinds in Sc as [Sc|[Sc|Sc]]; [left; left; exact Sc|left; right; left; exact Sc|].
      destruct Sc as [<-|[<-|[<-|[<-|[]]]]]; [left; right; right; cbn; auto|left; right; right; cbn; auto|right; reflexivity|exfalso; apply X; cbn; auto].
  - unfold url_print. cbn [u_scheme u_user u_pass u_domain u_path u_query]. rewrite K3, Q3, Ep, NS. cbn [opt_bytes]. rewrite app_nil_r, <- !app_assoc. reflexivity.
  - split; [split; [reflexivity|intros I x ->; exact (Ks x eq_refl I)]|]. split; [exact K2|]. split; [exists d; split; [apply host_ascii, Hd|reflexivity]|].
    split; [|split; [|exact Q2]].
    + exists (default_port s), n. split; [apply default_port_spec; reflexivity|]. split; [|auto]. destruct PS as [[-> ->]| ->]; [reflexivity|].
      destruct (dec_print_decimal n) as (D1 & _ & D3). cbn [port_meant]. destruct (dec_print n) eqn:Dp; [congruence|]. exact D3.
    + unfold path_meant. rewrite blen_cons. replace (1 + blen ep =? 0) with false by lia. rewrite <- Ep. apply Te, Up.
Qed.
Lemma shows_exactly u : utf8_url u -> (shows u (url_print u) <-> url_plain u).
Proof. intros U. split; [apply shows_plain, U|apply plain_shows, U]. Qed.

(** *** Authorities *)
Lemma own_none n : own_port ScNone n -> n = 0.
Proof. intros O. apply default_port_spec in O. exact O. Qed.
Lemma authority_exactly u : shows_authority u (url_authority u) <-> authority_plain u.
Proof.
  unfold url_authority, authority_plain. split.
  - intros (h & po & d & n0 & n & E & H & O & T & D & OP & PM & PN). rewrite D in E.
    assert (E' : h ++ po = d ++ port_suffix u ++ []) by (rewrite app_nil_r; symmetry; exact E).
    eapply (host_itself _ _ _ _ []) in E'; [|exact H|exact T|apply suffix_form|left; reflexivity].
    destruct E' as (E1 & E2 & E3). split; [exists d; split; [exact D|split; [rewrite <- E1; exact H|exact E3]]|]. exists n. split; [exact PN|].
    intros S. rewrite app_nil_r in E2. unfold port_suffix in E2. rewrite S in E2, OP. cbn in E2. rewrite E2 in PM. cbn in PM. rewrite PM. apply own_none, OP.
  - intros ((d & D & Hd) & (n & P & Z)). rewrite D. exists d, (port_suffix u), d, (default_port (u_scheme u)), n. split; [reflexivity|]. split; [apply Hd|].
    split; [destruct (suffix_form u) as [-> |(ds & -> & F)]; constructor; exact F|]. split; [apply host_ascii, Hd|]. split; [exact D|].
    split; [apply default_port_spec; reflexivity|]. split; [|exact P].
    destruct (scheme_eqb (u_scheme u) ScNone) eqn:NS.
    + assert (S : u_scheme u = ScNone) by (destruct (u_scheme u); try discriminate; reflexivity). unfold port_suffix. rewrite NS, S. cbn. apply Z, S.
    + assert (S : u_scheme u <> ScNone) by (intros S; rewrite S in NS; discriminate).
      destruct (suffix_text u _ n eq_refl S P) as [[-> ->]| ->]; [reflexivity|].
      destruct (dec_print_decimal n) as (D1 & _ & D3). cbn [port_meant]. destruct (dec_print n) eqn:Dp; [congruence|]. exact D3.
Qed.
Lemma connect_exactly u w : url_connect u = Some w -> (shows_authority u w <-> exists d, u_domain u = Some d /\ host_plain d).
Proof.
  unfold url_connect. destruct (u_domain u) as [d|] eqn:D; [|discriminate]. destruct (u_port u) as [n|] eqn:P; [|discriminate]. intros E. injection E as <-. split.
  - intros (h & po & d' & n0 & n' & E & H & O & T & D' & OP & PM & PN). rewrite D in D'. injection D' as <-. exists d. split; [reflexivity|].
    assert (E' : h ++ po = d ++ (58 :: dec_print n) ++ []) by (rewrite app_nil_r; symmetry; exact E).
    eapply (host_itself _ _ _ _ []) in E'; [|exact H|exact T|right; exists (dec_print n); split; [reflexivity|apply digit_print]|left; reflexivity].
    destruct E' as (E1 & _ & E3). split; [rewrite <- E1; exact H|exact E3].
  - intros (d' & D' & Hd). injection D' as <-. exists d, (58 :: dec_print n), d, (default_port (u_scheme u)), n. split; [reflexivity|]. split; [apply Hd|].
    split; [constructor; apply digit_print|]. split; [apply host_ascii, Hd|]. split; [exact D|]. split; [apply default_port_spec; reflexivity|]. split; [|exact P].
    destruct (dec_print_decimal n) as (D1 & _ & D3). cbn [port_meant]. destruct (dec_print n) eqn:Dp; [congruence|]. exact D3.
Qed.

(** *** A text is one URI *)
Lemma split_first (M : N -> Prop) A X B Y : Forall (fun c => ~ M c) A -> Forall (fun c => ~ M c) B -> (forall c, hd_error X = Some c -> M c) -> (forall c, hd_error Y = Some c -> M c) ->
  A ++ X = B ++ Y -> A = B /\ X = Y.
Proof.
  intros D. revert B. induction D as [|a A Ha D IH]; intros B E HX HY EQ; destruct E as [|b B Hb E]; cbn in EQ.
  - auto.
  - exfalso. apply Hb, HX. rewrite EQ. reflexivity.
  - exfalso. apply Ha, HY. rewrite <- EQ. reflexivity.
  - injection EQ as -> EQ. destruct (IH B E HX HY EQ) as [-> ->]. auto.
Qed.
Lemma name_no_colon t : scheme_name t -> Forall (fun c => c <> 58) t.
Proof.
  intros [b t' Hb Ht]. constructor; [unfold alpha, upper, lower in Hb; lia|]. eapply Forall_impl; [|exact Ht]. cbv beta.
  intros c [X|[X|X]]; unfold alpha, upper, lower, digit in X; cbn in X; lia.
Qed.
Lemma login_no_mark k : userinfo_opt k -> Forall (fun c => ~ In c [47; 63; 35]) k.
Proof.
  assert (X : forall x, pct_text (fun b => unreserved b \/ sub_delim b \/ b = 58) x -> Forall (fun c => ~ In c [47; 63; 35]) x).
  { intros x X. eapply pct_all; [..|exact X]; cbv beta; [|cbn; lia|].
    - intros b [K|[K| ->]]; [..|cbn; lia]; unfold unreserved, sub_delim, alpha, upper, lower, digit in K; cbn in *; lia.
    - intros b [i [K|K]]; apply nth_error_In in K; cbn in *; lia. }
  intros [|x K]; [constructor|]. apply Forall_app. split; [apply X, K|]. repeat constructor. cbn. lia.
Qed.
Lemma login_one k : userinfo_opt k -> k = [] \/ exists x, k = x ++ [64] /\ Forall (fun c => c <> 64) x.
Proof.
  intros [|x K]; [left; reflexivity|right]. exists x. split; [reflexivity|]. apply user_not_at in K. apply Forall_forall. intros c I ->. apply (K 64 I). cbn. auto.
Qed.
Lemma port_chars po : port_opt po -> Forall (fun c => c = 58 \/ digit c) po.
Proof. intros [|ds D]; constructor; [auto|]. eapply Forall_impl; [|exact D]. auto. Qed.
Lemma login_unique k x k' x' : userinfo_opt k -> userinfo_opt k' -> Forall (fun c => c <> 64) x -> Forall (fun c => c <> 64) x' -> k ++ x = k' ++ x' -> k = k' /\ x = x'.
Proof.
  intros K K' X X' E. apply login_one in K as [->|(l & -> & L)]; apply login_one in K' as [->|(l' & -> & L')]; cbn in E; auto.
  - exfalso. rewrite E, <- app_assoc, Forall_app in X. destruct X as [_ X]. apply Forall_inv in X. apply X. reflexivity.
  - exfalso. rewrite <- E, <- app_assoc, Forall_app in X'. destruct X' as [_ X']. apply Forall_inv in X'. apply X'. reflexivity.
  - rewrite <- !app_assoc in E. cbn [app] in E. apply (split_first (fun c => c = 64)) in E; [|exact L|exact L'|cbn; congruence..].
    destruct E as [-> E]. injection E as ->. auto.
Qed.
Lemma host_kind h : uri_host h -> Forall (fun c => c <> 58 /\ c <> 91) h \/ exists a, h = 91 :: a ++ [93] /\ Forall (fun c => c <> 93) a.
Proof.
  intros [H|[a H]]; [left|right].
  - eapply pct_all; [..|exact H]; cbv beta; [|lia|].
    + intros b [K|K]; unfold unreserved, sub_delim, alpha, upper, lower, digit in K; cbn in K; lia.
    + intros b [d [K|K]]; apply nth_error_In in K; cbn in K; lia.
  - exists a. split; [reflexivity|]. eapply Forall_impl; [|exact H]. cbv beta.
    intros b [K|[K|K]]; unfold unreserved, sub_delim, alpha, upper, lower, digit in K; cbn in K; lia.
Qed.
Lemma host_unique h po h' po' : uri_host h -> uri_host h' -> port_opt po -> port_opt po' -> h ++ po = h' ++ po' -> h = h' /\ po = po'.
Proof.
  assert (W : forall h po a X, Forall (fun c => c <> 58 /\ c <> 91) h -> port_opt po -> h ++ po = 91 :: a ++ X -> False).
  { intros h0 po0 a X F O E. destruct h0 as [|c h0]; cbn in E; [destruct O; discriminate E|]. injection E as -> _. apply Forall_inv in F. lia. }
  intros H H' O O' E. apply host_kind in H as [H|(a & -> & A)]; apply host_kind in H' as [H'|(a' & -> & A')].
  - apply (split_first (fun c => c = 58)) in E; [exact E|eapply Forall_impl; [|exact H]; cbv beta; tauto|eapply Forall_impl; [|exact H']; cbv beta; tauto|destruct O|destruct O']; cbn; congruence.
  - exfalso. cbn [app] in E. rewrite <- app_assoc in E. exact (W _ _ _ _ H O E).
  - exfalso. cbn [app] in E. rewrite <- app_assoc in E. exact (W _ _ _ _ H' O' (eq_sym E)).
  - cbn [app] in E. injection E as E. rewrite <- !app_assoc in E. cbn [app] in E. apply (split_first (fun c => c = 93)) in E; [|exact A|exact A'|cbn; congruence..].
    destruct E as [-> E]. injection E as ->. auto.
Qed.
Lemma path_no_marks p : p = [] \/ abs_path p -> Forall (fun c => ~ In c [63; 35]) p.
Proof.
  intros [->|[p0 P]]; [constructor|]. constructor; [cbn; lia|]. eapply pct_all; [..|exact P]; cbv beta; [|cbn; lia|].
  - intros b [[K|[K|K]]|K]; unfold unreserved, sub_delim, alpha, upper, lower, digit in K; cbn in *; lia.
  - intros b [i [K|K]]; apply nth_error_In in K; cbn in *; lia.
Qed.
Lemma query_no_hash q : query_text q -> Forall (fun c => c <> 35) q.
Proof.
  intros [|q0 Q]; [constructor|]. constructor; [lia|]. eapply pct_all; [..|exact Q]; cbv beta; [|lia|].
  - intros b [[K|[K|K]]|K]; unfold unreserved, sub_delim, alpha, upper, lower, digit in K; cbn in *; lia.
  - intros b [i [K|K]]; apply nth_error_In in K; cbn in *; lia.
Qed.
Lemma uri_unique r r' : uri_ok r -> uri_ok r' -> uri_text r = uri_text r' -> r = r'.
Proof.
  destruct r as [t k h po p q f], r' as [t' k' h' po' p' q' f']. unfold uri_ok, uri_text. cbn [ui_scheme ui_user ui_host ui_port ui_path ui_query ui_frag].
  intros (T & K & H & O & P & Q & F) (T' & K' & H' & O' & P' & Q' & F') E.
  apply (split_first (fun c => c = 58)) in E; [|apply name_no_colon, T|apply name_no_colon, T'|intros c C; injection C as <-; reflexivity..]. destruct E as [-> E]. apply app_inv_head in E.
  assert (AU : forall k h po, userinfo_opt k -> uri_host h -> port_opt po -> Forall (fun c => ~ In c [47; 63; 35]) (k ++ h ++ po)).
  { intros k0 h0 po0 K0 H0 O0. rewrite !Forall_app. split; [apply login_no_mark, K0|]. split.
    - eapply Forall_impl; [|apply host_no_slash, H0]. cbn. lia.
    - eapply Forall_impl; [|apply port_chars, O0]. cbn. unfold digit. lia. }
  assert (E' : (k ++ h ++ po) ++ p ++ q ++ f = (k' ++ h' ++ po') ++ p' ++ q' ++ f') by (rewrite <- !app_assoc; exact E). clear E.
  apply (split_first (fun c => In c [47; 63; 35])) in E'; [|apply AU; assumption|apply AU; assumption|intros c C; eapply tail_head; [..|exact C]; assumption..].
  destruct E' as [E1 E2].
  assert (NH : forall h po, uri_host h -> port_opt po -> Forall (fun c => c <> 64) (h ++ po)).
  { intros h0 po0 H0 O0. rewrite !Forall_app. split.
    - eapply Forall_impl; [|apply host_no_slash, H0]. cbn. lia.
    - eapply Forall_impl; [|apply port_chars, O0]. cbn. unfold digit. lia. }
  apply login_unique in E1; [|auto..]. destruct E1 as [-> E1]. apply host_unique in E1; [|assumption..]. destruct E1 as [-> ->].
  apply (split_first (fun c => In c [63; 35])) in E2; [|apply path_no_marks; assumption..|destruct Q, F|destruct Q', F']; [|intros c C; cbn in *; try discriminate; injection C as <-; auto..].
  destruct E2 as [-> E2].
  apply (split_first (fun c => c = 35)) in E2; [|apply query_no_hash; assumption..|destruct F|destruct F']; [|intros c C; cbn in *; congruence..].
  destruct E2 as [-> ->]. reflexivity.
Qed.
Lemma scheme_same t s s' : t <> [] -> scheme_meant t s -> scheme_meant t s' -> s = s' \/ exists x x', s = ScExt x /\ s' = ScExt x'.
Proof.
  intros N0 [A1 A2] [B1 B2]. assert (L : map lower_byte t <> []) by (destruct t; [congruence|discriminate]).
  assert (K : forall s, map lower_byte (scheme_str s) = map lower_byte t -> s <> ScNone). { intros c E ->. cbn in E. congruence. }
  assert (Z : forall s, map lower_byte (scheme_str s) = map lower_byte t -> (forall x, s <> ScExt x) -> In (map lower_byte t) known_schemes).
  { intros c E X. rewrite <- E. specialize (K c E). destruct c; try congruence; try (exfalso; exact (X _ eq_refl)); vm_compute; auto 8. }
  pose proof (K s A1). pose proof (K s' B1).
  destruct s as [ | | | | | | x ], s' as [ | | | | | | x' ]; try congruence; try (left; reflexivity); try (right; exists x, x'; auto; fail); exfalso;
    try (rewrite <- B1 in A1; vm_compute in A1; discriminate A1);
    try (apply (A2 ltac:(eapply Z; [exact B1|discriminate]) x eq_refl));
    try (apply (B2 ltac:(eapply Z; [exact A1|discriminate]) x' eq_refl)).
Qed.
Lemma text_same l s s' : text_of l s -> text_of l s' -> s = s'.
Proof. intros [A _] [B _]. exact (pct_form_unique _ _ _ A B). Qed.
Lemma user_same k us pw us' pw' : user_meant k us pw -> user_meant k us' pw' -> us = us' /\ pw = pw'.
Proof.
  assert (Z : forall a b b', ~ In 58 a -> a ++ [64] = b ++ 58 :: b' ++ [64] -> False).
  { intros a b b' I E. change (58 :: b' ++ [64]) with ((58 :: b') ++ [64]) in E. rewrite app_assoc in E. apply app_inj_tail in E as [E _]. apply I. rewrite E. apply in_app_iff. right. left. reflexivity. }
  intros [(-> & -> & ->)|[(a & s & -> & NA & TA & -> & ->)|(a & b & s & t & -> & NA & TA & TB & -> & ->)]]
    [(E & -> & ->)|[(a' & s' & E & NA' & TA' & -> & ->)|(a' & b' & s' & t' & E & NA' & TA' & TB' & -> & ->)]].
  - auto.
  - destruct a'; discriminate.
  - destruct a'; discriminate.
  - destruct a; discriminate.
  - apply app_inj_tail in E as [<- _]. rewrite (text_same _ _ _ TA TA'). auto.
  - exfalso. exact (Z _ _ _ NA E).
  - destruct a; discriminate.
  - exfalso. exact (Z _ _ _ NA' (eq_sym E)).
  - assert (F : forall a, ~ In 58 a -> Forall (fun c => c <> 58) a) by (intros x X; apply Forall_forall; intros c I ->; exact (X I)).
    apply (split_first (fun c => c = 58)) in E; [|apply F; assumption..|cbn; congruence|cbn; congruence]. destruct E as [<- E]. injection E as E. apply app_inj_tail in E as [<- _].
    rewrite (text_same _ _ _ TA TA'), (text_same _ _ _ TB TB'). auto.
Qed.
Lemma meant_same r u v : uri_ok r -> uri_meant r u -> uri_meant r v -> same_url u v.
Proof.
  intros (T & _) (S & U & (d & D1 & D2) & (n0 & n & O & M & _ & P) & PA & Q) (S' & U' & (d' & D1' & D2') & (n0' & n' & O' & M' & _ & P') & PA' & Q').
  assert (T0 : ui_scheme r <> []) by (destruct T; discriminate).
  destruct (user_same _ _ _ _ _ U U') as [U1 U2]. unfold same_url. split; [destruct S as [-> _], S' as [-> _]; reflexivity|].
  split; [exact (scheme_same _ _ _ T0 S S')|].
  split; [exact U1|]. split; [exact U2|]. split; [rewrite D2, D2', (text_same _ _ _ D1 D1'); reflexivity|]. split; [|split].
  - assert (n0 = n0') as <-.
    { destruct (scheme_same _ _ _ T0 S S') as [E|(x & x' & E & E')]; [rewrite E in O; exact (own_unique _ _ _ O O')|].
      apply default_port_spec in O, O'. rewrite E in O. rewrite E' in O'. cbn in O, O'. congruence. }
    assert (n = n') as <-; [|congruence]. unfold port_meant in *. destruct (ui_port r) as [|a [|b l]]; congruence.
  - unfold path_meant in *. destruct (blen (ui_path r) =? 0); [congruence|exact (text_same _ _ _ PA PA')].
  - unfold query_meant in *. destruct (ui_query r) as [|a l]; [congruence|]. destruct Q as (z & Z & ->), Q' as (z' & Z' & ->). rewrite (text_same _ _ _ Z Z'). reflexivity.
Qed.
Lemma shows_unique u v w : shows u w -> shows v w -> same_url u v.
Proof.
  intros (r & R & E & M) (r' & R' & E' & M'). assert (r = r') as <- by (apply uri_unique; congruence). exact (meant_same r u v R M M').
Qed.
Lemma print_scheme u r : uri_ok r -> uri_meant r u -> url_print u = uri_text r -> scheme_str (u_scheme u) = ui_scheme r.
Proof.
  intros (T & _) ((SM1 & _) & _) E. pose proof (name_length _ _ SM1) as SL. unfold url_print, uri_text in E.
  assert (NS : scheme_eqb (u_scheme u) ScNone = false). { destruct (u_scheme u); try reflexivity. cbn in SL. destruct T. discriminate. }
  rewrite NS, <- !app_assoc in E. apply app_inj_length in E; [|exact SL]. apply E.
Qed.
Lemma plain_injective u v : utf8_url u -> utf8_url v -> url_plain u -> url_plain v -> url_print u = url_print v -> u = v.
Proof.
  intros U V PU PV E. destruct (plain_shows u U PU) as (r & R & TU & MU). destruct (plain_shows v V PV) as (r' & R' & TV & MV).
  assert (r = r') as <- by (apply uri_unique; congruence). clear R'.
  pose proof (print_scheme u r R MU TU) as SU. pose proof (print_scheme v r R MV TV) as SV.
  destruct (meant_same r u v R MU MV) as (_ & S & A1 & A2 & A3 & A4 & A5 & A6).
  assert (ES : u_scheme u = u_scheme v).
  { destruct S as [S|(x & x' & E1 & E2)]; [exact S|]. rewrite E1 in *. rewrite E2 in *. cbn in SU, SV. congruence. }
  destruct u, v. cbn in *. congruence.
Qed.
