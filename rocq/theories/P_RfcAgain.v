(** Lemmas for C126. *)
From Coq Require Import Ascii String NArith ZArith Lia Bool List ZifyBool ZifyNat ZifyN.
From Verif Require Import Base S_Utf8 P_Base M_Std M_Helper M_Header M_Url M_Http1 S_Hex S_Http1 S_Http1Api P_Std P_Helper P_Header P_Http1 P_Msg
  P_Chunk S_Map P_Map S_Url P_Url P_UrlForm S_UrlAll P_UrlAll P_UrlExact S_Exact S_Reject P_Reject S_Rfc9112 P_Rfc9112 S_Rfc3986 P_Rfc3986 P_Huffman S_RfcSend P_RfcSend S_RfcShow P_RfcShow S_RfcAgain.
Import ListNotations.
Local Open Scope N_scope.

Lemma uri_bytes r : uri_ok r -> ui_frag r = [] -> bytes_ok (uri_text r).
Proof.
  destruct r as [t k h po p q f]. unfold uri_ok, uri_text. cbn [ui_scheme ui_user ui_host ui_port ui_path ui_query ui_frag]. intros (T & K & H & O & P & Q & _) ->. rewrite app_nil_r.
  apply bytes_vchar. apply Forall_app. split; [apply scheme_vchar, T|]. apply Forall_app. split; [vlist|]. apply Forall_app. split; [|apply tail_vchar; assumption].
  destruct (login_split k K) as [->|(x & -> & Ux)]; [constructor|]. apply Forall_app. split; [apply users_vchar, Ux|]. constructor; [unfold vchar; lia|constructor].
Qed.
Lemma parsed_scheme r u : uri_ok r -> ui_frag r = [] -> url_parse (uri_text r) = Ok u -> uri_meant r u -> legal_scheme (u_scheme u) /\ ui_scheme r = scheme_str (u_scheme u).
Proof.
  intros R F U (_ & _ & (d & _ & D) & _). pose proof (uri_bytes r R F) as B. unfold uri_text in *. apply (means_scheme _ (ui_user r ++ ui_host r ++ ui_port r ++ ui_path r ++ ui_query r ++ ui_frag r) u); [apply R|apply url_means_iff; assumption|rewrite D; discriminate].
Qed.
Lemma user_both r u : uri_ok r -> ui_frag r = [] -> url_parse (uri_text r) = Ok u -> uri_meant r u ->
  (ui_user r = [] /\ u_user u = None /\ u_pass u = None) \/
  (exists a b s t, ui_user r = a ++ 58 :: b ++ [64] /\ ~ In 58 a /\ text_of a s /\ text_of b t /\ u_user u = Some s /\ u_pass u = Some t).
Proof.
  intros R F U M. destruct (proj1 (uri_exact r R F) (ex_intro _ u (conj U M))) as (_ & _ & [E|(a & b & E & N & _)] & _).
  - destruct M as (_ & [(_ & X & Y)|[(a & s & K & _)|(a & b & s & t & K & _)]] & _); [auto| |]; rewrite E in K; destruct a; discriminate K.
  - destruct M as (_ & [(K & _)|[(a' & s & K & N' & _)|K]] & _); [| |right; exact K].
    + rewrite E in K. destruct a; discriminate K.
    + exfalso. rewrite E in K. replace (a ++ 58 :: b ++ [64]) with ((a ++ 58 :: b) ++ [64]) in K by (rewrite <- app_assoc; reflexivity). apply app_inj_tail in K as [K _]. apply N'. rewrite <- K. apply in_or_app. right. left. reflexivity.
Qed.
Lemma user_unique (a b a' b' : bytes) : a ++ 58 :: b ++ [64] = a' ++ 58 :: b' ++ [64] -> ~ In 58 a -> ~ In 58 a' -> a = a' /\ b = b'.
Proof.
  intros E N N'. apply cut_first in E as [-> E]; [|exact N|exact N']. split; [reflexivity|]. apply app_inj_tail in E. apply E.
Qed.
(** What the parts say, seen from the URL. *)
Lemma says_url r u us pw pa qu : uri_ok r -> ui_frag r = [] -> url_parse (uri_text r) = Ok u -> uri_meant r u -> ~ In 47 pa ->
  (says_none r us pw pa qu <->
   ((u_user u = None /\ u_pass u = None) \/ exists a b, u_user u = Some a /\ u_pass u = Some b /\ none_of us a /\ none_of pw b) /\
   none_of pa (u_path u) /\ (forall q, u_query u = Some q -> none_of qu q)).
Proof.
  intros R F U M S. pose proof (user_both r u R F U M) as X. destruct M as (_ & _ & _ & _ & P & Q). unfold says_none. split.
  - intros (A & B & C). split; [|split].
    + destruct X as [(_ & X)|(a & b & s & t & E & N & T1 & T2 & X1 & X2)]; [left; exact X|right]. exists s, t. destruct (A a b s t E N T1 T2). auto.
    + unfold path_meant in P. destruct (blen (ui_path r) =? 0) eqn:Z; [|apply B, P]. rewrite P. intros c [<-|[]]. exact S.
    + intros q EQ. rewrite EQ in Q. unfold query_meant in Q. destruct R as (_ & _ & _ & _ & _ & QT & _). destruct QT as [|y Y]; [discriminate Q|]. destruct Q as (z & T & [= ->]). exact (C y z eq_refl T).
  - intros (A & B & C). split; [|split].
    + intros a b s t E N T1 T2. destruct X as [(E0 & _)|(a' & b' & s' & t' & E' & N' & T1' & T2' & X1 & X2)]; [rewrite E0 in E; destruct a; discriminate E|].
      rewrite E in E'. destruct (user_unique _ _ _ _ E' N N') as [-> ->]. rewrite (text_same _ _ _ T1 T1'), (text_same _ _ _ T2 T2'). destruct A as [[A _]|(x & y & A1 & A2 & A3)]; congruence || (rewrite X1 in A1; rewrite X2 in A2; injection A1 as ->; injection A2 as ->; exact A3).
    + intros s T. unfold path_meant in P. destruct (blen (ui_path r) =? 0) eqn:Z; [|rewrite (text_same _ _ _ T P); exact B]. destruct (ui_path r) as [|c l]; [|rewrite blen_cons in Z; lia].
      destruct T as [T _]. inversion T; subst. intros c [].
    + intros y s E T. rewrite E in Q. destruct Q as (z & Z & EQ). rewrite (text_same _ _ _ T Z). apply C, EQ.
Qed.
Lemma path_starts r u : uri_ok r -> uri_meant r u -> hd_error (u_path u) = Some 47.
Proof.
  intros (_ & _ & _ & _ & PO & _) (_ & _ & _ & _ & P & _). unfold path_meant in P. destruct PO as [E|A]; [rewrite E in P; cbn in P; rewrite P; reflexivity|].
  destruct (ui_path r) as [|c l] eqn:E; [inversion A|]. replace (blen (c :: l) =? 0) with false in P by (rewrite blen_cons; lia).
  assert (c = 47) by (inversion A; reflexivity). subst c. destruct P as [P _]. inversion P; subst; reflexivity.
Qed.
Lemma meant_utf8 r u : uri_ok r -> ui_frag r = [] -> url_parse (uri_text r) = Ok u -> utf8_url u.
Proof. intros R F U. eapply utf8_url_ok; [apply (uri_bytes r R F)|exact U]. Qed.
Lemma scheme_known r u : uri_meant r u -> forall x, u_scheme u = ScExt x -> ~ In (map lower_byte x) known_schemes.
Proof. intros ((A & B) & _) x E I. rewrite E in A. cbn [scheme_str] in A. rewrite A in I. exact (B I x E). Qed.
Lemma shown_again r u : uri_ok r -> ui_frag r = [] -> url_parse (uri_text r) = Ok u -> uri_meant r u -> (shows u (url_print u) <-> shown_same r).
Proof.
  intros R F U M. rewrite (shows_exactly u (meant_utf8 r u R F U)). unfold shown_same. rewrite (says_url r u _ _ _ _ R F U M) by (cbn; lia).
  destruct (parsed_scheme r u R F U M) as [L E]. pose proof (path_starts r u R M) as PS. pose proof (scheme_known r u M) as SK. destruct M as (SM & UM & (d & TD & UD) & (n0 & n & _ & _ & LN & UP) & PM & QM).
  unfold url_plain. split.
  - intros (_ & _ & A & (d' & D1 & D2) & _ & _ & B). split; [|split; [|split]].
    + intros d2 T2. rewrite (text_same _ _ _ T2 TD). rewrite UD in D1. injection D1 as ->. exact D2.
    + exact A.
    + exact B.
    + intros q _ c _ [].
  - intros (A & B & C & _). split; [apply legal_name, L|]. split; [exact SK|]. split; [exact B|]. split; [exists d; split; [exact UD|apply A, TD]|]. split; [exists n; auto|]. auto.
Qed.
Lemma parsed_again r u : uri_ok r -> ui_frag r = [] -> url_parse (uri_text r) = Ok u -> uri_meant r u -> (url_parse (url_print u) = Ok u <-> parsed_same r).
Proof.
  intros R F U M. pose proof (meant_utf8 r u R F U) as U8. rewrite (print_parse_iff u U8). unfold parsed_same. rewrite (says_url r u _ _ _ _ R F U M) by (cbn; lia).
  destruct (parsed_scheme r u R F U M) as [L E]. pose proof (path_starts r u R M) as PS. destruct M as (SM & UM & (d & TD & UD) & (n0 & n & _ & _ & LN & UP) & PM & QM).
  destruct U8 as (_ & UP8 & UU8 & UW8 & _ & UQ8).
  split.
  - intros [(_ & (d' & D1 & D2) & _ & A & B & C)|O]; [|destruct O as (_ & O & _); congruence]. split; [|split; [|split]].
    + intros d2 T2. rewrite (text_same _ _ _ T2 TD). rewrite UD in D1. injection D1 as ->. exact D2.
    + destruct A as [A|(a & b & A1 & A2 & [_ A3] & [_ A4])]; [left; exact A|right]. exists a, b. auto.
    + exact (proj2 (proj2 B)).
    + intros q EQ. destruct C as [C|(s & C1 & [_ C2])]; [congruence|]. rewrite EQ in C1. injection C1 as ->. exact C2.
  - intros (A & B & C & D). left. split; [exact L|]. split; [exists d; split; [exact UD|apply A, TD]|]. split; [exists n; auto|]. split; [|split].
    + destruct B as [B|(a & b & B1 & B2 & B3 & B4)]; [left; exact B|right]. exists a, b. rewrite B1 in UU8. rewrite B2 in UW8. split; [exact B1|]. split; [exact B2|]. split; (split; [assumption|assumption]).
    + split; [exact PS|]. split; [exact UP8|exact C].
    + destruct (u_query u) as [q|]; [right; exists q; split; [reflexivity|split; [exact UQ8|apply D; reflexivity]]|left; reflexivity].
Qed.
