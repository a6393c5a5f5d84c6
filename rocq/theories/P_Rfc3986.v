(** Proofs about URIs of RFC 3986 (C116). *)
From Coq Require Import Ascii String NArith ZArith Lia Bool List ZifyBool ZifyNat ZifyN.
From Verif Require Import Base S_Utf8 P_Base M_Std M_Helper M_Header M_Url M_Http1 S_Hex S_Http1 S_Http1Api P_Std P_Helper P_Header P_Http1 P_Msg
  P_Chunk S_Map P_Map S_Url P_Url P_UrlForm S_UrlAll P_UrlAll P_UrlExact S_Reject P_Reject S_Rfc9112 P_Rfc9112 S_Rfc3986.
Import ListNotations.
Local Open Scope N_scope.

(** ** Characters *)
Lemma user_chars x : pct_text (fun b => unreserved b \/ sub_delim b \/ b = 58) x -> Forall (fun b => vchar b /\ ~ In b (str "@/?")) x.
Proof.
  intros H. eapply pct_all; [..|exact H]; cbv beta.
  - intros b [K|[K| ->]]; [apply unreserved_vchar in K as [K1 K2]|apply sub_delim_vchar in K as [K1 K2]|split; [unfold vchar; lia|cbn; lia]]; (split; [exact K1|]); cbn in *; lia.
  - split; [unfold vchar; lia|cbn; lia].
  - intros b K. apply hex_vchar in K as [K1 K2]. split; [exact K1|]. cbn in *. lia.
Qed.
Lemma user_not c x : Forall (fun b => vchar b /\ ~ In b (str "@/?")) x -> In c (str "@/?") -> ~ In c x.
Proof. intros F C K. rewrite Forall_forall in F. apply F in K. tauto. Qed.
Lemma user_parts x : Forall (fun b => vchar b /\ ~ In b (str "@/?")) x -> ~ In 58 x -> Forall part_char x.
Proof.
  intros F N. rewrite Forall_forall in *. intros b K. pose proof (F b K) as [V M]. split; [exact V|].
  assert (b <> 58) by (intros ->; contradiction). cbn in *. lia.
Qed.
Lemma scheme_no_colon s : legal_scheme s -> ~ In 58 (scheme_str s).
Proof.
  intros [| | | | |b t Hb Ht _ _]; try (cbn; lia). cbn. intros [K|K]; [unfold alpha, upper, lower in Hb; lia|].
  rewrite Forall_forall in Ht. apply Ht in K as [K|[K|K]]; unfold alpha, upper, lower, digit in K; cbn in K; lia.
Qed.
Lemma name_no_colon t : scheme_name t -> ~ In 58 t.
Proof.
  intros [b s Hb Hs]. intros [K|K]; [unfold alpha, upper, lower in Hb; lia|].
  rewrite Forall_forall in Hs. apply Hs in K as [K|[K|K]]; unfold alpha, upper, lower, digit in K; cbn in K; lia.
Qed.
Lemma clash (x y : N) (A B Z Y : bytes) : x <> y -> A ++ x :: Z = B ++ y :: Y -> ~ In y A -> ~ In x B -> False.
Proof.
  intros N E NA NB. destruct (app_eq_app _ _ _ _ E) as (w & [[-> E2]|[-> E2]]); destruct w as [|c w]; cbn in E2; injection E2 as F _; subst.
  - congruence.
  - apply NA, in_app_iff. right. left. reflexivity.
  - congruence.
  - apply NB, in_app_iff. right. left. reflexivity.
Qed.
Lemma one_mark (x : N) (A r X Y : bytes) : A ++ x :: r = X ++ x :: Y -> ~ In x X -> ~ In x Y -> A = X /\ r = Y.
Proof.
  intros E NX NY. destruct (app_eq_app _ _ _ _ E) as (w & [[-> E2]|[-> E2]]); destruct w as [|c w]; cbn in E2.
  - injection E2 as ->. rewrite app_nil_r. auto.
  - injection E2 as -> ->. exfalso. apply NY, in_app_iff. right. left. reflexivity.
  - injection E2 as ->. rewrite app_nil_r. auto.
  - injection E2 as -> ->. exfalso. apply NX, in_app_iff. right. left. reflexivity.
Qed.

(** ** With a login *)
Lemma abs_parts s s0 h po p q d n pa qu : own_port s s0 -> uri_host h -> port_opt po -> p = [] \/ abs_path p -> query_text q -> n < 65536 ->
  text_of h d -> port_meant s0 po n -> path_meant p pa -> query_meant q qu ->
  ~ In 58 h -> po <> [58] -> ~ In 64 (p ++ q) ->
  Forall part_char h /\ port_part s po n /\ path_part p pa /\ query_part q qu.
Proof.
  intros Def Hh Hpo Hp Hq Hn Hd Hport Hpath Hquery C1 C2 C3. rewrite in_app_iff in C3. split; [apply host_part; assumption|]. split; [|split].
  - destruct Hpo as [|ds Fds].
    + constructor. cbn in Hport. subst n. exact Def.
    + destruct ds as [|x ds]; [contradiction|]. cbn in Hport. destruct (digits_form _ Fds) as (D1 & D2 & D3).
      eapply (pp_some s 58 (x :: ds) (x :: ds)); [auto|exact D2|rewrite D3; exact D1|]. split; [exact Hn|]. exists (x :: ds). split; [discriminate|]. auto.
  - destruct Hp as [->|Hp]; [change (pa = str "/") in Hpath; subst pa; constructor|]. destruct (path_chars p Hp) as (t & -> & Ft); [tauto|].
    constructor; [exact Ft|]. unfold path_meant in Hpath. rewrite blen_cons in Hpath. replace (1 + blen t =? 0) with false in Hpath by lia. exact Hpath.
  - destruct (query_chars q Hq) as [->|(y & -> & Fy)]; [tauto|cbn in Hquery; subst qu; constructor|]. cbn in Hquery. destruct Hquery as (z & Hz & ->). constructor; assumption.
Qed.
Lemma tail_vchar h po p q : uri_host h -> port_opt po -> p = [] \/ abs_path p -> query_text q -> Forall vchar (h ++ po ++ p ++ q).
Proof.
  intros Hh Hpo Hp Hq. apply Forall_app. split; [apply host_vchar, Hh|]. apply Forall_app. split; [apply port_vchar, Hpo|].
  apply Forall_app. split; [|apply query_vchar, Hq]. destruct Hp as [->|Hp]; [constructor|apply abs_path_vchar, Hp].
Qed.
Definition users := Forall (fun b => vchar b /\ ~ In b (str "@/?")).
Lemma users_vchar x : users x -> Forall vchar x.
Proof. apply Forall_impl. intros b [K _]. exact K. Qed.
Lemma login_form s s0 a b h po p q u us pw d n : legal_scheme s -> own_port s s0 -> users a -> users b -> ~ In 58 a ->
  uri_host h -> port_opt po -> p = [] \/ abs_path p -> query_text q ->
  u_scheme u = s -> u_user u = Some us -> u_pass u = Some pw -> u_domain u = Some d -> u_port u = Some n -> n < 65536 ->
  text_of a us -> text_of b pw -> text_of h d -> port_meant s0 po n -> path_meant p (u_path u) -> query_meant q (u_query u) ->
  (url_parse (scheme_str s ++ str "://" ++ (a ++ 58 :: b ++ [64]) ++ h ++ po ++ p ++ q) = Ok u <->
   ~ In 58 b /\ ~ In 58 h /\ po <> [58] /\ ~ In 64 (p ++ q) /\ (p = [] -> q = [])).
Proof.
  intros L Def Ha Hb Na Hh Hpo Hp Hq U1 U2 U3 U4 U5 Hn Ta Tb Hd Hport Hpath Hquery.
  pose proof (tail_vchar _ _ _ _ Hh Hpo Hp Hq) as Vt. set (Z := h ++ po ++ p ++ q) in *.
  replace ((a ++ 58 :: b ++ [64]) ++ Z) with (a ++ 58 :: b ++ 64 :: Z) by (rewrite <- app_assoc; cbn; rewrite <- app_assoc; reflexivity).
  rewrite url_means_iff.
  2:{ apply bytes_vchar. apply Forall_app. split; [apply legal_vchar, L|]. apply Forall_app. split; [vlist|]. apply Forall_app. split; [apply users_vchar, Ha|].
      constructor; [unfold vchar; lia|]. apply Forall_app. split; [apply users_vchar, Hb|]. constructor; [unfold vchar; lia|exact Vt]. }
  assert (N64 : ~ In 64 (a ++ 58 :: b)).
  { rewrite in_app_iff. cbn. intros [K|[K|K]]; [revert K; apply user_not; [exact Ha|cbn; auto]|discriminate|revert K; apply user_not; [exact Hb|cbn; auto]]. }
  assert (N63 : ~ In 63 (a ++ 58 :: b)).
  { rewrite in_app_iff. cbn. intros [K|[K|K]]; [revert K; apply user_not; [exact Ha|cbn; auto]|discriminate|revert K; apply user_not; [exact Hb|cbn; auto]]. }
  assert (N47 : ~ In 47 (a ++ 58 :: b)).
  { rewrite in_app_iff. cbn. intros [K|[K|K]]; [revert K; apply user_not; [exact Ha|cbn; auto]|discriminate|revert K; apply user_not; [exact Hb|cbn; auto]]. }
  destruct (host_no h Hh) as (Hn1 & Hn2 & Hn3). destruct (port_no po Hpo) as (On1 & On2 & On3).
  destruct u as [sc pa us' pw' dom pt qu]. cbn [u_path u_query u_user u_pass u_domain u_port u_scheme] in *. subst sc us' pw' dom pt. split.
  - intros H. remember (scheme_str s ++ str "://" ++ a ++ 58 :: b ++ 64 :: Z) as l eqn:E.
    inversion H as [a1 p1 q1 o1 Hpa Npa Hqq E1 E2|s2 k us2 pw2 h2 d2 pp n2 pa2 p2 qq q2 L2 Huser Hh2 Hd2 Hpp Hpa Hqq Hempty E1 E2|
                    s2 k h2 us2 pp n2 t pw2 r d2 L2 Lk Hh2 Hus Hpp Ht Hpw Hr Hd2 E1 E2|s2 k h2 us2 pp n2 t pw2 r p2 y q2|s2 k h2 us2 pp n2 t p2 y pw2 z q2].
    + subst s2 p2 us2 pw2 d2 n2 q2. rewrite E in E1. apply app_inv_head in E1. apply app_inv_head in E1.
      inversion Huser as [|k0 a0 c t us1 pw1 Lk Fa0 Hc Ft Tus Tpw E3 E4 E5]; subst us1 pw1 k.
      destruct Lk as [|a1 c1 t1 l1 Fa1 Hc1 Ft1 Lk].
      * cbn [app] in E1. replace ((a0 ++ c :: t ++ [64]) ++ h2 ++ pp ++ pa2 ++ qq) with ((a0 ++ c :: t) ++ 64 :: (h2 ++ pp ++ pa2 ++ qq)) in E1
          by (rewrite <- !app_assoc; cbn; rewrite <- app_assoc; reflexivity).
        replace (a ++ 58 :: b ++ 64 :: Z) with ((a ++ 58 :: b) ++ 64 :: Z) in E1 by (rewrite <- app_assoc; reflexivity).
        apply cut_first in E1 as [E1 E6]; [|rewrite in_app_iff; cbn; intros [K|[K|K]]; [revert K; apply (part_notin 64 a0 Fa0); unfold delim; cbn; auto|lia|revert K; apply (secret_notin 64 t Ft); [unfold delim; cbn; auto|lia]]|exact N64].
        assert (c = 58) as ->. { destruct Hc as [->| ->]; [reflexivity|]. exfalso. apply N63. rewrite <- E1. apply in_app_iff. right. left. reflexivity. }
        apply cut_first in E1 as [-> ->]; [|apply (part_notin 58 a0 Fa0); unfold delim; cbn; auto|exact Na].
        split; [apply (secret_notin 58 b Ft); [unfold delim; cbn; auto|lia]|].
        apply (absolute_form s s0 h po p q (mkUrl s pa None None (Some d) (Some n) qu) d n); try assumption; try reflexivity.
        apply url_means_iff.
        { apply bytes_vchar. apply Forall_app. split; [apply legal_vchar, L|]. apply Forall_app. split; [vlist|exact Vt]. }
        fold Z. rewrite <- E6. apply (um_absolute s [] None None h2 d pp n pa2 pa qq qu); try assumption. constructor.
      * exfalso. replace (((a1 ++ c1 :: t1 ++ 64 :: l1) ++ a0 ++ c :: t ++ [64]) ++ h2 ++ pp ++ pa2 ++ qq) with ((a1 ++ c1 :: t1) ++ 64 :: (l1 ++ a0 ++ c :: t) ++ 64 :: (h2 ++ pp ++ pa2 ++ qq)) in E1
          by (repeat (rewrite <- !app_assoc; cbn); reflexivity).
        replace (a ++ 58 :: b ++ 64 :: Z) with ((a ++ 58 :: b) ++ 64 :: Z) in E1 by (rewrite <- app_assoc; reflexivity).
        apply cut_first in E1 as [_ E6]; [|rewrite in_app_iff; cbn; intros [K|[K|K]]; [revert K; apply (part_notin 64 a1 Fa1); unfold delim; cbn; auto|lia|revert K; apply (secret_notin 64 t1 Ft1); [unfold delim; cbn; auto|lia]]|exact N64].
        assert (N1 : ~ In 64 (h ++ po)) by (rewrite in_app_iff; tauto).
        destruct Hp as [->|Hp].
        -- destruct (query_head q Hq) as [->|[y ->]].
           ++ apply N1. unfold Z in E6. rewrite !app_nil_r in E6. rewrite <- E6. apply in_app_iff. right. left. reflexivity.
           ++ cbn in Hquery. destruct Hquery as (z & Hz & ->). inversion Hqq as [|t' z' Ft' Ht' E7 E8]; subst qq z'.
              assert (E7 : ((l1 ++ a0 ++ c :: t) ++ 64 :: h2 ++ pp ++ pa2) ++ 63 :: t' = (h ++ po) ++ 63 :: y).
              { etransitivity; [|etransitivity; [exact E6|unfold Z; rewrite <- app_assoc; reflexivity]]. repeat (rewrite <- !app_assoc; cbn). reflexivity. }
              clear E6. rename E7 into E6.
              assert (exists w, y = w ++ 63 :: t') as (w & ->).
              { destruct (app_eq_app _ _ _ _ E6) as (w & [[E7 E8]|[E7 E8]]).
                - destruct w as [|x w]; [exfalso; apply N1; rewrite app_nil_r in E7; rewrite <- E7, !in_app_iff; cbn; tauto|].
                  cbn in E8. injection E8 as _ ->. eauto.
                - exfalso. apply N1. rewrite E7, !in_app_iff. cbn. tauto. }
              destruct Hz as [Hz _]. apply P_Rfc9112.pct_split in Hz as (s1 & s2 & -> & _ & P2); [|lia|apply hex_not; cbn; auto]. destruct Ht' as [Ht' _].
              pose proof (pct_form_unique _ _ _ P2 Ht') as F. apply (f_equal (@length _)) in F. rewrite app_length in F. cbn in F. lia.
        -- destruct Hp as [p' Hp']. unfold Z in E6. rewrite (app_assoc h po) in E6. cbn [app] in E6.
           apply (clash 64 47 _ _ _ _) in E6; [exact E6|lia| |exact N1].
           rewrite !in_app_iff. cbn. intros [K|[K|[K|K]]]; [exact (logins_no_slash _ Lk K)|revert K; apply (part_notin 47 a0 Fa0); unfold delim; cbn; auto|lia|revert K; apply (secret_notin 47 t Ft); [unfold delim; cbn; auto|lia]].
    + exfalso. subst s2 us2 pw2 d2 n2. assert (Eq : q = []). { destruct q; [reflexivity|]. cbn in Hquery. destruct Hquery as (? & _ & K). congruence. }
      rewrite E in E1. apply app_inv_head in E1. apply app_inv_head in E1. unfold Z in E1. rewrite Eq, app_nil_r in E1.
      assert (N1 : ~ In 47 (k ++ h2 ++ pp)).
      { rewrite !in_app_iff. intros [K|[K|K]]; [exact (logins_no_slash _ Lk K)|revert K; apply (part_notin 47 h2 Hh2); unfold delim; cbn; auto|revert K; eapply P_UrlExact.port_no; eauto]. }
      assert (N2 : ~ In 47 ((a ++ 58 :: b) ++ 64 :: h ++ po)).
      { intros K. apply in_app_iff in K as [K|[K|K]]; [contradiction|discriminate|]. apply in_app_iff in K as [K|K]; contradiction. }
      replace (k ++ h2 ++ pp ++ 47 :: t ++ 64 :: r) with ((k ++ h2 ++ pp) ++ 47 :: t ++ 64 :: r) in E1 by (rewrite <- !app_assoc; reflexivity).
      destruct Hp as [->|Hp].
      * apply N2. rewrite app_nil_r in E1. rewrite <- app_assoc. cbn [app]. rewrite <- E1. apply in_app_iff. right. left. reflexivity.
      * destruct Hp as [p' Hp']. replace (a ++ 58 :: b ++ 64 :: h ++ po ++ 47 :: p') with (((a ++ 58 :: b) ++ 64 :: h ++ po) ++ 47 :: p') in E1
          by (repeat (rewrite <- !app_assoc; cbn); reflexivity).
        apply cut_first in E1 as [_ <-]; [|assumption..]. subst pa. unfold path_meant in Hpath. rewrite blen_cons in Hpath.
        replace (1 + blen (t ++ 64 :: r) =? 0) with false in Hpath by lia. destruct Hpath as [Hpath _].
        change (47 :: t ++ 64 :: r) with ((47 :: t) ++ 64 :: r) in Hpath. apply P_Rfc9112.pct_split in Hpath as (s1 & s2 & E7 & P1 & _); [|lia|apply hex_not; cbn; auto].
        inversion P1; subst. apply (f_equal (@length _)) in E7. rewrite app_length in E7. cbn in E7. lia.
  - intros (C0 & C1 & C2 & C3 & C4).
    destruct (abs_parts s s0 h po p q d n pa qu) as (Q1 & Q2 & Q3 & Q4); try assumption.
    replace (a ++ 58 :: b ++ 64 :: Z) with ((a ++ 58 :: b ++ [64]) ++ h ++ po ++ p ++ q) by (unfold Z; rewrite <- app_assoc; cbn; rewrite <- app_assoc; reflexivity).
    apply (um_absolute s (a ++ 58 :: b ++ [64]) (Some us) (Some pw) h d po n p pa q qu); try assumption.
    assert (Pb : Forall part_char b) by (apply user_parts; assumption).
    apply (up_last [] a 58 b us pw); [constructor|apply user_parts; assumption|auto| |exact Ta|].
    + eapply Forall_impl; [|exact Pb]. intros x K. left. exact K.
    + replace (filter (fun b0 => negb (b0 =? 63)) b) with b; [exact Tb|]. symmetry. clear - Hb. induction Hb as [|x b [_ K] _ IH]; [reflexivity|].
      cbn. replace (x =? 63) with false by (cbn in K; lia). cbn. rewrite IH. reflexivity.
Qed.

(** ** Any URI without a fragment *)
Lemma scheme_shown t s : scheme_name t -> legal_scheme s -> forall x y, t ++ str "://" ++ x = scheme_str s ++ str "://" ++ y -> t = scheme_str s /\ x = y.
Proof.
  intros T L x y E. change (str "://") with (58 :: str "//") in E. cbn [app] in E. apply cut_first in E as [-> E]; [|apply name_no_colon, T|apply scheme_no_colon, L].
  split; [reflexivity|]. apply app_inv_head in E. exact E.
Qed.
Lemma means_scheme t x u : scheme_name t -> url_means (t ++ str "://" ++ x) u -> u_domain u <> None -> legal_scheme (u_scheme u) /\ t = scheme_str (u_scheme u).
Proof.
  intros T H D. remember (t ++ str "://" ++ x) as l eqn:E.
  destruct H as [pa s' qq o|s' k' us pw h' d' pp n' pa s'' qq o L|s' k' h' us pp n' t0 pw r d' L|s' k' h' us pp n' t0 pw r s'' y o L|s' k' h' us pp n' t0 s'' y pw z o L];
    cbn in D |- *; try contradiction; (split; [exact L|]); symmetry in E; eapply scheme_shown in E; try eassumption; apply E.
Qed.
Lemma known_scheme t : In t known_schemes -> exists s, scheme_str s = t /\ legal_scheme s /\ forall x, s <> ScExt x.
Proof.
  cbn. intros [<-|[<-|[<-|[<-|[<-|[]]]]]]; [exists ScHttp|exists ScHttps|exists ScWs|exists ScWss|exists ScFtp]; (split; [reflexivity|split; [constructor|discriminate]]).
Qed.
Lemma legal_known s : legal_scheme s -> (forall x, s <> ScExt x) -> In (scheme_str s) known_schemes.
Proof. intros [| | | | |b t _ _ _ _] N; try (cbn; auto 10). exfalso. eapply N. reflexivity. Qed.
Lemma legal_length s : legal_scheme s -> (length (scheme_str s) <= 64)%nat.
Proof. intros [| | | | |b t _ _ K _]; cbn in *; lia. Qed.
Lemma scheme_there t : scheme_name t -> (length t <= 64)%nat -> (In (map lower_byte t) known_schemes -> In t known_schemes) ->
  exists s, legal_scheme s /\ scheme_str s = t /\ scheme_meant t s.
Proof.
  intros T Le Lo. destruct (in_dec (list_eq_dec N.eq_dec) t known_schemes) as [K|K].
  - destruct (known_scheme t K) as (s & E & L & X). exists s. split; [exact L|]. split; [exact E|]. split; [rewrite E; reflexivity|]. intros _. exact X.
  - destruct T as [b s Hb Hs]. exists (ScExt (b :: s)). split; [constructor; [exact Hb|exact Hs|cbn in Le; lia|exact K]|]. split; [reflexivity|].
    split; [reflexivity|]. intros Q. exfalso. exact (K (Lo Q)).
Qed.
Lemma port_exists s : exists n, own_port s n /\ n < 65536.
Proof. exists (default_port s). split; [apply default_port_spec; reflexivity|]. destruct s; reflexivity. Qed.
Lemma own_unique s a b : own_port s a -> own_port s b -> a = b.
Proof. intros A B. apply default_port_spec in A, B. congruence. Qed.
Lemma login_split x : userinfo_opt x -> x = [] \/ exists k, x = k ++ [64] /\ users k.
Proof. intros [|k K]; [left; reflexivity|right]. exists k. split; [reflexivity|]. apply user_chars, K. Qed.
Lemma users_app a b : users (a ++ b) <-> users a /\ users b.
Proof. apply Forall_app. Qed.
Lemma login_cut k a b : k ++ [64] = a ++ 58 :: b ++ [64] -> k = a ++ 58 :: b.
Proof. intros E. replace (a ++ 58 :: b ++ [64]) with ((a ++ 58 :: b) ++ [64]) in E by (rewrite <- app_assoc; reflexivity). apply app_inj_tail in E. apply E. Qed.
Lemma path_there p s : path_meant p s -> exists x, text_of p x.
Proof.
  unfold path_meant. destruct (blen p =? 0) eqn:E; [|eauto]. intros _. destruct p; [|rewrite blen_cons in E; lia]. exists []. split; [constructor|apply utf8_valid_iff; reflexivity].
Qed.
Lemma path_value p x : text_of p x -> exists s, path_meant p s.
Proof. unfold path_meant. destruct (blen p =? 0); eauto. Qed.
Lemma uri_exact r : uri_ok r -> ui_frag r = [] -> ((exists u, url_parse (uri_text r) = Ok u /\ uri_meant r u) <-> uri_readable r).
Proof.
  destruct r as [t k h po p q f]. unfold uri_ok, uri_text, uri_meant, uri_readable.
  cbn [ui_scheme ui_user ui_host ui_port ui_path ui_query ui_frag]. intros (T & K & H & O & P & Q & _) ->. rewrite app_nil_r.
  assert (By : bytes_ok (t ++ str "://" ++ k ++ h ++ po ++ p ++ q)).
  { apply bytes_vchar. apply Forall_app. split; [apply scheme_vchar, T|]. apply Forall_app. split; [vlist|]. apply Forall_app. split; [|apply tail_vchar; assumption].
    destruct (login_split k K) as [->|(x & -> & Ux)]; [constructor|]. apply Forall_app. split; [apply users_vchar, Ux|]. constructor; [unfold vchar; lia|constructor]. }
  assert (Port : forall s n0 n, own_port s n0 -> port_meant n0 po n -> n < 65536 -> po <> [58] -> po = [] \/ exists ds, po = 58 :: ds /\ ds <> [] /\ num_of ds < 65536).
  { intros s n0 n _ M Ln N. destruct O as [|ds F]; [left; reflexivity|right]. exists ds. split; [reflexivity|]. destruct ds as [|x ds]; [contradiction|].
    split; [discriminate|]. cbn in M. subst n. exact Ln. }
  assert (Qu : forall o, query_meant q o -> forall y, q = 63 :: y -> text_there y).
  { intros o M y ->. cbn in M. destruct M as (z & Z & _). exists z. exact Z. }
  split.
  - intros (u & U & Sm & Um & (d & Td & Ud) & (n0 & n & Own & Pm & Ln & Up) & Pa & Qm).
    destruct (means_scheme t (k ++ h ++ po ++ p ++ q) u T) as [L Et].
    { apply url_means_iff; assumption. }
    { rewrite Ud. discriminate. }
    split; [rewrite Et; apply legal_length, L|].
    split. { intros X. rewrite Et. apply legal_known; [exact L|]. destruct Sm as [_ Sm]. auto. }
    rewrite Et in U. destruct Um as [(-> & U2 & U3)|[(a & x & _ & _ & _ & U2 & U3)|(a & b & x & y & Ek & Na & Ta & Tb & U2 & U3)]].
    + cbn [app] in U. apply (absolute_form (u_scheme u) n0 h po p q u d n) in U; try assumption; try reflexivity.
      destruct U as (C1 & C2 & C3 & C4). split; [left; reflexivity|]. split; [exists d; exact Td|]. split; [exact C1|].
      split; [eapply Port; eassumption|]. split; [eapply path_there; exact Pa|]. split; [eapply Qu; exact Qm|]. auto.
    + exfalso. apply url_means_iff in U; [|rewrite <- Et; exact By].
      destruct U as [| ? ? ? ? ? ? ? ? ? ? ? ? ? Hu| | |]; cbn in U2, U3; try discriminate. destruct Hu; discriminate.
    + destruct (login_split k K) as [E0|(k0 & E0 & Uk)]; [rewrite E0 in Ek; destruct a; discriminate|]. rewrite E0 in Ek. apply login_cut in Ek. subst k0.
      apply users_app in Uk as [Ua Ub]. assert (Ub' : users b) by (inversion Ub; assumption).
      replace k with (a ++ 58 :: b ++ [64]) in * by (rewrite E0, <- app_assoc; reflexivity).
      apply (login_form (u_scheme u) n0 a b h po p q u x y d n) in U; try assumption; try reflexivity.
      destruct U as (C0 & C1 & C2 & C3 & C4). split; [right; exists a, b; split; [reflexivity|]; split; [rewrite in_app_iff; tauto|]; split; [exists x; exact Ta|exists y; exact Tb]|].
      split; [exists d; exact Td|]. split; [exact C1|].
      split; [eapply Port; eassumption|]. split; [eapply path_there; exact Pa|]. split; [eapply Qu; exact Qm|]. auto.
  - intros (Le & Lo & Lf & (d & Td) & C1 & Po & (pa & Tp) & Tq & C3 & C4).
    destruct (scheme_there t T Le Lo) as (s & L & <- & Sm). destruct (port_exists s) as (n0 & Own & Ln0).
    assert (exists n, n < 65536 /\ port_meant n0 po n) as (n & Ln & Pm).
    { destruct Po as [->|(ds & -> & Nd & C2)]; [exists n0; split; [exact Ln0|reflexivity]|]. exists (num_of ds). split; [exact C2|]. destruct ds; [congruence|reflexivity]. }
    assert (exists o, query_meant q o) as (o & Qm).
    { destruct Q as [|y Y]; [exists None; reflexivity|]. destruct (Tq y eq_refl) as (z & Z). exists (Some z). cbn. eauto. }
    destruct (path_value p pa Tp) as (pv & Pv). clear pa Tp.
    assert (C2 : po <> [58]). { destruct Po as [->|(ds & -> & Nd & _)]; congruence. }
    destruct Lf as [->|(a & b & Ek & Nab & (us & Ta) & (pw & Tb))].
    + exists (mkUrl s pv None None (Some d) (Some n) o). cbn [u_path u_query u_user u_pass u_domain u_port u_scheme]. split.
      * cbn [app]. apply (absolute_form s n0 h po p q _ d n); try assumption; try reflexivity. auto.
      * split; [exact Sm|]. split; [left; auto|]. split; [eauto|]. split; [exists n0, n; auto|]. auto.
    + rewrite in_app_iff in Nab. destruct (login_split k K) as [E0|(k0 & E0 & Uk)]; [rewrite E0 in Ek; destruct a; discriminate|].
      pose proof Ek as Ek2. rewrite E0 in Ek2. apply login_cut in Ek2. subst k0. apply users_app in Uk as [Ua Ub]. assert (Ub' : users b) by (inversion Ub; assumption).
      rewrite Ek. exists (mkUrl s pv (Some us) (Some pw) (Some d) (Some n) o). cbn [u_path u_query u_user u_pass u_domain u_port u_scheme]. split.
      * apply (login_form s n0 a b h po p q _ us pw d n); try assumption; try reflexivity; tauto.
      * split; [exact Sm|]. split; [right; right; exists a, b, us, pw; tauto|]. split; [eauto|]. split; [exists n0, n; auto|]. auto.
Qed.

(** ** Fragments *)
(** How often '#' is said, written or escaped. *)
Definition marks (s : bytes) : nat := length (filter (N.eqb 35) s).
Lemma marks_app a b : marks (a ++ b) = (marks a + marks b)%nat.
Proof. unfold marks. rewrite filter_app, app_length. reflexivity. Qed.
Lemma marks_cons b s : marks (b :: s) = ((if (35 =? b)%N then 1 else 0) + marks s)%nat.
Proof. unfold marks. cbn [filter]. destruct (35 =? b); reflexivity. Qed.
Lemma marks_nil : marks [] = 0%nat. Proof. reflexivity. Qed.
Lemma pct_join a s b t : pct_form a s -> pct_form b t -> pct_form (a ++ b) (s ++ t).
Proof. intros A B. induction A as [|c l s Nc _ IH|h x k y l s H1 H2 _ IH]; [exact B|apply pf_char; assumption|apply pf_esc; assumption]. Qed.
Lemma pct_chars (P : N -> Prop) l : (forall b, P b -> b <> 37) -> pct_text P l -> exists s, pct_form l s.
Proof.
  intros N. induction 1 as [|b l Pb _ (s & IH)|h k l (x & Hx) (y & Hy) _ (s & IH)]; [exists []; constructor|exists (b :: s); apply pf_char; auto|].
  exists (16 * x + y :: s). apply pf_esc; assumption.
Qed.
Lemma marks_filter l s : pct_form l s -> exists s', pct_form (filter (fun b => negb (b =? 63)) l) s' /\ marks s' = marks s.
Proof.
  induction 1 as [|b l s Nb _ (s' & IH & E)|h x k y l s Hh Hk _ (s' & IH & E)].
  - exists []. split; [constructor|reflexivity].
  - cbn [filter]. destruct (N.eqb_spec b 63) as [->|N]; cbn [negb].
    + exists s'. split; [exact IH|]. rewrite marks_cons, E. reflexivity.
    + exists (b :: s'). split; [apply pf_char; assumption|]. rewrite !marks_cons, E. reflexivity.
  - assert (X : h <> 63 /\ k <> 63). { split; intros ->; eapply (hex_not 63); try (exists x; exact Hh); try (exists y; exact Hk); cbn; auto. }
    destruct X as [X Y]. cbn [filter]. replace (37 =? 63) with false by reflexivity. replace (h =? 63) with false by lia. replace (k =? 63) with false by lia. cbn [negb].
    exists (16 * x + y :: s'). split; [apply pf_esc; assumption|]. rewrite !marks_cons, E. reflexivity.
Qed.
Lemma marks_digits ds : Forall digit ds -> marks ds = 0%nat.
Proof. induction 1 as [|b l D _ IH]; [reflexivity|]. rewrite marks_cons, IH. unfold digit in D. replace (35 =? b) with false by lia. reflexivity. Qed.
Lemma marks_port s pp n x : port_part s pp n -> pct_form pp x -> marks x = 0%nat.
Proof.
  intros [m _|c t ds m Hc Ht Hds Hm] F; [inversion F; reflexivity|]. inversion F as [|b l s1 N1 F1 E1 E2|]; subst; [|destruct Hc; discriminate].
  rewrite marks_cons. replace (35 =? c) with false by lia. destruct (marks_filter _ _ F1) as (s' & G & <-). destruct Hds as [Hds _].
  rewrite (pct_form_unique _ _ _ G Hds). destruct Hm as (_ & es & _ & Fe & [->| ->] & _); [apply marks_digits, Fe|].
  rewrite marks_cons, marks_digits by exact Fe. reflexivity.
Qed.
Lemma marks_path p s x : path_meant p s -> pct_form p x -> marks x = marks s.
Proof.
  unfold path_meant. destruct (blen p =? 0) eqn:E.
  - destruct p; [|rewrite blen_cons in E; lia]. intros -> F. inversion F. reflexivity.
  - intros [M _] F. rewrite (pct_form_unique _ _ _ M F). reflexivity.
Qed.
Lemma marks_path_part p s x : path_part p s -> pct_form p x -> marks x = marks s.
Proof. intros [|t s' _ [M _]] F; [inversion F; reflexivity|]. rewrite (pct_form_unique _ _ _ M F). reflexivity. Qed.
Definition query_marks (o : option bytes) : nat := match o with Some z => marks z | None => 0%nat end.
Lemma marks_query q o x : query_text q -> query_meant q o -> pct_form q x -> marks x = query_marks o.
Proof.
  intros [|y _] M F; cbn in M; [subst o; inversion F; reflexivity|]. destruct M as (z & [Z _] & ->).
  inversion F as [|b l s1 N1 F1 E1 E2|]; subst. rewrite marks_cons, (pct_form_unique _ _ _ F1 Z). reflexivity.
Qed.
Lemma marks_query_part q o x : query_part q o -> pct_form q x -> marks x = query_marks o.
Proof.
  intros [|t z _ [Z _]] F; [inversion F; reflexivity|]. inversion F as [|b l s1 N1 F1 E1 E2|]; subst. rewrite marks_cons, (pct_form_unique _ _ _ F1 Z). reflexivity.
Qed.
Lemma query_form q o : query_text q -> query_meant q o -> exists x, pct_form q x.
Proof. intros [|y _] M; cbn in M; [exists []; constructor|]. destruct M as (z & [Z _] & _). exists (63 :: z). apply pf_char; [lia|exact Z]. Qed.
Lemma port_form po : port_opt po -> pct_form po po /\ marks po = 0%nat.
Proof.
  intros [|ds F]; [split; [constructor|reflexivity]|]. destruct (digits_form _ F) as ((D & _) & _). split; [apply pf_char; [lia|exact D]|].
  rewrite marks_cons, marks_digits by exact F. reflexivity.
Qed.
Lemma pct_take a b s : pct_form (a ++ b) s -> (b = [] \/ exists c z, b = c :: z /\ In c (str ":@/?")) -> exists s1 s2, s = s1 ++ s2 /\ pct_form a s1 /\ pct_form b s2.
Proof.
  intros F [->|(c & z & -> & C)].
  - rewrite app_nil_r in F. exists s, []. rewrite app_nil_r. split; [reflexivity|]. split; [exact F|constructor].
  - apply P_Rfc9112.pct_split in F as (s1 & s2 & -> & F1 & F2); [|cbn in C; lia|apply hex_not, C]. exists s1, (c :: s2). split; [reflexivity|]. split; [exact F1|].
    apply pf_char; [cbn in C; lia|exact F2].
Qed.
Lemma fragment_tail s h po p q f h2 d pp n pa2 pa qq qu : uri_host h -> port_opt po -> query_text q ->
  pct_text (fun b => pchar b \/ In b (str "/?")) f -> text_of h d -> path_meant p pa -> query_meant q qu ->
  text_of h2 d -> port_part s pp n -> path_part pa2 pa -> query_part qq qu -> h2 ++ pp ++ pa2 ++ qq <> h ++ po ++ p ++ q ++ 35 :: f.
Proof.
  intros Hh O Q F [Td _] Pm Qm [Td2 _] Pp Pa Qp E. destruct (pct_prefix _ _ _ _ _ Td2 Td E) as [_ E2]. clear E.
  destruct (port_form po O) as [Fo Mo]. destruct (path_there _ _ Pm) as (xp & Fp & _). destruct (query_form _ _ Q Qm) as (xq & Fq).
  destruct (pct_chars (fun b => pchar b \/ In b (str "/?")) f) as (xf & Ff); [|exact F|].
  { intros b [K|K]; [apply pchar_vchar in K|]; [|cbn in K; lia]. intros ->. destruct K as [_ K]. cbn in K. tauto. }
  assert (W : pct_form (pp ++ pa2 ++ qq) (po ++ xp ++ xq ++ 35 :: xf)).
  { rewrite E2. apply pct_join; [exact Fo|]. apply pct_join; [exact Fp|]. apply pct_join; [exact Fq|]. apply pf_char; [lia|exact Ff]. }
  destruct (pct_take _ _ _ W) as (s1 & s2 & Es & F1 & F2).
  { destruct Pa as [|t0 s0 _ _]; [destruct Qp as [|t0 s0 _ _]; [auto|]; right; exists 63, t0; cbn; auto 10|right; exists 47, (t0 ++ qq); cbn; auto 10]. }
  destruct (pct_take _ _ _ F2) as (s3 & s4 & -> & F3 & F4).
  { destruct Qp as [|t0 s0 _ _]; [auto|]. right. exists 63, t0. cbn. auto 10. }
  apply (f_equal marks) in Es. rewrite !marks_app, marks_cons, Mo, (marks_path _ _ _ Pm Fp), (marks_query _ _ _ Q Qm Fq), (marks_port _ _ _ _ Pp F1), (marks_path_part _ _ _ Pa F3), (marks_query_part _ _ _ Qp F4) in Es.
  rewrite N.eqb_refl in Es. lia.
Qed.
Lemma fragment_lost r u : uri_ok r -> ui_frag r <> [] -> ~ In 64 (ui_path r ++ ui_query r ++ ui_frag r) -> url_parse (uri_text r) = Ok u -> ~ uri_meant r u.
Proof.
  destruct r as [t k h po p q f]. unfold uri_ok, uri_text, uri_meant.
  cbn [ui_scheme ui_user ui_host ui_port ui_path ui_query ui_frag]. intros (T & K & H & O & P & Q & G) Nf At U (Sm & Um & (d & Td & Ud) & (n0 & n & Own & Pm & Ln & Up) & Pa & Qm).
  destruct G as [|f F]; [contradiction|].
  assert (By : bytes_ok (t ++ str "://" ++ k ++ h ++ po ++ p ++ q ++ 35 :: f)).
  { apply bytes_vchar. apply Forall_app. split; [apply scheme_vchar, T|]. apply Forall_app. split; [vlist|]. apply Forall_app. split.
    - destruct (login_split k K) as [->|(x & -> & Ux)]; [constructor|]. apply Forall_app. split; [apply users_vchar, Ux|]. constructor; [unfold vchar; lia|constructor].
    - replace (h ++ po ++ p ++ q ++ 35 :: f) with ((h ++ po ++ p ++ q) ++ 35 :: f) by (rewrite <- !app_assoc; reflexivity). apply Forall_app. split; [apply tail_vchar; assumption|].
      constructor; [unfold vchar; lia|]. assert (V : Forall vchar (63 :: f)) by (apply query_vchar; constructor; exact F). inversion V; assumption. }
  apply url_means_iff in U; [|exact By]. destruct (means_scheme t (k ++ h ++ po ++ p ++ q ++ 35 :: f) u T U) as [L Et]; [rewrite Ud; discriminate|].
  destruct (host_no h H) as (Hn1 & Hn2 & Hn3). destruct (port_no po O) as (On1 & On2 & On3).
  set (Y := h ++ po ++ p ++ q ++ 35 :: f) in *.
  assert (NY : ~ In 64 Y). { unfold Y. rewrite !in_app_iff in *. tauto. }
  remember (t ++ str "://" ++ k ++ Y) as l eqn:E.
  destruct U as [pa s' qq o|s k' us pw h2 d2 pp n2 pa2 p2 qq q2 L2 Huser Hh2 Hd2 Hpp Hpa Hqq Hempty|s k' h2 us pp n2 t2 pw r d2 L2 Lk Hh2 Hus Hpp Ht Hpw Hr Hd2|s k' h2 us pp n2 t2 pw r p2 y q2|s k' h2 us pp n2 t2 p2 y pw z q2];
    cbn [u_scheme u_domain u_port u_path u_query u_user u_pass] in *; try discriminate; injection Ud as ->; injection Up as ->; rewrite Et in E; apply app_inv_head in E; apply app_inv_head in E.
  - assert (N64 : ~ In 64 (h2 ++ pp ++ pa2 ++ qq)).
    { rewrite !in_app_iff. intros [X|[X|[X|X]]]; revert X; [apply (part_notin 64 h2 Hh2); unfold delim; cbn; auto|eapply P_UrlExact.port_no; eauto|eapply path_no; eauto|eapply query_no; eauto]. }
    enough (X : h2 ++ pp ++ pa2 ++ qq = Y).
    { revert X. unfold Y. eapply fragment_tail; eassumption. }
    destruct (login_split k K) as [->|(x & -> & Ux)].
    + destruct Huser as [|k0 a0 c t0 us pw Lk Fa0 Hc Ft Tus Tpw]; [exact E|]. exfalso. apply NY. cbn [app] in E. rewrite <- E. rewrite !in_app_iff. cbn. rewrite in_app_iff. cbn. tauto.
    + destruct Huser as [|k0 a0 c t0 us pw Lk Fa0 Hc Ft Tus Tpw].
      * exfalso. apply N64. cbn [app] in E. rewrite E, !in_app_iff. cbn. tauto.
      * replace ((k0 ++ a0 ++ c :: t0 ++ [64]) ++ h2 ++ pp ++ pa2 ++ qq) with ((k0 ++ a0 ++ c :: t0) ++ 64 :: h2 ++ pp ++ pa2 ++ qq) in E by (repeat (rewrite <- !app_assoc; cbn); reflexivity).
        rewrite <- (app_assoc x [64] Y) in E. cbn [app] in E. apply one_mark in E; [apply E|apply user_not; [exact Ux|cbn; auto]|exact NY].
  - replace (k' ++ h2 ++ pp ++ 47 :: t2 ++ 64 :: r) with ((k' ++ h2 ++ pp ++ 47 :: t2) ++ 64 :: r) in E by (repeat (rewrite <- !app_assoc; cbn); reflexivity).
    destruct (login_split k K) as [->|(x & -> & Ux)].
    + apply NY. cbn [app] in E. rewrite <- E. apply in_app_iff. right. left. reflexivity.
    + rewrite <- (app_assoc x [64] Y) in E. cbn [app] in E. apply one_mark in E as [E _]; [|apply user_not; [exact Ux|cbn; auto]|exact NY].
      apply (user_not 47 x Ux); [cbn; auto|]. rewrite <- E, !in_app_iff. cbn. tauto.
Qed.

(** ** Display *)
Lemma esc_text (P : N -> Prop) s l : escaped s l -> (forall b, In b s -> safe_char b -> P b) -> pct_text P l.
Proof.
  induction 1 as [|b s l Hs _ IH|b h x k y s l Hs E H1 H2 _ IH]; intros K; [constructor|apply pt_char; [apply K; [left; reflexivity|exact Hs]|apply IH; intros; apply K; [right|]; assumption]|].
  apply pt_esc; [exists x; apply upper_hexv, H1|exists y; apply upper_hexv, H2|]. apply IH. intros. apply K; [right|]; assumption.
Qed.
Lemma safe_kinds b : safe_char b -> unreserved b \/ sub_delim b \/ In b (str ":@/?").
Proof. unfold safe_char, unreserved, sub_delim. cbn. intuition. Qed.
Lemma legal_name s : legal_scheme s -> scheme_name (scheme_str s).
Proof.
  intros [| | | | |b t Hb Ht _ _]; [..|constructor; assumption];
    [change (scheme_str ScHttp) with (104 :: [116; 116; 112])|change (scheme_str ScHttps) with (104 :: [116; 116; 112; 115])|change (scheme_str ScWs) with (119 :: [115])|change (scheme_str ScWss) with (119 :: [115; 115])|change (scheme_str ScFtp) with (102 :: [116; 112])];
    constructor; unfold alpha, lower; try lia; repeat (apply Forall_cons; [left; unfold lower; lia|]); apply Forall_nil.
Qed.
Lemma legal_meant s : legal_scheme s -> (forall x, s = ScExt x -> ~ In (map lower_byte x) known_schemes) -> scheme_meant (scheme_str s) s.
Proof. intros _ K. split; [reflexivity|]. intros I x ->. exact (K x eq_refl I). Qed.
Lemma display_uri u d : legal_url u -> u_domain u = Some d -> uri_host d -> (forall x, u_scheme u = ScExt x -> ~ In (map lower_byte x) known_schemes) ->
  exists r, uri_ok r /\ ui_frag r = [] /\ uri_text r = url_print u /\ uri_meant r u.
Proof.
  destruct u as [s pa us pw dom po qu]. unfold legal_url. cbn [u_scheme u_domain u_port u_user u_pass u_path u_query].
  intros (L & (d' & Ed' & Fd) & (n & -> & Ln) & Ui & Lp & Lq) -> Hd Ks. injection Ed' as ->.
  destruct (port_suffix_text s n L) as (o & E1 & E2). specialize (E1 (mkUrl s pa us pw (Some d') (Some n) qu) eq_refl eq_refl).
  destruct Lp as [Lp1 [Up Fp]]. destruct pa as [|b pa]; [discriminate|]. injection Lp1 as ->. destruct (enc_slash pa Up) as (ep & Ep).
  assert (Te : forall x, is_utf8 x -> text_of (url_encode x) x) by (intros x X; split; [apply enc_pct, X|exact X]).
  assert (exists k, userinfo_opt k /\ user_meant k us pw /\ (if is_some us || is_some pw then url_encode (opt_bytes us) ++ 58 :: url_encode (opt_bytes pw) ++ [64] else []) = k) as (k & K1 & K2 & K3).
  { eexists. split; [|split; [|reflexivity]]; destruct Ui as [[-> ->]|(a & b & -> & -> & [Ua Fa] & [Ub Fb])]; cbn [is_some orb opt_bytes].
    - constructor.
    - replace (url_encode a ++ 58 :: url_encode b ++ [64]) with ((url_encode a ++ 58 :: url_encode b) ++ [64]) by (rewrite <- app_assoc; reflexivity). constructor.
      assert (J : forall x, is_utf8 x -> (forall c, In c x -> ~ In c (str ":@/?")) -> pct_text (fun c => unreserved c \/ sub_delim c \/ c = 58) (url_encode x)).
      { intros x X F. apply (esc_text _ x); [apply enc_esc, X|]. intros c I S. apply F in I. apply safe_kinds in S. tauto. }
      assert (App : forall P x y, pct_text P x -> pct_text P y -> pct_text P (x ++ y)).
      { intros P x y X Y. induction X; [exact Y|apply pt_char; assumption|apply pt_esc; assumption]. }
      apply App; [apply J; assumption|]. apply pt_char; [auto|apply J; assumption].
    - left. auto.
    - right. right. exists (url_encode a), (url_encode b), a, b. split; [reflexivity|]. split; [|auto]. intros I.
      pose proof (enc_esc a Ua) as Es. assert (Q : pct_text (fun c => In c a /\ safe_char c) (url_encode a)) by (apply (esc_text _ a); auto).
      apply (pct_all _ (fun c => c <> 58)) in Q; [rewrite Forall_forall in Q; exact (Q 58 I eq_refl)|..].
      + intros c [Ic _] ->. apply (Fa 58 Ic). cbn. auto.
      + lia.
      + intros c Hc ->. exact (hex_not 58 ltac:(cbn; auto) Hc). }
  assert (exists q, query_text q /\ query_meant q qu /\ match qu with Some x => 63 :: url_encode x | None => [] end = q) as (q & Q1 & Q2 & Q3).
  { eexists. split; [|split; [|reflexivity]]; destruct Lq as [->|(x & -> & Ux & Fx)].
    - constructor.
    - constructor. apply (esc_text _ x); [apply enc_esc, Ux|]. intros c I S. apply safe_kinds in S as [S|[S|S]]; [left; left; exact S|left; right; left; exact S|].
      destruct S as [<-|[<-|[<-|[<-|[]]]]]; [left; right; right|left; right; right|right|right]; cbn; auto.
    - reflexivity.
    - exists x. auto. }
  exists (mkUri (scheme_str s) k d' (opt_text [58] o) (47 :: ep) q []).
  unfold uri_ok, uri_text, uri_meant. cbn [ui_scheme ui_user ui_host ui_port ui_path ui_query ui_frag u_scheme u_domain u_port u_user u_pass u_path u_query].
  split; [|split; [reflexivity|split]].
  - split; [apply legal_name, L|]. split; [exact K1|]. split; [exact Hd|]. split; [|split; [|split; [exact Q1|constructor]]].
    + destruct E2 as [[-> _]| ->]; [constructor|]. apply (po_some (dec_print n)). destruct (dec_print_decimal n) as (_ & D & _). exact D.
    + right. constructor. pose proof (enc_esc _ Up) as Es. rewrite Ep in Es. inversion Es as [|b s0 l0 Sb Es' E4 E5|]; subst. apply (esc_text _ pa); [exact Es'|].
      intros c I Sc. assert (X : ~ In c (str "@?")) by (apply Fp; right; exact I). apply safe_kinds in Sc as [Sc|[Sc|Sc]]; [left; left; exact Sc|left; right; left; exact Sc|].
      destruct Sc as [<-|[<-|[<-|[<-|[]]]]]; [left; right; right; cbn; auto|exfalso; apply X; cbn; auto|right; reflexivity|exfalso; apply X; cbn; auto].
  - unfold url_print. cbn [u_scheme u_user u_pass u_domain u_path u_query]. rewrite E1, K3, Q3, Ep, legal_not_none by exact L. cbn [opt_bytes]. rewrite app_nil_r, <- !app_assoc. reflexivity.
  - split; [apply legal_meant; assumption|]. split; [exact K2|]. split.
    { exists d'. split; [|reflexivity]. split; [|apply utf8_valid_iff, utf8_valid_ascii].
      - clear - Fd. induction Fd as [|b l [_ Nb] _ IH]; [constructor|apply pf_char; assumption].
      - eapply Forall_impl; [|exact Fd]. intros b [[V _] _]. unfold vchar in V. lia. }
    split; [|split; [|exact Q2]].
    + exists (default_port s), n. split; [apply default_port_spec; reflexivity|]. split; [|auto]. destruct E2 as [[-> ->]| ->]; [reflexivity|].
      destruct (dec_print_decimal n) as (D1 & _ & D3). cbn [opt_text app port_meant]. destruct (dec_print n) eqn:Dp; [congruence|]. exact D3.
    + unfold path_meant. rewrite blen_cons. replace (1 + blen ep =? 0) with false by lia. rewrite <- Ep. apply Te, Up.
Qed.
(** '<' is not a character of URIs. *)
Lemma uri_chars r : uri_ok r -> Forall (fun b => b <> 60) (uri_text r).
Proof.
  intros (T & K & H & O & P & Q & F). unfold uri_text.
  assert (Un : forall b, unreserved b \/ sub_delim b -> b <> 60) by (intros b [[X|[X|X]]|X]; unfold alpha, upper, lower, digit in X; cbn in X; lia).
  assert (Hx : forall b, hex_byte b -> b <> 60). { intros b (d & X) ->. apply hexv_spec in X. discriminate. }
  assert (Pc : forall b, pchar b -> b <> 60). { intros b [X|[X|X]]; [apply Un; auto|apply Un; auto|cbn in X; lia]. }
  apply Forall_app. split.
  { destruct T as [b s Hb Hs]. constructor; [unfold alpha, upper, lower in Hb; lia|]. eapply Forall_impl; [|exact Hs]. intros c [X|[X|X]]; unfold alpha, upper, lower, digit in X; cbn in X; lia. }
  apply Forall_app. split; [cbn; repeat (apply Forall_cons; [lia|]); apply Forall_nil|].
  apply Forall_app. split. { destruct K as [|x K]; [constructor|]. apply Forall_app. split; [|constructor; [lia|constructor]]. eapply pct_all; [..|exact K]; [|lia|exact Hx]. intros b [X|[X| ->]]; [auto|auto|lia]. }
  apply Forall_app. split.
  { destruct H as [H|[a H]]; [eapply pct_all; [..|exact H]; [exact Un|lia|exact Hx]|]. constructor; [lia|]. apply Forall_app. split; [|constructor; [lia|constructor]].
    eapply Forall_impl; [|exact H]. intros b [X|[X| ->]]; [auto|auto|lia]. }
  apply Forall_app. split. { destruct O as [|ds O]; constructor; [lia|]. eapply Forall_impl; [|exact O]. intros b X. unfold digit in X. lia. }
  apply Forall_app. split. { destruct P as [->|[p P]]; [constructor|]. constructor; [lia|]. eapply pct_all; [..|exact P]; [|lia|exact Hx]. intros b [X| ->]; [auto|lia]. }
  apply Forall_app. split.
  - destruct Q as [|q Q]; constructor; [lia|]. eapply pct_all; [..|exact Q]; [|lia|exact Hx]. intros b [X|X]; [auto|cbn in X; lia].
  - destruct F as [|f F]; constructor; [lia|]. eapply pct_all; [..|exact F]; [|lia|exact Hx]. intros b [X|X]; [auto|cbn in X; lia].
Qed.
