(** Proofs about references (C133). *)
From Coq Require Import Ascii String NArith ZArith Lia Bool List ZifyBool ZifyNat ZifyN.
From Verif Require Import Base S_Utf8 P_Base M_Std M_Helper M_Header M_Url M_Http1 S_Hex S_Http1 S_Http1Api P_Std P_Helper P_Header P_Http1 P_Msg
  P_Chunk S_Map P_Map S_Url P_Url P_UrlForm S_UrlAll P_UrlAll P_UrlExact S_Build P_Build3 S_Reject P_Reject S_Rfc9112 P_Rfc9112 S_Rfc3986 P_Rfc3986 S_RfcShow P_RfcShow S_Redirect.
Import ListNotations.
Local Open Scope N_scope.

Lemma until_spec l : forall a r, until_slash l = (a, r) -> l = a ++ r /\ ~ In 47 a /\ (r = [] \/ exists z, r = 47 :: z).
Proof.
  induction l as [|b l IH]; cbn; intros a r E; [injection E as <- <-; auto|].
  destruct (b =? 47) eqn:B.
  - apply N.eqb_eq in B. injection E as <- <-. subst b. split; [reflexivity|]. split; [intros []|eauto].
  - destruct (until_slash l) as [a' r']. injection E as <- <-. destruct (IH a' r' eq_refl) as (-> & N & R). split; [reflexivity|]. split; [|exact R].
    intros [K|K]; [subst b; discriminate B|exact (N K)].
Qed.
Lemma starts_spec p : forall l, starts p l = true <-> exists r, l = p ++ r.
Proof.
  induction p as [|a p IH]; intros l; cbn; [split; [eauto|auto]|]. destruct l as [|b l]; [split; [discriminate|intros [r K]; discriminate]|].
  rewrite andb_true_iff, N.eqb_eq, IH. split; [intros [-> [r ->]]; eauto|]. intros [r K]. injection K as -> ->. eauto.
Qed.
Lemma dots_nil f out : dots_loop f [] out = out. Proof. destruct f; reflexivity. Qed.

(** A path that begins with '/' and whose first segment is [a]. *)
Lemma loop_step f a r out : ~ In 47 a -> (r = [] \/ exists z, r = 47 :: z) ->
  dots_loop (S f) (47 :: a ++ r) out =
    if beq a (str ".") then dots_loop f (if beq r [] then str "/" else r) out
    else if beq a (str "..") then dots_loop f (if beq r [] then str "/" else r) (drop_last out)
    else dots_loop f r (out ++ 47 :: a).
Proof.
  intros N R.
  assert (G : a <> str "." -> a <> str ".." -> dots_loop (S f) (47 :: a ++ r) out = dots_loop f r (out ++ 47 :: a)).
  { intros D1 D2.
    assert (E1 : forall d, ~ In 47 d -> a <> d -> starts (47 :: d ++ [47]) (47 :: a ++ r) = false).
    { intros d Nd Nad. destruct (starts (47 :: d ++ [47]) (47 :: a ++ r)) eqn:E; [|reflexivity]. apply starts_spec in E as [y E]. injection E as E. rewrite <- app_assoc in E.
      destruct (cut_at 47 a d r ([47] ++ y) N Nd R) as [K _]; [right; cbn; eauto|exact E|]. contradiction. }
    assert (E2 : forall d, ~ In 47 d -> a <> d -> beq (47 :: a ++ r) (47 :: d) = false).
    { intros d Nd Nad. destruct (beq (47 :: a ++ r) (47 :: d)) eqn:E; [|reflexivity]. apply beq_eq in E. injection E as E.
      destruct (cut_at 47 a d r [] N Nd R) as [K _]; [left; reflexivity|rewrite app_nil_r; exact E|]. contradiction. }
    cbn [dots_loop]. change (beq (47 :: a ++ r) []) with false. change (starts (str "../") (47 :: a ++ r)) with false. change (starts (str "./") (47 :: a ++ r)) with false.
    change (str "/./") with (47 :: str "." ++ [47]). rewrite E1 by (try exact D1; cbn; lia). change (str "/.") with (47 :: str "."). rewrite E2 by (try exact D1; cbn; lia).
    change (str "/../") with (47 :: str ".." ++ [47]). rewrite E1 by (try exact D2; cbn; lia). change (str "/..") with (47 :: str ".."). rewrite E2 by (try exact D2; cbn; lia).
    change (beq (47 :: a ++ r) (str ".")) with false. change (beq (47 :: a ++ r) (str "..")) with false. cbn [orb].
    destruct (until_slash (a ++ r)) as [a' r'] eqn:U. apply until_spec in U as (U & Na & Rr). destruct (cut_at 47 a a' r r' N Na R Rr U) as [-> ->]. reflexivity. }
  destruct (beq a (str ".")) eqn:B1.
  { apply beq_eq in B1. subst a. destruct R as [->|[z ->]]; reflexivity. }
  destruct (beq a (str "..")) eqn:B2.
  { apply beq_eq in B2. subst a. destruct R as [->|[z ->]]; reflexivity. }
  apply G; intros K; subst a; discriminate.
Qed.
Lemma first_segment l : l = [] \/ (exists z, l = 47 :: z) -> l = [] \/ exists a r, l = 47 :: a ++ r /\ ~ In 47 a /\ (r = [] \/ exists z, r = 47 :: z).
Proof.
  intros [->|[z ->]]; [left; reflexivity|right]. destruct (until_slash z) as [a r] eqn:U. apply until_spec in U as (-> & N & R). exists a, r. auto.
Qed.
Lemma dots_later a r : ~ In 47 a -> (r = [] \/ exists z, r = 47 :: z) -> dot_segments (47 :: a ++ r) <-> (a = str "." \/ a = str "..") \/ dot_segments r.
Proof.
  intros N R. split.
  - intros (x & d & b & E & D & B). destruct x as [|c x].
    + injection E as E. assert (Nd : ~ In 47 d) by (destruct D as [->| ->]; cbn; lia). destruct (cut_at 47 a d r b N Nd R B E) as [-> _]. left. exact D.
    + injection E as <- E. right. assert (L : exists y, x = a ++ y /\ r = y ++ 47 :: d ++ b).
      { revert x E. clear R. induction a as [|h a IH]; intros x E; [exists x; auto|]. destruct x as [|k x].
        - injection E as -> E. exfalso. apply N. left. reflexivity.
        - injection E as -> E. destruct (IH ltac:(intros K; apply N; right; exact K) x E) as (y & -> & ->). exists y. auto. }
      destruct L as (y & -> & ->). exists y, d, b. auto.
  - intros [D|(x & d & b & -> & D & B)].
    + exists [], a, r. auto.
    + exists (47 :: a ++ x), d, b. split; [cbn; rewrite <- app_assoc; reflexivity|auto].
Qed.
Lemma no_dots_nil : ~ dot_segments []. Proof. intros (x & d & b & E & _). destruct x; discriminate. Qed.
(** No dot segments: nothing is removed. *)
Lemma loop_plain f : forall l out, (length l < f)%nat -> l = [] \/ (exists z, l = 47 :: z) -> ~ dot_segments l -> dots_loop f l out = out ++ l.
Proof.
  induction f as [|f IH]; intros l out L B D; [lia|]. destruct (first_segment l B) as [->|(a & r & -> & N & R)]; [rewrite dots_nil, app_nil_r; reflexivity|].
  rewrite dots_later in D by assumption. rewrite (loop_step f a r out N R). cbn in L. rewrite app_length in L.
  destruct (beq a (str ".")) eqn:B1; [apply beq_eq in B1; tauto|]. destruct (beq a (str "..")) eqn:B2; [apply beq_eq in B2; tauto|].
  rewrite IH; [rewrite <- app_assoc; reflexivity|lia|exact R|tauto].
Qed.
Lemma drop_form out y : pct_form out y -> exists z, pct_form (drop_last out) z /\ (length z <= length y)%nat.
Proof.
  intros F. unfold drop_last. destruct (until_slash (rev out)) as [a r] eqn:U. apply until_spec in U as (U & N & R). cbn [snd].
  apply (f_equal (@rev _)) in U. rewrite rev_involutive, rev_app_distr in U. destruct R as [->|[z ->]].
  - exists []. cbn. split; [constructor|lia].
  - cbn [rev] in U. rewrite <- app_assoc in U. cbn [app] in U. rewrite U in F. apply P_Rfc9112.pct_split in F as (s1 & s2 & -> & F1 & F2); [|discriminate|apply hex_not; cbn; tauto].
    cbn [tl]. exists s1. split; [exact F1|]. rewrite app_length. lia.
Qed.
(** What is removed makes the path shorter, escapes resolved. *)
Lemma loop_less f : forall l out x y, (length l < f)%nat -> l = [] \/ (exists z, l = 47 :: z) -> pct_form l x -> pct_form out y ->
  exists z, pct_form (dots_loop f l out) z /\ (length z <= length x + length y)%nat /\ (dot_segments l -> (length z < length x + length y)%nat).
Proof.
  induction f as [|f IH]; intros l out x y L B X Y; [lia|]. destruct (first_segment l B) as [->|(a & r & -> & N & R)].
  - rewrite dots_nil. exists y. split; [exact Y|]. split; [lia|]. intros D. destruct (no_dots_nil D).
  - setoid_rewrite (dots_later a r N R). rewrite (loop_step f a r out N R). cbn in L. rewrite app_length in L.
    assert (X' : pct_form ((47 :: a) ++ r) x) by exact X.
    apply pct_take in X' as (x1 & x2 & -> & X1 & X2); [|destruct R as [->|[z ->]]; [auto|right; exists 47, z; cbn; tauto]].
    rewrite app_length.
    assert (K : forall out', a <> [] -> (1 < length x1)%nat -> (exists y', pct_form out' y' /\ (length y' <= length y)%nat) ->
      exists z, pct_form (dots_loop f (if beq r [] then str "/" else r) out') z /\ (length z < length x1 + length x2 + length y)%nat).
    { intros out' Na L1 (y' & Y' & Ly). assert (1 <= length a)%nat by (destruct a; [congruence|cbn; lia]).
      destruct (beq r []) eqn:E.
      - apply beq_eq in E. subst r. destruct (IH (str "/") out' (str "/") y') as (z & Z & Lz & _); [cbn; lia|right; exists []; reflexivity|apply pf_char; [discriminate|constructor]|exact Y'|].
        exists z. split; [exact Z|]. cbn in Lz. lia.
      - destruct (IH r out' x2 y') as (z & Z & Lz & _); [lia|exact R|exact X2|exact Y'|]. exists z. split; [exact Z|lia]. }
    destruct (beq a (str ".")) eqn:B1.
    { apply beq_eq in B1. subst a. inversion X1 as [|? ? s Nb H|]; subst. inversion H; subst.
      destruct (K out) as (z & Z & Lz); [discriminate|cbn; lia|exists y; auto|]. exists z. split; [exact Z|]. split; lia. }
    destruct (beq a (str "..")) eqn:B2.
    { apply beq_eq in B2. subst a. inversion X1 as [|? ? s Nb H|]; subst. inversion H; subst.
      destruct (K (drop_last out)) as (z & Z & Lz); [discriminate|cbn; lia|apply drop_form, Y|]. exists z. split; [exact Z|]. split; lia. }
    destruct (IH r (out ++ 47 :: a) x2 (y ++ x1)) as (z & Z & L1 & L2); [lia|exact R|exact X2|apply pct_join; assumption|]. rewrite app_length in L1, L2.
    exists z. split; [exact Z|]. split; [lia|]. intros [D|D]; [|specialize (L2 D); lia]. exfalso. destruct D as [->| ->]; discriminate.
Qed.
Lemma dots_plain p : p = [] \/ (exists z, p = 47 :: z) -> ~ dot_segments p -> remove_dots p = p.
Proof. intros B D. apply (loop_plain (S (length p)) p []); [lia|exact B|exact D]. Qed.
Lemma dots_less p x : p = [] \/ (exists z, p = 47 :: z) -> pct_form p x ->
  exists z, pct_form (remove_dots p) z /\ (length z <= length x)%nat /\ (dot_segments p -> (length z < length x)%nat).
Proof. intros B X. destruct (loop_less (S (length p)) p [] x [] ltac:(lia) B X pf_nil) as (z & Z & L1 & L2). cbn in L1, L2. rewrite Nat.add_0_r in L1, L2. eauto. Qed.

(** ** Paths *)
Definition path_fine (p : bytes) : Prop := p = [] \/ abs_path p.
Lemma fine_head p : path_fine p -> p = [] \/ exists z, p = 47 :: z. Proof. intros [->|[z _]]; eauto. Qed.
Lemma form_one z s : pct_form (47 :: z) s -> s = str "/" -> z = [].
Proof.
  intros F ->. inversion F as [|? ? ? Nb H|]; subst. inversion H; subst; reflexivity.
Qed.
Lemma meant_abs z s : path_meant (47 :: z) s <-> text_of (47 :: z) s. Proof. reflexivity. Qed.
Lemma root_meant p s : path_fine p -> path_meant p s -> (root p <-> s = str "/").
Proof.
  intros P M. destruct P as [->|P]; [|inversion P as [z Z E]; subst p].
  - cbn in M. split; [intros _; exact M|intros _; left; reflexivity].
  - apply meant_abs in M. destruct M as [M U]. split.
    + intros [K|K]; [discriminate|]. injection K as ->. inversion M as [|? ? ? Nb H|]; subst. inversion H; subst. reflexivity.
    + intros E. right. rewrite (form_one _ _ M E). reflexivity.
Qed.
Lemma meant_same p s s' : path_meant p s -> path_meant p s' -> s = s'.
Proof. unfold path_meant. destruct (blen p =? 0); [congruence|]. intros [A _] [B _]. eapply pct_form_unique; eassumption. Qed.
Lemma path_step p s pb sb : path_fine p -> path_meant p s -> path_fine pb -> path_meant pb sb ->
  (path_meant (remove_dots p) (if beq s (str "/") then sb else s) <-> ~ dot_segments p /\ (root p -> root pb)).
Proof.
  intros P M PB MB. pose proof (root_meant p s P M) as RP. pose proof (root_meant pb sb PB MB) as RB.
  assert (X : dot_segments p -> s <> str "/" /\ ~ path_meant (remove_dots p) s).
  { intros D. assert (F : pct_form p s).
    { destruct P as [->|P]; [destruct (no_dots_nil D)|]. inversion P as [z Z E]; subst p. apply meant_abs in M. apply M. }
    assert (NR : s <> str "/").
    { intros E. apply RP in E. destruct E as [->| ->]; [destruct (no_dots_nil D)|]. destruct D as (x & d & b & E & D & _).
      destruct x as [|c x]; [injection E as E; destruct D as [->| ->]; discriminate|]. injection E as _ E. destruct x; discriminate. }
    split; [exact NR|]. destruct (dots_less p s (fine_head p P) F) as (z & Z & _ & L). specialize (L D). intros K. unfold path_meant in K.
    destruct (blen (remove_dots p) =? 0); [contradiction|]. destruct K as [K _]. rewrite (pct_form_unique _ _ _ Z K) in L. lia. }
  destruct (beq s (str "/")) eqn:E.
  - apply beq_eq in E. assert (D : ~ dot_segments p) by (intros D; destruct (X D); contradiction). rewrite (dots_plain p (fine_head p P) D).
    assert (R : root p) by (apply RP, E). subst s. split.
    + intros K. split; [exact D|]. intros _. apply RB. exact (meant_same _ _ _ K M).
    + intros [_ K]. replace sb with (str "/") by (symmetry; apply RB, K, R). exact M.
  - assert (NE : s <> str "/") by (intros ->; rewrite (proj2 (beq_eq _ _) eq_refl) in E; discriminate). split.
    + intros K. split; [intros D; destruct (X D) as [_ Y]; contradiction|]. intros R. apply RP in R. contradiction.
    + intros [D _]. rewrite (dots_plain p (fine_head p P) D). exact M.
Qed.
Lemma query_step q o qb ob : query_text q -> query_meant q o -> query_text qb -> query_meant qb ob ->
  (query_meant q (merge_opt ob o) <-> (q = [] -> qb = [])).
Proof.
  intros Q M QB MB. destruct Q as [|y Y]; cbn in M.
  - subst o. cbn. destruct QB as [|z Z]; cbn in MB; [subst ob; tauto|]. destruct MB as (t & _ & ->). split; [discriminate|]. intros K. discriminate (K eq_refl).
  - destruct M as (t & T & ->). cbn. split; [discriminate|]. intros _. eauto.
Qed.

(** ** The four kinds of references *)
Lemma absolute_path_reference b u p q : uri_ok b -> uri_meant b u -> reference_ok (RAbs p q) ->
  ((exists v, url_parse (p ++ q) = Ok v /\ uri_meant (resolve b (RAbs p q)) (url_merge u v)) <->
   ~ In 64 (p ++ q) /\ text_there p /\ (forall y, q = 63 :: y -> text_there y) /\ ~ dot_segments p /\ (p = str "/" -> root (ui_path b)) /\ (q = [] -> ui_query b = [])).
Proof.
  intros (_ & _ & _ & _ & PB & QB & _) (M1 & M2 & M3 & M4 & M5 & M6) (P & _ & Q).
  assert (Pm : forall s, text_of p s -> path_meant p s).
  { intros s T. inversion P as [z Z E]. subst p. apply meant_abs. exact T. }
  assert (PR : (p = str "/" -> root (ui_path b)) <-> (root p -> root (ui_path b))).
  { split; intros K; [|intros ->; apply K; right; reflexivity]. intros [->|E]; [inversion P|exact (K E)]. }
  rewrite PR. clear PR. unfold resolve, uri_meant. cbn [ui_scheme ui_user ui_host ui_port ui_path ui_query].
  split.
  - intros (v & V & _ & _ & _ & _ & K5 & K6). apply (proj1 (origin_url p q v P Q)) in V as (s & o & N & T & O & ->). rewrite merge_path_or in K5. cbn [u_path u_query url_merge] in K5, K6.
    split; [exact N|]. split; [exists s; exact T|]. split.
    { intros y ->. cbn in O. destruct O as (z & Z & _). exists z. exact Z. }
    apply (path_step p s (ui_path b) (u_path u) (or_intror P) (Pm s T) PB M5) in K5 as [D R]. split; [exact D|]. split; [exact R|].
    apply (query_step q o (ui_query b) (u_query u) Q O QB M6). exact K6.
  - intros (N & (s & T) & TQ & D & R & QQ).
    assert (exists o, query_meant q o) as (o & O).
    { destruct Q as [|y Y]; [exists None; reflexivity|]. destruct (TQ y eq_refl) as (z & Z). exists (Some z). cbn. eauto. }
    exists (mkUrl ScNone s None None None (Some 0) o). split; [apply origin_url; [exact P|exact Q|]; exists s, o; auto|].
    rewrite merge_path_or, merge_scheme_or, merge_port_or. cbn [u_scheme u_path u_port scheme_eqb url_merge u_user u_pass u_domain u_query merge_opt]. change (0 =? 0) with true. cbn iota.
    split; [exact M1|]. split; [exact M2|]. split; [exact M3|]. split; [exact M4|]. split.
    + apply (path_step p s (ui_path b) (u_path u) (or_intror P) (Pm s T) PB M5). auto.
    + apply (query_step q o (ui_query b) (u_query u) Q O QB M6). exact QQ.
Qed.
Lemma login_both r us pw : uri_readable r -> user_meant (ui_user r) us pw -> (ui_user r = [] /\ us = None /\ pw = None) \/ (ui_user r <> [] /\ exists s t, us = Some s /\ pw = Some t).
Proof.
  intros (_ & _ & L & _) [(K & -> & ->)|[(a & s & K & Na & _ & -> & ->)|(a & b & s & t & K & _ & _ & _ & -> & ->)]].
  - left. auto.
  - exfalso. destruct L as [L|(x & y & L & _)]; [rewrite L in K; destruct a; discriminate|]. rewrite L in K.
    change (x ++ 58 :: y ++ [64]) with (x ++ (58 :: y) ++ [64]) in K. rewrite app_assoc in K. apply app_inj_tail in K as [K _]. apply Na. rewrite <- K. apply in_app_iff. right. left. reflexivity.
  - right. split; [rewrite K; destruct a; discriminate|eauto].
Qed.
Lemma legal_set s : legal_scheme s -> scheme_eqb s ScNone = false. Proof. intros []; reflexivity. Qed.
Lemma uri_reference b u r v : uri_ok b -> uri_meant b u -> reference_ok (RUri r) -> uri_readable r -> url_parse (uri_text r) = Ok v ->
  (uri_meant (resolve b (RUri r)) (url_merge u v) <->
   (ui_user r = [] -> ui_user b = []) /\ (u_port v = Some 0 -> u_port u = Some 0) /\ ~ dot_segments (ui_path r) /\ (root (ui_path r) -> root (ui_path b)) /\ (ui_query r = [] -> ui_query b = [])).
Proof.
  intros (_ & UB & _ & _ & PB & QB & _) (M1 & M2 & M3 & M4 & M5 & M6) [OK F] RD V.
  destruct (proj2 (uri_exact r OK F) RD) as (v' & V' & N1 & N2 & (d & N3 & N3') & (n0 & n & N4 & N4' & N4'' & N4p) & N5 & N6).
  rewrite V in V'. injection V' as <-. pose proof OK as (T & _ & _ & _ & P & Q & _).
  assert (L : legal_scheme (u_scheme v)).
  { apply (means_scheme (ui_scheme r) (ui_user r ++ ui_host r ++ ui_port r ++ ui_path r ++ ui_query r) v T); [|rewrite N3'; discriminate].
    apply url_means_iff; [|unfold uri_text in V; rewrite F, app_nil_r in V; exact V].
    destruct r as [t k h po p q f]. unfold uri_ok in OK. cbn [ui_scheme ui_user ui_host ui_port ui_path ui_query ui_frag] in *. destruct OK as (_ & K & H & O & _).
    apply bytes_vchar. apply Forall_app. split; [apply scheme_vchar, T|]. apply Forall_app. split; [vlist|]. apply Forall_app. split; [|apply tail_vchar; assumption].
    destruct (login_split k K) as [->|(x & -> & Ux)]; [constructor|]. apply Forall_app. split; [apply users_vchar, Ux|]. constructor; [unfold vchar; lia|constructor]. }
  pose proof (path_step (ui_path r) (u_path v) (ui_path b) (u_path u) P N5 PB M5) as PS.
  pose proof (query_step (ui_query r) (u_query v) (ui_query b) (u_query u) Q N6 QB M6) as QS.
  unfold resolve, uri_meant. cbn [ui_scheme ui_user ui_host ui_port ui_path ui_query].
  rewrite merge_path_or, merge_scheme_or, merge_port_or, (legal_set _ L), N4p. unfold default_path. cbn [url_merge u_user u_pass u_domain u_query].
  assert (US : user_meant (ui_user r) (merge_opt (u_user u) (u_user v)) (merge_opt (u_pass u) (u_pass v)) <-> (ui_user r = [] -> ui_user b = [])).
  { destruct (login_both r _ _ RD N2) as [(E & E1 & E2)|(E & s & t & E1 & E2)].
    - rewrite E1, E2, E. cbn [merge_opt]. split.
      + intros [(_ & A & B)|[(a & s & K & _)|(a & c & s & t & K & _)]]; [|destruct a; discriminate|destruct a; discriminate]. intros _.
        destruct M2 as [(M & _)|[(a & s & _ & _ & _ & M & _)|(a & c & s & t & _ & _ & _ & _ & M & _)]]; [exact M|congruence|congruence].
      + intros K. specialize (K eq_refl). rewrite K in M2. exact M2.
    - rewrite E1, E2 in *. cbn [merge_opt]. split; [intros _ K; contradiction|]. intros _. exact N2. }
  assert (PO : (exists n1 n2, own_port (u_scheme v) n1 /\ port_meant n1 (ui_port r) n2 /\ n2 < 65536 /\ (if n =? 0 then u_port u else Some n) = Some n2) <-> (Some n = Some 0 -> u_port u = Some 0)).
  { split.
    - intros (n1 & n2 & A & B & _ & C) E. injection E as ->. change (0 =? 0) with true in C. cbn iota in C. rewrite (own_unique _ _ _ A N4) in B.
      assert (n2 = 0). { unfold port_meant in B, N4'. destruct (ui_port r) as [|? [|? ?]]; congruence. } subst n2. exact C.
    - intros K. exists n0, n. split; [exact N4|]. split; [exact N4'|]. split; [exact N4''|]. destruct (n =? 0) eqn:E; [|reflexivity]. apply N.eqb_eq in E. subst n. apply K. reflexivity. }
  rewrite N3'. cbn [merge_opt]. split.
  - intros (_ & K2 & _ & K4 & K5 & K6). destruct (proj1 PS K5) as [K7 K8]. exact (conj (proj1 US K2) (conj (proj1 PO K4) (conj K7 (conj K8 (proj1 QS K6))))).
  - intros (K2 & K4 & K5 & K5' & K6). split; [exact N1|]. split; [apply US, K2|]. split; [exists d; auto|]. split; [apply PO, K4|]. split; [apply PS; auto|apply QS, K6].
Qed.
(** A network-path reference is taken for a path. *)
Lemma network_reference b u k h po p q v : reference_ok (RNet k h po p q) -> url_parse (reference_text (RNet k h po p q)) = Ok v ->
  (exists s, text_of (str "//" ++ k ++ h ++ po ++ p) s /\ u_path (url_merge u v) = s) /\ u_domain (url_merge u v) = u_domain u /\ ~ uri_meant (resolve b (RNet k h po p q)) (url_merge u v).
Proof.
  intros (K & H & O & P & Q) V. unfold reference_text in V.
  assert (NU : ~ In 63 (str "//" ++ k ++ h ++ po ++ p)).
  { rewrite !in_app_iff. intros [X|[X|[X|[X|X]]]].
    - cbn in X. lia.
    - destruct (login_split k K) as [->|(x & -> & Ux)]; [destruct X|]. apply in_app_iff in X as [X|X]; [|cbn in X; lia]. apply (user_not 63 x Ux) in X; [exact X|cbn; tauto].
    - apply (proj1 (proj2 (host_no h H))), X.
    - apply (proj1 (proj2 (port_no po O))), X.
    - destruct P as [->|P]; [destruct X|]. exact (path_no_mark p P X). }
  apply url_means_iff in V.
  2: { apply bytes_vchar. apply Forall_app. split; [vlist|]. apply Forall_app. split; [|apply tail_vchar; assumption].
       destruct (login_split k K) as [->|(x & -> & Ux)]; [constructor|]. apply Forall_app. split; [apply users_vchar, Ux|]. constructor; [unfold vchar; lia|constructor]. }
  remember (str "//" ++ k ++ h ++ po ++ p ++ q) as l eqn:E.
  assert (A : forall s x, legal_scheme s -> scheme_str s ++ x = str "//" ++ k ++ h ++ po ++ p ++ q -> False).
  { intros s x L KK. destruct L as [| | | | |c s Hb _ _ _]; try discriminate. cbn in KK. injection KK as -> _. unfold alpha, upper, lower in Hb. lia. }
  destruct V as [pa s qq o Hpa Npa Hqq|s k' us pw h' d pp n pa s' qq o L|s k' h' us pp n t pw r d L|s k' h' us pp n t pw r s' y o L|s k' h' us pp n t s' y pw z o L];
    try (exfalso; exact (A _ _ L E)).
  destruct (path_part_no _ _ Hpa) as [P1 _]. destruct (query_part_no _ _ Hqq) as [_ Q2].
  replace (str "//" ++ k ++ h ++ po ++ p ++ q) with ((str "//" ++ k ++ h ++ po ++ p) ++ q) in E by (rewrite <- !app_assoc; reflexivity).
  destruct (cut_at 63 pa _ qq q P1 NU Q2 (query_head _ Q) E) as [Epa Eq].
  assert (T : text_of pa s) by (clear - Hpa Npa; destruct Hpa as [|t s Ft T]; [congruence|exact T]).
  assert (S2 : exists s1 s2, s = 47 :: 47 :: s1 ++ s2 /\ pct_form p s2).
  { destruct T as [T _]. rewrite Epa in T. change (str "//" ++ k ++ h ++ po ++ p) with (47 :: 47 :: k ++ h ++ po ++ p) in T. inversion T as [|? ? x1 _ T1|]; subst. inversion T1 as [|? ? x2 _ T2|]; subst.
    replace (k ++ h ++ po ++ p) with ((k ++ h ++ po) ++ p) in T2 by (rewrite <- !app_assoc; reflexivity).
    apply pct_take in T2 as (s1 & s2 & -> & _ & F2); [exists s1, s2; auto|]. destruct P as [->|P]; [left; reflexivity|]. inversion P as [z Z EZ]. right. exists 47, z. cbn. tauto. }
  destruct S2 as (s1 & s2 & Es & F2).
  assert (NB : beq s (str "/") = false) by (rewrite Es; reflexivity).
  rewrite merge_path_or. cbn [u_path u_domain url_merge merge_opt]. unfold default_path. rewrite NB. split; [exists s; split; [rewrite <- Epa; exact T|reflexivity]|]. split; [reflexivity|].
  intros (_ & _ & _ & _ & K5 & _). unfold resolve in K5. cbn [ui_path] in K5. rewrite merge_path_or in K5. cbn [u_path] in K5. unfold default_path in K5. rewrite NB in K5.
  destruct (dots_less p s2 (fine_head p P) F2) as (z & Z & L & _). unfold path_meant in K5. destruct (blen (remove_dots p) =? 0).
  - rewrite Es in K5. discriminate.
  - destruct K5 as [K5 _]. pose proof (pct_form_unique _ _ _ Z K5) as EZ. rewrite EZ, Es in L. cbn in L. rewrite app_length in L. lia.
Qed.
(** A relative path, a query alone and the empty reference are not read. *)
Lemma unread l v : bytes_ok l -> hd_error l <> Some 47 -> (forall s x, legal_scheme s -> l <> scheme_str s ++ str "://" ++ x) -> url_parse l <> Ok v.
Proof.
  intros B H A V. apply url_means_iff in V; [|exact B].
  destruct V as [pa s qq o Hpa Npa Hqq|s k' us pw h' d pp n pa s' qq o L|s k' h' us pp n t pw r d L|s k' h' us pp n t pw r s' y o L|s k' h' us pp n t s' y pw z o L];
    try (exact (A _ _ L eq_refl)).
  destruct Hpa; [contradiction|]. apply H. reflexivity.
Qed.
Definition mark_free (b : N) : Prop := b <> 47 /\ b <> 58 /\ b <> 63.
Lemma scheme_free s : legal_scheme s -> Forall mark_free (scheme_str s).
Proof.
  unfold mark_free. intros [| | | | |b x B X _ _]; try (vm_compute (scheme_str _); repeat (apply Forall_cons; [lia|]); apply Forall_nil).
  cbn [scheme_str]. apply Forall_cons; [unfold alpha, upper, lower in B; lia|]. eapply Forall_impl; [|exact X]. intros c. unfold scheme_char, alpha, upper, lower, digit. cbn. lia.
Qed.
Lemma relative_reference r v : reference_ok r -> (exists p q, r = RRel p q) \/ (exists q, r = RSame q) -> url_parse (reference_text r) <> Ok v.
Proof.
  intros OK [(p & q & ->)|(q & ->)]; cbn [reference_ok reference_text] in *.
  - destruct OK as (P & NE & H & C & Q).
    assert (VP : Forall vchar p).
    { apply (pct_all (fun b => pchar b \/ b = 47) vchar); [|unfold vchar; lia| |exact P]; [intros c [X|X]; [apply pchar_vchar, X|unfold vchar; lia]|intros c X; apply hex_vchar, X]. }
    assert (NM : ~ In 63 p).
    { apply (pct_none (fun b => pchar b \/ b = 47)); [intros [X|X]; [apply pchar_vchar in X; lia|discriminate]|discriminate|apply hex_not; cbn; tauto|exact P]. }
    apply unread.
    + apply bytes_vchar, Forall_app. split; [exact VP|apply query_vchar, Q].
    + destruct p; [contradiction|exact H].
    + intros s x L E. destruct (until_slash p) as [a r] eqn:U. cbn [fst] in C. apply until_spec in U as (-> & Na & R). rewrite <- app_assoc in E.
      destruct (span_cut mark_free a (scheme_str s) (r ++ q) (str "://" ++ x)) as [_ K].
      * apply Forall_forall. intros c I. unfold mark_free. split; [intros ->; contradiction|]. split; [intros ->; contradiction|]. intros ->. apply NM. apply in_app_iff. left. exact I.
      * apply scheme_free, L.
      * destruct R as [->|[z ->]]; [|right; exists 47, (z ++ q); split; [reflexivity|unfold mark_free; lia]]. destruct (query_head q Q) as [->|[z ->]]; [left; reflexivity|].
        right. exists 63, z. split; [reflexivity|unfold mark_free; lia].
      * right. exists 58, (str "//" ++ x). split; [reflexivity|unfold mark_free; lia].
      * exact E.
      * destruct R as [->|[z ->]]; [|discriminate]. destruct (query_head q Q) as [->|[z ->]]; discriminate.
  - apply unread.
    + apply bytes_vchar, query_vchar, OK.
    + destruct (query_head q OK) as [->|[z ->]]; discriminate.
    + intros s x L E. destruct (query_head q OK) as [->|[z ->]].
      * destruct L; discriminate.
      * destruct L as [| | | | |c s Hb _ _ _]; try discriminate. cbn in E. injection E as <- _. unfold alpha, upper, lower in Hb. lia.
Qed.
