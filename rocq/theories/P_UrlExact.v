(** Which URLs Display and parse carry over (C22). *)
From Coq Require Import Ascii String NArith ZArith Lia Bool List ZifyBool ZifyNat ZifyN.
From Verif Require Import Base S_Utf8 P_Base M_Std P_Std M_Helper M_Header M_Url M_Http1 S_Http1 S_Http1Api S_Hex S_Map S_Url S_UrlAll S_Exact P_Helper P_Header P_Http1 P_Msg P_Chunk P_Map P_Url P_UrlForm P_UrlAll.
Import ListNotations.
Local Open Scope N_scope.
Ltac Zify.zify_post_hook ::= Z.div_mod_to_equations.

(** ** Splitting escaped texts *)
Lemma pct_app a s1 : pct_form a s1 -> forall b s, pct_form (a ++ b) s -> exists s2, s = s1 ++ s2 /\ pct_form b s2.
Proof.
  induction 1 as [|x l s1 Hx H IH|h x k y l s1 H1 H2 H IH]; intros b s HS.
  - exists s. split; [reflexivity|exact HS].
  - cbn [app] in HS. inversion HS as [|? ? s' ? HS'|]; subst; [|congruence]. destruct (IH _ _ HS') as (s2 & -> & E). exists s2. split; [reflexivity|exact E].
  - cbn [app] in HS. inversion HS as [|? ? ? Q|? x' ? y' ? s' K1 K2 HS']; subst; [congruence|]. destruct (IH _ _ HS') as (s2 & -> & E).
    exists s2. split; [|exact E]. cbn [app]. rewrite (hexv_fun _ _ _ K1 H1), (hexv_fun _ _ _ K2 H2). reflexivity.
Qed.
Lemma pct_len l s : pct_form l s -> (length s <= length l)%nat.
Proof. induction 1; cbn [length]; lia. Qed.
Lemma pct_same l s : pct_form l s -> length s = length l -> l = s /\ ~ In 37 l.
Proof.
  induction 1 as [|x l s1 Hx H IH|h x k y l s1 H1 H2 H IH]; cbn [length]; intros L.
  - split; [reflexivity|intros []].
  - destruct IH as [-> N]; [lia|]. split; [reflexivity|]. intros [->|K]; [congruence|exact (N K)].
  - apply pct_len in H. lia.
Qed.
Lemma pct_nil l : pct_form l [] -> l = [].
Proof. inversion 1; reflexivity. Qed.
(** Two texts with the same meaning, one a prefix of the other. *)
Lemma pct_prefix a b c d s : pct_form a s -> pct_form c s -> a ++ b = c ++ d -> a = c /\ b = d.
Proof.
  intros Ha Hc E. destruct (app_eq_app _ _ _ _ E) as (z & [[-> ->]|[-> ->]]).
  - destruct (pct_app _ _ Hc _ _ Ha) as (s2 & E2 & H2). assert (s2 = []) as -> by (destruct s2; [reflexivity|apply (f_equal (@length N)) in E2; rewrite app_length in E2; cbn [length] in E2; lia]).
    rewrite (pct_nil _ H2), app_nil_r. split; reflexivity.
  - destruct (pct_app _ _ Ha _ _ Hc) as (s2 & E2 & H2). assert (s2 = []) as -> by (destruct s2; [reflexivity|apply (f_equal (@length N)) in E2; rewrite app_length in E2; cbn [length] in E2; lia]).
    rewrite (pct_nil _ H2), app_nil_r. split; reflexivity.
Qed.
(** A delimiter is no hexadecimal digit and no '%'. *)
Definition delim (x : N) : Prop := In x (str ":@/?").
Lemma delim_not_hex x d : delim x -> hexv x d -> False.
Proof. intros D H. apply hexv_spec in H. unfold delim in D. cbn in D. destruct D as [<-|[<-|[<-|[<-|[]]]]]; discriminate. Qed.
Lemma delim_safe x : delim x -> safe_char x.
Proof. intros D. apply safeb_ok. unfold delim in D. cbn in D. destruct D as [<-|[<-|[<-|[<-|[]]]]]; reflexivity. Qed.
Lemma pct_split n : forall a x b s, (length a < n)%nat -> delim x -> pct_form (a ++ x :: b) s -> exists s1 s2, s = s1 ++ x :: s2 /\ pct_form a s1 /\ pct_form b s2.
Proof.
  induction n as [|n IH]; intros a x b s L D H; [lia|]. pose proof (safe_lt x (delim_safe x D)) as [_ N37].
  destruct a as [|y a]; cbn [app] in H.
  - inversion H as [|? ? s' Hx H'|]; subst; [|congruence]. exists [], s'. split; [reflexivity|]. split; [constructor|exact H'].
  - cbn [length] in L. inversion H as [|? ? s' Hx H'|h u k v l s' K1 K2 H']; subst.
    + destruct (IH a x b s' ltac:(lia) D H') as (s1 & s2 & -> & E1 & E2). exists (y :: s1), s2. split; [reflexivity|]. split; [constructor; assumption|exact E2].
    + match goal with Q : _ :: _ :: _ = a ++ _ |- _ => rename Q into E end. destruct a as [|y1 a]; cbn [app] in E.
      { injection E as -> E. destruct (delim_not_hex _ _ D K1). }
      injection E as -> E. destruct a as [|y2 a]; cbn [app] in E.
      { injection E as -> E. destruct (delim_not_hex _ _ D K2). }
      injection E as -> E. subst l. cbn [length] in L. destruct (IH a x b s' ltac:(lia) D H') as (s1 & s2 & -> & E1 & E2).
      exists (16 * u + v :: s1), s2. split; [reflexivity|]. split; [constructor; assumption|exact E2].
Qed.
Lemma upper_not_delim h x y : upper_hex h x -> delim y -> h <> y.
Proof. intros H D ->. exact (delim_not_hex _ _ D (upper_hexv _ _ H)). Qed.
Lemma esc_split s l : escaped s l -> forall a x b, l = a ++ x :: b -> delim x -> exists s1 s2, s = s1 ++ x :: s2 /\ escaped s1 a /\ escaped s2 b.
Proof.
  induction 1 as [|c s l Hs H IH|c h x k y s l Hs E H1 H2 H IH]; intros a z b EL D.
  - destruct a; discriminate.
  - destruct a as [|a0 a]; cbn [app] in EL; injection EL as -> EL.
    + subst l. exists [], s. split; [reflexivity|]. split; [constructor|exact H].
    + destruct (IH _ _ _ EL D) as (s1 & s2 & -> & E1 & E2). exists (a0 :: s1), s2. split; [reflexivity|]. split; [constructor; assumption|exact E2].
  - pose proof (safe_lt z (delim_safe z D)) as [_ N37].
    destruct a as [|a0 a]; cbn [app] in EL; [injection EL as <- _; congruence|]. injection EL as <- EL.
    destruct a as [|a1 a]; cbn [app] in EL; [injection EL as <- _; destruct (upper_not_delim _ _ _ H1 D eq_refl)|]. injection EL as <- EL.
    destruct a as [|a2 a]; cbn [app] in EL; [injection EL as <- _; destruct (upper_not_delim _ _ _ H2 D eq_refl)|]. injection EL as <- EL.
    destruct (IH _ _ _ EL D) as (s1 & s2 & -> & E1 & E2). exists (c :: s1), s2. split; [reflexivity|]. split; [econstructor; eassumption|exact E2].
Qed.
Lemma esc_app s1 l1 : escaped s1 l1 -> forall s2 l2, escaped s2 l2 -> escaped (s1 ++ s2) (l1 ++ l2).
Proof.
  induction 1 as [|c s l Hs H IH|c h x k y s l Hs E H1 H2 H IH]; intros s2 l2 K; [exact K| |].
  - cbn [app]. constructor; [exact Hs|apply IH, K].
  - cbn [app]. econstructor; try eassumption. apply IH, K.
Qed.
Definition nq (b : N) : bool := negb (b =? 63).
Lemma esc_filter s l : escaped s l -> escaped (filter nq s) (filter nq l).
Proof.
  induction 1 as [|c s l Hs H IH|c h x k y s l Hs E H1 H2 H IH]; [constructor| |].
  - cbn [filter]. destruct (nq c); [constructor; assumption|exact IH].
  - assert (D : delim 63) by (unfold delim; cbn; tauto).
    assert (NQ : forall z, z <> 63 -> nq z = true) by (intros z Hz; unfold nq; rewrite (proj2 (N.eqb_neq z 63)) by exact Hz; reflexivity).
    cbn [filter]. pose proof (upper_not_delim _ _ _ H1 D). pose proof (upper_not_delim _ _ _ H2 D).
    assert (c <> 63). { intros ->. apply Hs, delim_safe, D. }
    rewrite (NQ c), (NQ 37), (NQ h), (NQ k) by (assumption || lia).
    econstructor; eassumption.
Qed.
Lemma filter_len {A} (f : A -> bool) l : (length (filter f l) <= length l)%nat.
Proof. induction l as [|x l IH]; cbn [filter]; [reflexivity|]. destruct (f x); cbn [length]; lia. Qed.
Lemma filter_full {A} (f : A -> bool) l : length (filter f l) = length l -> filter f l = l /\ Forall (fun x => f x = true) l.
Proof.
  induction l as [|x l IH]; cbn [filter]; [split; [reflexivity|constructor]|]. destruct (f x) eqn:E; cbn [length]; intros L.
  - destruct IH as [E1 E2]; [lia|]. split; [congruence|constructor; assumption].
  - pose proof (filter_len f l). lia.
Qed.
Lemma enc_pct s : is_utf8 s -> pct_form (url_encode s) s.
Proof. intros H. apply escaped_pct, url_encode_spec; [apply utf8_bytes_ok, H|reflexivity]. Qed.
Lemma enc_esc s : is_utf8 s -> escaped s (url_encode s).
Proof. intros H. apply url_encode_spec; [apply utf8_bytes_ok, H|reflexivity]. Qed.
Lemma esc_in s l : escaped s l -> forall b, In b s -> safe_char b -> In b l.
Proof.
  induction 1 as [|c s l Hs H IH|c h x k y s l Hs E H1 H2 H IH]; intros b Hb Sb; [exact Hb| |].
  - destruct Hb as [->|Hb]; [left; reflexivity|right; apply IH; assumption].
  - destruct Hb as [->|Hb]; [contradiction|]. do 3 right. apply IH; assumption.
Qed.
Lemma pct_slash t p : pct_form (47 :: t) p -> exists p', p = 47 :: p'.
Proof. intros H. inversion H; subst. eexists. reflexivity. Qed.
Lemma enc_slash p : is_utf8 (47 :: p) -> exists e, url_encode (47 :: p) = 47 :: e.
Proof.
  intros H. pose proof (enc_esc _ H) as E. remember (47 :: p) as s eqn:Es. remember (url_encode s) as l eqn:El. clear El.
  destruct E as [|b s l Hs E|b h x k y s l Hs Eb H1 H2 E]; [discriminate|injection Es as -> _; exists l; reflexivity|].
  injection Es as -> _. exfalso. apply Hs, delim_safe. unfold delim. cbn. tauto.
Qed.

(** ** The parts that have no '@' and no '/' *)
Lemma part_not c b : part_char b -> delim c -> b <> c.
Proof. intros [_ H] D ->. exact (H D). Qed.
Lemma part_notin c l : Forall part_char l -> delim c -> ~ In c l.
Proof. intros H D K. rewrite Forall_forall in H. exact (part_not c c (H _ K) D eq_refl). Qed.
Lemma secret_notin c l : Forall secret_char l -> delim c -> c <> 63 -> ~ In c l.
Proof. intros H D N K. rewrite Forall_forall in H. destruct (H _ K) as [P|E]; [exact (part_not c c P D eq_refl)|congruence]. Qed.
Lemma logins_no_slash k : logins k -> ~ In 47 k.
Proof.
  induction 1 as [|a c t l Ha Hc Ht Hl IH]; [intros []|]. rewrite in_app_iff. cbn [In]. rewrite in_app_iff. cbn [In].
  intros [K|[K|[K|[K|K]]]]; [|lia| |lia|exact (IH K)].
  - exact (part_notin 47 a Ha ltac:(unfold delim; cbn; tauto) K).
  - exact (secret_notin 47 t Ht ltac:(unfold delim; cbn; tauto) ltac:(lia) K).
Qed.
Lemma port_no s pp n c : port_part s pp n -> c = 64 \/ c = 47 -> ~ In c pp.
Proof.
  intros [n' _|x t ds n' Hx Ht _ _] C; [intros []|]. intros [K|K]; [lia|].
  apply (secret_notin c t Ht); [unfold delim; cbn; lia|lia|exact K].
Qed.
Lemma path_no pa p : path_part pa p -> ~ In 64 pa.
Proof.
  intros [|t p' Ht _]; [intros []|]. intros [K|K]; [lia|]. rewrite Forall_forall in Ht. apply Ht in K. unfold path_char in K. lia.
Qed.
Lemma query_no qq q : query_part qq q -> ~ In 64 qq.
Proof.
  intros [|t q' Ht _]; [intros []|]. intros [K|K]; [lia|]. rewrite Forall_forall in Ht. apply Ht in K. unfold query_char in K. lia.
Qed.
(** Cutting at the first '/'. *)
Lemma cut_first (x : N) a b c d : a ++ x :: b = c ++ x :: d -> ~ In x a -> ~ In x c -> a = c /\ b = d.
Proof.
  revert c. induction a as [|y a IH]; intros [|z c] E Ha Hc; cbn [app] in E; injection E; clear E; [intros E2|intros E2 E1|intros E2 E1|intros E2 E1].
  - split; [reflexivity|exact E2].
  - subst. exfalso. apply Hc. left. reflexivity.
  - subst. exfalso. apply Ha. left. reflexivity.
  - subst z. destruct (IH c E2) as [-> ->]; [intros K; apply Ha; right; exact K|intros K; apply Hc; right; exact K|]. split; reflexivity.
Qed.

(** ** From the host on *)
(** What Display writes for the port of a URL with that scheme. *)
Definition port_shown (s : scheme) (n : N) (S : bytes) : Prop := S = [] \/ S = 58 :: dec_print n.
Lemma dec_no n c : delim c -> ~ In c (dec_print n).
Proof. intros D. apply part_notin; [apply host_part, digits_part, dec_digits|exact D]. Qed.
Lemma tail_exact s D S n p e q h pp pa qq : is_utf8 p -> opt_utf8 q -> (S = [] \/ S = 58 :: dec_print n) -> url_encode p = 47 :: e ->
  Forall part_char h -> pct_form h D -> port_part s pp n -> path_part pa p -> query_part qq q -> (pa = [] -> qq = []) ->
  D ++ S ++ url_encode p ++ match q with Some q => 63 :: url_encode q | None => [] end = h ++ pp ++ pa ++ qq ->
  Forall host_char D /\ free_of (str "@?") p /\ legal_query q.
Proof.
  intros Up Uq HS Ep Hh Hd Hpp Hpa Hqq Hnil E.
  assert (D47 : delim 47) by (unfold delim; cbn; tauto). assert (D58 : delim 58) by (unfold delim; cbn; tauto).
  assert (EH : h = D /\ ~ In 37 D /\ S ++ url_encode p ++ match q with Some q => 63 :: url_encode q | None => [] end = pp ++ pa ++ qq).
  { pose proof (pct_len _ _ Hd) as L. destruct (app_eq_app _ _ _ _ E) as (z & [[-> E2]|[-> E2]]).
    - rewrite app_length in L. assert (z = []) as -> by (destruct z; [reflexivity|cbn [length] in L; lia]). rewrite app_nil_r in *.
      destruct (pct_same _ _ Hd) as [_ N]; [lia|]. cbn [app] in E2. auto.
    - destruct z as [|z0 z].
      { rewrite app_nil_r in *. cbn [app] in E2. destruct (pct_same _ _ Hd eq_refl) as [_ N]. auto. }
      exfalso. assert (part_char z0) by (apply Forall_app in Hh as [_ Hh]; inversion Hh; assumption).
      rewrite Ep in E2. destruct HS as [-> | ->]; cbn [app] in E2; injection E2 as <- _; [exact (part_not 47 47 H D47 eq_refl)|exact (part_not 58 58 H D58 eq_refl)]. }
  destruct EH as (-> & N37 & E2).
  assert (EP : S = pp /\ url_encode p ++ match q with Some q => 63 :: url_encode q | None => [] end = pa ++ qq).
  { assert (PA : pa ++ qq = [] \/ exists x, pa ++ qq = 47 :: x).
    { destruct Hpa as [|t p' Ht Hp']; [rewrite Hnil by reflexivity; left; reflexivity|right; eexists; reflexivity]. }
    rewrite Ep in *. cbn [app] in *.
    assert (NP : ~ In 47 pp) by (eapply port_no; [exact Hpp|tauto]).
    assert (NS : ~ In 47 S). { destruct HS as [-> | ->]; [intros []|]. intros [K|K]; [lia|exact (dec_no n 47 D47 K)]. }
    destruct PA as [PA|[x PA]]; rewrite PA in E2.
    - rewrite app_nil_r in E2. exfalso. apply NP. rewrite <- E2. apply in_elt.
    - destruct (cut_first _ _ _ _ _ E2 NS NP) as [-> E3]. split; [reflexivity|]. rewrite PA. congruence. }
  destruct EP as [_ E3].
  assert (EQ : pa = url_encode p /\ qq = match q with Some q => 63 :: url_encode q | None => [] end).
  { destruct Hpa as [|t p' Ht [Hp' _]].
    - rewrite Hnil in E3 by reflexivity. rewrite Ep in E3. discriminate.
    - destruct (pct_prefix (47 :: t) qq (url_encode p') _ p' Hp' (enc_pct _ Up) (eq_sym E3)) as [-> ->]. split; reflexivity. }
  destruct EQ as [-> ->]. split; [|split].
  - apply Forall_forall. intros b Hb. split; [rewrite Forall_forall in Hh; apply Hh, Hb|intros ->; exact (N37 Hb)].
  - split; [exact Up|]. intros b Hb K. assert (In b (url_encode p)).
    { apply (esc_in p); [apply enc_esc, Up|exact Hb|]. apply delim_safe. unfold delim. cbn in K |- *. tauto. }
    rewrite Ep in H, Hpa. inversion Hpa as [|t p' Ht _]; subst. destruct H as [H|H]; [cbn in K; lia|].
    rewrite Forall_forall in Ht. apply Ht in H. unfold path_char in H. cbn in K. lia.
  - destruct q as [q|]; [|left; reflexivity]. right. exists q. split; [reflexivity|]. split; [exact Uq|]. intros b Hb K.
    assert (In b (url_encode q)).
    { apply (esc_in q); [apply enc_esc, Uq|exact Hb|]. apply delim_safe. unfold delim. cbn in K |- *. tauto. }
    inversion Hqq as [|t q' Ht _]; subst. rewrite Forall_forall in Ht. apply Ht in H. unfold query_char in H. cbn in K. lia.
Qed.

(** ** User and password *)
Lemma user_exact us pw k0 a c t : is_utf8 us -> is_utf8 pw -> logins k0 -> Forall part_char a -> c = 58 \/ c = 63 -> Forall secret_char t ->
  pct_form a us -> pct_form (filter nq t) pw -> url_encode us ++ 58 :: url_encode pw = k0 ++ a ++ c :: t ->
  k0 = [] /\ url_encode us = a /\ url_encode pw = t /\ ~ In 63 t.
Proof.
  intros Uu Up Hk Ha Hc Ht Da Dt E.
  assert (X : escaped (us ++ 58 :: pw) (url_encode us ++ 58 :: url_encode pw)).
  { apply esc_app; [apply enc_esc, Uu|]. constructor; [apply delim_safe; unfold delim; cbn; tauto|apply enc_esc, Up]. }
  assert (K : exists s1 s2, us ++ 58 :: pw = s1 ++ s2 /\ escaped s1 k0 /\ escaped s2 (a ++ c :: t)).
  { destruct Hk as [|a0 c0 t0 l Ha0 Hc0 Ht0 Hl].
    - exists [], (us ++ 58 :: pw). split; [reflexivity|]. split; [constructor|]. rewrite E in X. exact X.
    - assert (exists y, a0 ++ c0 :: t0 ++ 64 :: l = y ++ [64]) as [y Ey].
      { assert (LL : forall l, logins l -> forall b, exists y, b ++ 64 :: l = y ++ [64]).
        { clear. induction 1 as [|a c t l Ha Hc Ht Hl IH]; intros b; [exists b; reflexivity|].
          destruct (IH (b ++ 64 :: a ++ c :: t)) as [y Ey]. exists y. rewrite <- Ey. rewrite <- !app_assoc. cbn [app]. rewrite <- !app_assoc. cbn [app]. reflexivity. }
        destruct (LL l Hl (a0 ++ c0 :: t0)) as [y Ey]. exists y. rewrite <- Ey, <- app_assoc. reflexivity. }
      rewrite Ey in E |- *. rewrite E in X. rewrite <- app_assoc in X. cbn [app] in X.
      destruct (esc_split _ _ X _ _ _ eq_refl ltac:(unfold delim; cbn; tauto)) as (s1 & s2 & E1 & H1 & H2).
      exists (s1 ++ [64]), s2. split; [rewrite <- app_assoc; exact E1|]. split; [|exact H2].
      apply esc_app; [exact H1|]. constructor; [apply delim_safe; unfold delim; cbn; tauto|constructor]. }
  destruct K as (s1 & s2 & E1 & H1 & H2).
  destruct (esc_split _ _ H2 _ _ _ eq_refl ltac:(unfold delim; cbn; lia)) as (s3 & s4 & -> & H3 & H4).
  assert (s3 = us) as -> by (exact (pct_form_fun _ _ (escaped_pct _ _ H3) _ Da)).
  assert (EF : filter nq s4 = pw) by (exact (pct_form_fun _ _ (escaped_pct _ _ (esc_filter _ _ H4)) _ Dt)).
  assert (L : length (us ++ 58 :: pw) = length (s1 ++ us ++ c :: s4)) by congruence. rewrite !app_length in L. cbn [length] in L.
  pose proof (filter_len nq s4) as L4. rewrite EF in L4. assert (s1 = []) as -> by (destruct s1; [reflexivity|cbn [length] in L; lia]). cbn [length app] in *.
  assert (k0 = []) as -> by (inversion H1; reflexivity). split; [reflexivity|].
  destruct (filter_full nq s4) as [F1 F2]; [rewrite EF; lia|]. assert (s4 = pw) as -> by congruence.
  assert (url_encode us = a) as <- by (apply url_encode_spec; [apply utf8_bytes_ok, Uu|exact H3]). split; [reflexivity|].
  assert (url_encode pw = t) as <- by (apply url_encode_spec; [apply utf8_bytes_ok, Up|exact H4]). split; [reflexivity|].
  intros K. rewrite Forall_forall in F2. assert (In 63 pw). { apply (raw_in pw 63 Up K). cbn. tauto. }
  apply F2 in H. discriminate.
Qed.
(** The texts with '@' behind the authority give no URL with the same Display. *)
Lemma slash_user_absurd s us pw k h pp n t r d : is_utf8 us -> logins k -> Forall part_char h -> pct_form h us -> port_part s pp n ->
  url_encode pw = 47 :: t -> url_encode us ++ 58 :: url_encode pw ++ r = k ++ h ++ pp ++ 47 :: d -> False.
Proof.
  intros Uu Hk Hh Dh Hpp Ep E. rewrite Ep in E. cbn [app] in E.
  assert (NK : ~ In 47 (k ++ h ++ pp)).
  { rewrite !in_app_iff. intros [K|[K|K]]; [exact (logins_no_slash _ Hk K)| |exact (port_no _ _ _ 47 Hpp ltac:(tauto) K)].
    exact (part_notin 47 h Hh ltac:(unfold delim; cbn; tauto) K). }
  replace (url_encode us ++ 58 :: 47 :: t ++ r) with ((url_encode us ++ [58]) ++ 47 :: t ++ r) in E by (rewrite <- app_assoc; reflexivity).
  replace (k ++ h ++ pp ++ 47 :: d) with ((k ++ h ++ pp) ++ 47 :: d) in E by (rewrite <- !app_assoc; reflexivity).
  destruct (in_dec N.eq_dec 47 (url_encode us ++ [58])) as [I|I].
  - assert (I' : In 47 (url_encode us)) by (apply in_app_iff in I as [I|[I|[]]]; [exact I|lia]).
    destruct (in_split _ _ I') as (x & y & Exy).
    assert (exists x y, url_encode us = x ++ 47 :: y /\ ~ In 47 x) as (x' & y' & Exy' & Nx).
    { clear -I'. induction (url_encode us) as [|z l IH]; [destruct I'|]. destruct (N.eq_dec z 47) as [->|Nz].
      - exists [], l. split; [reflexivity|intros []].
      - destruct I' as [I'|I']; [congruence|]. destruct (IH I') as (x & y & -> & Nx). exists (z :: x), y. split; [reflexivity|]. intros [K|K]; [congruence|exact (Nx K)]. }
    rewrite Exy', <- !app_assoc in E. cbn [app] in E. rewrite !app_assoc in E. cbn [app] in E.
    destruct (cut_first 47 x' _ ((k ++ h) ++ pp) _ E Nx) as [-> _]; [rewrite <- app_assoc; exact NK|].
    pose proof (enc_esc us Uu) as X. rewrite Exy' in X.
    destruct (esc_split _ _ X _ _ _ eq_refl ltac:(unfold delim; cbn; tauto)) as (s1 & s2 & E1 & H1 & H2).
    assert (XX : exists w1 w2, s1 = w1 ++ w2 /\ escaped w2 (h ++ pp)).
    { rewrite <- app_assoc in H1. destruct Hk as [|a0 c0 t0 l Ha0 Hc0 Ht0 Hl]; [exists [], s1; split; [reflexivity|exact H1]|].
      assert (LL : forall l, logins l -> forall b, exists y, b ++ 64 :: l = y ++ [64]).
      { clear. induction 1 as [|a c t l Ha Hc Ht Hl IH]; intros b; [exists b; reflexivity|].
        destruct (IH (b ++ 64 :: a ++ c :: t)) as [y Ey]. exists y. rewrite <- Ey. rewrite <- !app_assoc. cbn [app]. rewrite <- !app_assoc. cbn [app]. reflexivity. }
      destruct (LL l Hl (a0 ++ c0 :: t0)) as [z Ez]. replace (a0 ++ c0 :: t0 ++ 64 :: l) with (z ++ [64]) in H1 by (rewrite <- Ez, <- app_assoc; reflexivity).
      rewrite <- app_assoc in H1. cbn [app] in H1.
      destruct (esc_split _ _ H1 _ _ _ eq_refl ltac:(unfold delim; cbn; tauto)) as (w1 & w2 & -> & _ & W2).
      exists (w1 ++ [64]), w2. split; [rewrite <- app_assoc; reflexivity|exact W2]. }
    destruct XX as (w1 & w2 & -> & W). pose proof (pct_app _ _ Dh _ _ (escaped_pct _ _ W)) as (w3 & -> & _).
    apply (f_equal (@length N)) in E1. rewrite !app_length in E1. cbn [length] in E1. lia.
  - destruct (cut_first 47 _ _ _ _ E I NK) as [E1 _].
    assert (R : forall (x : bytes) a, exists y z, x ++ [a] = y ++ [z] /\ z = a) by (intros x a; exists x, a; split; reflexivity).
    destruct Hpp as [n' _|x t' ds n' Hx Ht' Dt' Hds].
    + rewrite app_nil_r in E1. destruct h as [|h0 h] using rev_ind.
      * rewrite app_nil_r in E1. destruct k as [|k0 k] using rev_ind; [destruct (url_encode us); discriminate|].
        apply app_inj_tail in E1 as [_ <-].
        assert (LL : forall k, logins k -> k = [] \/ exists y, k = y ++ [64]).
        { clear. induction 1 as [|a c t l Ha Hc Ht Hl IH]; [left; reflexivity|]. right. destruct IH as [->|[y ->]].
          - exists (a ++ c :: t). rewrite <- app_assoc. reflexivity.
          - exists (a ++ c :: t ++ 64 :: y). rewrite <- !app_assoc. cbn [app]. rewrite <- app_assoc. reflexivity. }
        destruct (LL _ Hk) as [K|[y K]]; [destruct k; discriminate|]. apply app_inj_tail in K as [_ K]. discriminate.
      * rewrite app_assoc in E1. apply app_inj_tail in E1 as [_ <-]. apply Forall_app in Hh as [_ Hh]. inversion Hh as [|? ? P _]; subst.
        exact (part_not 58 58 P ltac:(unfold delim; cbn; tauto) eq_refl).
    + destruct t' as [|t0 t'] using rev_ind.
      * cbn [filter] in Dt'. destruct Dt' as [Dt' _]. inversion Dt'; subst. exact (empty_port _ Hds).
      * rewrite app_comm_cons, !app_assoc in E1. apply app_inj_tail in E1 as [_ <-]. apply Forall_app in Ht' as [_ Ht']. inversion Ht' as [|? ? P _]; subst.
        destruct P as [P|P]; [exact (part_not 58 58 P ltac:(unfold delim; cbn; tauto) eq_refl)|discriminate].
Qed.
Lemma at_query_absurd (q z : bytes) (x y : bytes) : is_utf8 q -> pct_form z q -> ~ In 64 z -> x ++ 63 :: url_encode q = y ++ 64 :: z -> False.
Proof.
  intros Uq Dz Nz E. destruct (app_eq_app _ _ _ _ E) as (w & [[-> E2]|[-> E2]]).
  - destruct w as [|w0 w]; cbn [app] in E2; [discriminate|]. injection E2 as <- ->.
    destruct (pct_split _ _ 63 _ _ (le_n _) ltac:(unfold delim; cbn; tauto) Dz) as (s1 & s2 & E1 & _ & H2).
    rewrite (pct_form_fun _ _ (enc_pct q Uq) _ H2) in E1. apply (f_equal (@length N)) in E1. rewrite app_length in E1. cbn [length] in E1. lia.
  - destruct w as [|w0 w]; cbn [app] in E2; [discriminate|]. injection E2 as <- E2.
    pose proof (enc_pct q Uq) as H. rewrite E2 in H.
    destruct (pct_split _ _ 64 _ _ (le_n _) ltac:(unfold delim; cbn; tauto) H) as (s1 & s2 & E1 & _ & H2).
    rewrite (pct_form_fun _ _ Dz _ H2) in E1. apply (f_equal (@length N)) in E1. rewrite app_length in E1. cbn [length] in E1. lia.
Qed.

Lemma port_shown_text u n : legal_scheme (u_scheme u) -> u_port u = Some n -> port_suffix u = [] \/ port_suffix u = 58 :: dec_print n.
Proof.
  intros Hs Hp. destruct (port_suffix_text _ n Hs) as (o & E1 & E2). rewrite (E1 u eq_refl Hp).
  destruct E2 as [[-> _]| ->]; [left|right]; reflexivity.
Qed.
Lemma utf8_url_ok l u : bytes_ok l -> url_parse l = Ok u -> utf8_url u.
Proof. intros Hl H. apply url_parse_facts in H; [|exact Hl]. unfold utf8_url. tauto. Qed.
Lemma utf8_opt o : opt_utf8 o -> is_utf8 (opt_bytes o).
Proof. destruct o; [exact (fun H => H)|]. intros _. apply utf8_valid_iff. reflexivity. Qed.
Lemma enc_bytes s : is_utf8 s -> bytes_ok (url_encode s).
Proof. intros H. apply raw_vchar in H. eapply Forall_impl; [|exact H]. unfold vchar, byte_ok. cbn. intros. lia. Qed.
Lemma print_bytes u : utf8_url u -> bytes_ok (url_print u).
Proof.
  intros (U1 & U2 & U3 & U4 & U5 & U6). unfold url_print, bytes_ok.
  apply utf8_opt in U3, U4, U5. rewrite !Forall_app. repeat apply conj.
  - destruct (scheme_eqb _ _); [constructor|]. apply Forall_app. split; [apply utf8_bytes_ok, U1|apply bytes_okb_ok; reflexivity].
  - destruct (_ || _); [|constructor]. apply Forall_app. split; [apply enc_bytes, U3|]. constructor; [reflexivity|].
    apply Forall_app. split; [apply enc_bytes, U4|apply bytes_okb_ok; reflexivity].
  - apply utf8_bytes_ok, U5.
  - unfold port_suffix. repeat match goal with |- context [if ?c then _ else _] => destruct c end; try constructor.
    destruct (u_port u) as [p|]; [|constructor]. repeat match goal with |- context [if ?c then _ else _] => destruct c end; try constructor; [reflexivity|].
    eapply Forall_impl; [|apply dec_digits]. unfold digit, byte_ok. cbn. intros. lia.
  - apply enc_bytes, U2.
  - destruct (u_query u) as [q|]; [|constructor]. constructor; [reflexivity|apply enc_bytes, U6].
Qed.
Lemma legal_not_none s : legal_scheme s -> scheme_eqb s ScNone = false.
Proof. destruct 1; reflexivity. Qed.
Lemma raw_part_inv s : is_utf8 s -> Forall part_char (url_encode s) -> free_of (str ":@/?") s.
Proof.
  intros U H. split; [exact U|]. intros b Hb K. assert (In b (url_encode s)) by (apply (esc_in s); [apply enc_esc, U|exact Hb|apply delim_safe, K]).
  rewrite Forall_forall in H. apply H in H0. exact (proj2 H0 K).
Qed.
Lemma print_parse_iff u : utf8_url u -> (url_parse (url_print u) = Ok u <-> legal_url u \/ legal_origin u).
Proof.
  intros U. split; [|intros [H|H]; [apply url_print_parse|apply url_print_parse_origin]; exact H].
  intros H. pose proof (url_parse_facts _ _ (print_bytes u U) H) as ((n0 & En0 & Hn0) & _).
  apply url_means_iff in H; [|apply print_bytes, U]. destruct U as (U1 & U2 & U3 & U4 & U5 & U6).
  remember (url_print u) as l eqn:El. destruct H; cbn [u_scheme u_path u_user u_pass u_domain u_port u_query] in *; injection En0 as <-.
  - (* origin *)
    right. unfold url_print in El. cbn [u_scheme u_path u_user u_pass u_domain u_port u_query opt_bytes is_some orb scheme_eqb app] in El.
    change (port_suffix _) with (@nil N) in El. cbn [app] in El.
    destruct H as [|t p Ht [Dp _]]; [congruence|]. destruct (pct_slash _ _ Dp) as [p' ->]. destruct (enc_slash _ U2) as [e Ee].
    destruct (tail_exact ScHttp [] [] 80 (47 :: p') e q [] [] (47 :: t) qq) as (_ & F & Q); try assumption; try reflexivity.
    + left. reflexivity.
    + constructor.
    + constructor.
    + constructor. left. left. reflexivity.
    + constructor; [exact Ht|split; assumption].
    + discriminate.
    + symmetry. exact El.
    + unfold legal_origin, legal_path. cbn. repeat split; try reflexivity; try apply F; exact Q.
  - (* absolute *)
    left. pose proof (legal_not_none s H) as N. unfold url_print in El. cbn [u_scheme u_path u_user u_pass u_domain u_port u_query opt_bytes] in El. rewrite N, <- !app_assoc in El.
    apply app_inv_head in El. apply app_inv_head in El.
    pose proof (port_shown_text (mkUrl s p us pw (Some d) (Some n) q) n H eq_refl) as HS. set (S := port_suffix _) in *.
    assert (Hsl : exists p', p = 47 :: p'). { destruct H4 as [|t p Ht [Dp _]]; [exists []; reflexivity|exact (pct_slash _ _ Dp)]. }
    destruct Hsl as [p' ->]. destruct (enc_slash _ U2) as [e Ee]. destruct H2 as [Dh Ud].
    assert (G : legal_userinfo us pw -> d ++ S ++ url_encode (47 :: p') ++ match q with Some q => 63 :: url_encode q | None => [] end = h ++ pp ++ pa ++ qq ->
      legal_url (mkUrl s (47 :: p') us pw (Some d) (Some n) q)).
    { intros LU E. destruct (tail_exact s d S n (47 :: p') e q h pp pa qq U2 U6 HS Ee H1 Dh H3 H4 H5 H6 E) as (A & B & C).
      unfold legal_url, legal_path. cbn [u_scheme u_path u_user u_pass u_domain u_port u_query]. split; [exact H|].
      split; [exists d; split; [reflexivity|exact A]|]. split; [exists n; split; [reflexivity|exact Hn0]|]. split; [exact LU|].
      split; [split; [reflexivity|exact B]|exact C]. }
    remember (url_encode (47 :: p')) as W eqn:EW. clear EW.
    destruct H0 as [|k a c t us pw Hk Ha Hc Ht [Da Ua] [Dt Ut]].
    { cbn [is_some orb app] in El. apply G; [left; split; reflexivity|]. symmetry. exact El. }
    cbn [is_some orb opt_bytes] in El. rewrite <- !app_assoc in El. cbn [app] in El. rewrite <- !app_assoc in El. cbn [app] in El.
    assert (E : (k ++ a ++ c :: t) ++ 64 :: h ++ pp ++ pa ++ qq = (url_encode us ++ 58 :: url_encode pw) ++ 64 :: d ++ S ++ W ++ match q with Some q => 63 :: url_encode q | None => [] end).
    { rewrite <- !app_assoc. cbn [app]. rewrite El. reflexivity. }
    clear El. assert (N64 : ~ In 64 (h ++ pp ++ pa ++ qq)).
    { rewrite !in_app_iff. intros [K|[K|[K|K]]].
      - exact (part_notin 64 h H1 ltac:(unfold delim; cbn; tauto) K).
      - exact (port_no _ _ _ 64 H3 ltac:(tauto) K).
      - exact (path_no _ _ H4 K).
      - exact (query_no _ _ H5 K). }
    assert (NL : ~ In 47 (k ++ a ++ c :: t)).
    { rewrite !in_app_iff. cbn [In]. intros [K|[K|[K|K]]]; [exact (logins_no_slash _ Hk K)| |lia|].
      - exact (part_notin 47 a Ha ltac:(unfold delim; cbn; tauto) K).
      - exact (secret_notin 47 t Ht ltac:(unfold delim; cbn; tauto) ltac:(lia) K). }
    set (M2 := k ++ a ++ c :: t) in *. set (M1 := url_encode us ++ 58 :: url_encode pw) in *.
    destruct (app_eq_app _ _ _ _ E) as (z & [[EM E2]|[EM E2]]).
    + (* M2 = M1 ++ z *)
      destruct z as [|z0 z]; cbn [app] in E2.
      { rewrite app_nil_r in EM. injection E2 as E2. subst M2 M1.
        destruct (user_exact us pw k a c t Ua Ut Hk Ha Hc Ht Da Dt (eq_sym EM)) as (-> & Eu & Ep & N63).
        apply G; [|exact E2]. right. exists us, pw. split; [reflexivity|]. split; [reflexivity|].
        split; apply raw_part_inv; try assumption; [rewrite Eu; exact Ha|]. rewrite Ep. apply Forall_forall. intros b Hb. rewrite Forall_forall in Ht.
        destruct (Ht _ Hb) as [P| ->]; [exact P|contradiction]. }
      injection E2 as <- E2. exfalso. rewrite EM in NL.
      assert (Nz : ~ In 47 z). { intros K. apply NL. rewrite in_app_iff. right. right. exact K. }
      destruct (app_eq_app _ _ _ _ E2) as (y & [[ED E3]|[ED E3]]).
      * (* d = z ++ y *)
        rewrite Ee in E3. destruct y as [|y0 y]; cbn [app] in E3; [destruct HS as [HS|HS]; rewrite HS in E3; discriminate|]. injection E3 as <- E3.
        pose proof (pct_len _ _ Dh) as L. rewrite ED, app_length in L. cbn [length] in L.
        destruct (app_eq_app _ _ _ _ E3) as (w & [[EH E4]|[EH E4]]).
        -- destruct w as [|w0 w]; [rewrite app_nil_r in EH; subst h; lia|]. rewrite EH in H1. apply Forall_app in H1 as [_ H1]. inversion H1 as [|? ? P _]; subst.
           destruct HS as [HS|HS]; rewrite HS in E4; cbn [app] in E4; injection E4 as <- _; [exact (part_not 47 47 P ltac:(unfold delim; cbn; tauto) eq_refl)|exact (part_not 58 58 P ltac:(unfold delim; cbn; tauto) eq_refl)].
        -- rewrite EH, app_length in L. lia.
      * (* z = d ++ y *)
        rewrite Ee in E3. assert (K : In 47 (y ++ [64])).
        { destruct HS as [HS|HS]; rewrite HS in E3; cbn [app] in E3.
          - destruct y as [|y0 y]; cbn [app] in E3; injection E3 as E3 _; [discriminate|]. left. congruence.
          - destruct y as [|y0 y]; cbn [app] in E3; [discriminate|]. injection E3 as <- E3.
            destruct (app_eq_app _ _ _ _ E3) as (w & [[EW E4]|[EW E4]]).
            + exfalso. destruct w as [|w0 w]; cbn [app] in E4; [discriminate|]. injection E4 as <- _. apply (dec_no n 64); [unfold delim; cbn; tauto|]. rewrite EW. apply in_elt.
            + destruct w as [|w0 w]; cbn [app] in E4; [discriminate|]. injection E4 as <- _. rewrite EW. cbn. rewrite !in_app_iff. cbn. tauto. }
        apply in_app_iff in K as [K|[K|[]]]; [|discriminate]. apply Nz. rewrite ED, in_app_iff. right. exact K.
    + destruct z as [|z0 z]; cbn [app] in E2.
      { rewrite app_nil_r in EM. injection E2 as E2. subst M2 M1.
        destruct (user_exact us pw k a c t Ua Ut Hk Ha Hc Ht Da Dt EM) as (-> & Eu & Ep & N63).
        apply G; [|symmetry; exact E2]. right. exists us, pw. split; [reflexivity|]. split; [reflexivity|].
        split; apply raw_part_inv; try assumption; [rewrite Eu; exact Ha|]. rewrite Ep. apply Forall_forall. intros b Hb. rewrite Forall_forall in Ht.
        destruct (Ht _ Hb) as [P| ->]; [exact P|contradiction]. }
      injection E2 as <- E2. exfalso. apply N64. rewrite E2. apply in_elt.
  - exfalso. pose proof (legal_not_none s H) as N. unfold url_print in El. cbn [u_scheme u_path u_user u_pass u_domain u_port u_query opt_bytes is_some orb] in El. rewrite N, <- ?app_assoc in El.
    apply app_inv_head in El. apply app_inv_head in El. rewrite <- ?app_assoc in El. cbn [app] in El. rewrite <- ?app_assoc in El.
    destruct H2 as [Dh _]. destruct H5 as [Dp _]. destruct (pct_slash _ _ Dp) as [p' ->]. destruct (enc_slash _ U4) as [e Ee].
    exact (slash_user_absurd s us _ k h pp n e _ _ U3 H0 H1 Dh H3 Ee (eq_sym El)).
  - exfalso. pose proof (legal_not_none s H) as N. unfold url_print in El. cbn [u_scheme u_path u_user u_pass u_domain u_port u_query opt_bytes is_some orb] in El. rewrite N, <- ?app_assoc in El.
    apply app_inv_head in El. apply app_inv_head in El. rewrite <- ?app_assoc in El. cbn [app] in El. rewrite <- ?app_assoc in El.
    destruct H2 as [Dh _]. destruct H5 as [Dp _]. destruct (pct_slash _ _ Dp) as [p' ->]. destruct (enc_slash _ U4) as [e Ee].
    exact (slash_user_absurd s us _ k h pp n e _ _ U3 H0 H1 Dh H3 Ee (eq_sym El)).
  - exfalso. pose proof (legal_not_none s H) as N. unfold url_print in El. cbn [u_scheme u_path u_user u_pass u_domain u_port u_query opt_bytes is_some orb] in El. rewrite N, <- ?app_assoc in El.
    apply app_inv_head in El. apply app_inv_head in El. destruct H9 as [Dz _].
    eapply (at_query_absurd q z); [exact U6|exact Dz| |].
    + intros K. rewrite Forall_forall in H8. apply H8 in K. unfold query_char in K. lia.
    + instantiate (1 := k ++ h ++ pp ++ 47 :: t ++ 63 :: y).
      instantiate (1 := (url_encode us ++ 58 :: url_encode pw ++ [64]) ++ [] ++ port_suffix (mkUrl s p (Some us) (Some pw) None (Some n) (Some q)) ++ url_encode p).
      rewrite <- ?app_assoc. cbn [app]. rewrite <- ?app_assoc. cbn [app] in *. rewrite <- ?app_assoc in El. cbn [app] in El. rewrite <- ?app_assoc in El. cbn [app] in El. symmetry. etransitivity; [|exact El].
      reflexivity.
Qed.
