(** Proofs about heads written as RFC 9112 says (C108, C109). *)
From Coq Require Import Ascii String NArith ZArith Lia Bool List ZifyBool ZifyNat ZifyN.
From Verif Require Import Base S_Utf8 P_Base M_Std M_Helper M_Header M_Url M_Http1 S_Hex S_Http1 S_Http1Api P_Std P_Helper P_Header P_Http1 P_Msg
  P_Chunk S_Url P_Url P_UrlForm S_UrlAll P_UrlAll S_Reject P_Reject S_Rfc9112.
Import ListNotations.
Local Open Scope N_scope.

(** ** Lines *)
Lemma strip_spaces x : exists k r, x = spaces k ++ r /\ hd_error r <> Some SP.
Proof.
  induction x as [|b x (k & r & -> & H)].
  - exists 0%nat, []. split; [reflexivity|discriminate].
  - destruct (N.eq_dec b SP) as [->|N].
    + exists (S k), r. split; [reflexivity|exact H].
    + exists 0%nat, (b :: spaces k ++ r). split; [reflexivity|]. cbn. congruence.
Qed.
Lemma strip_unique k r k' r' : spaces k ++ r = spaces k' ++ r' -> hd_error r <> Some SP -> hd_error r' <> Some SP -> k = k' /\ r = r'.
Proof.
  revert k'. induction k as [|k IH]; intros [|k'] E H H'; cbn in E.
  - auto.
  - subst r. cbn in H. congruence.
  - subst r'. cbn in H'. congruence.
  - injection E as E. destruct (IH _ E H H') as [-> ->]. auto.
Qed.
Definition texty (b : N) : Prop := field_vchar b \/ blank b.
Lemma texty_byte b : texty b -> b < 256 /\ b <> CR.
Proof. unfold texty, field_vchar, blank, vchar, SP, TAB, CR. lia. Qed.
Lemma value_texty v : rfc_value v -> Forall texty v.
Proof.
  unfold texty. intros [->|[(b & -> & H)|(b & w & c & -> & Hb & Hc & Hw)]]; [constructor|constructor; auto|].
  constructor; [auto|]. apply Forall_app. split; [exact Hw|constructor; auto].
Qed.
Lemma blanks_texty v : Forall blank v -> Forall texty v.
Proof. unfold texty. intros H. eapply Forall_impl; [|exact H]. cbn. auto. Qed.
Lemma texty_ok v : Forall texty v -> bytes_ok v /\ ~ In CR v.
Proof.
  intros H. split.
  - eapply Forall_impl; [|exact H]. intros b K. apply texty_byte in K. apply K.
  - intros K. rewrite Forall_forall in H. apply H, texty_byte in K. destruct K as [_ K]. congruence.
Qed.
Lemma line_raw_exists l : line_ok l -> exists r, line_raw l r /\ field (line_text l) (ln_name l) r.
Proof.
  intros (Hn & Hl & Hv & Ht & _). destruct l as [n a v b]. cbn [ln_name ln_lead ln_value ln_trail] in *.
  destruct (strip_spaces (a ++ v ++ b)) as (k & r & E & Hr). exists r. split.
  - exists k. split; [exact E|exact Hr].
  - unfold line_text. cbn [ln_name ln_lead ln_value ln_trail].
    assert (T : Forall texty (spaces k ++ r)).
    { rewrite <- E. apply Forall_app. split; [apply blanks_texty, Hl|]. apply Forall_app. split; [apply value_texty, Hv|apply blanks_texty, Ht]. }
    apply Forall_app in T as [_ T]. apply texty_ok in T as [T1 T2].
    replace (n ++ COLON :: a ++ v ++ b ++ CRLF) with (n ++ spaces 0 ++ COLON :: spaces k ++ r ++ CRLF).
    + destruct r as [|c r].
      * apply (field_empty n 0 k [LF]); [exact Hn|constructor].
      * apply field_value; [exact Hn| |discriminate]. split; [exact T1|]. split; [exact T2|exact Hr].
    + cbn [spaces repeat app]. do 2 f_equal. rewrite app_assoc. rewrite <- E. rewrite <- !app_assoc. reflexivity.
Qed.
Lemma line_raw_unique l r r' : line_raw l r -> line_raw l r' -> r = r'.
Proof. intros (k & E & H) (k' & E' & H'). rewrite E in E'. exact (proj2 (strip_unique _ _ _ _ E' H H')). Qed.
(** The value is the one the RFC means exactly on plain lines. *)
Lemma value_ends v : rfc_value v -> v = [] \/ ((forall b, hd_error v = Some b -> ~ blank b) /\ v <> [] /\ exists a c, v = a ++ [c] /\ ~ blank c).
Proof.
  unfold rfc_value, field_vchar, blank, vchar, SP, TAB. intros [->|[(b & -> & H)|(b & w & c & -> & Hb & Hc & Hw)]]; [left; reflexivity|right..].
  - split; [|split; [discriminate|]]. { cbn. intros x [= <-]. lia. } exists [], b. split; [reflexivity|lia].
  - split; [|split; [discriminate|]]. { cbn. intros x [= <-]. lia. } exists (b :: w), c. split; [reflexivity|lia].
Qed.
Lemma spaces_eq x : Forall (eq SP) x -> x = spaces (length x).
Proof. induction 1 as [|b x H _ IH]; [reflexivity|]. cbn. subst b. f_equal. exact IH. Qed.
Lemma spaces_all k : Forall (eq SP) (spaces k).
Proof. induction k; constructor; auto. Qed.
Lemma line_raw_plain l : line_ok l -> (line_raw l (ln_value l) <-> plain_line l).
Proof.
  intros (_ & Hl & Hv & Ht & He). destruct l as [n a v b]. unfold line_raw, plain_line. cbn [ln_name ln_lead ln_value ln_trail] in *. split.
  - intros (k & E & H). apply value_ends in Hv as [->|(V1 & V2 & x & c & -> & V3)].
    + rewrite He in E by reflexivity. rewrite !app_nil_r in E. rewrite E. split; [apply spaces_all|apply He; reflexivity].
    + assert (B : b = []).
      { destruct b as [|b0 b1]; [reflexivity|]. exfalso. destruct (@exists_last _ (b0 :: b1)) as (b' & z & Eb); [discriminate|]. rewrite Eb in *.
        rewrite !app_assoc in E. apply app_inj_tail in E as [_ ->]. apply Forall_app in Ht as [_ Ht]. inversion Ht; subst. contradiction. }
      subst b. rewrite app_nil_r in E. apply app_inv_tail in E. subst a. split; [apply spaces_all|reflexivity].
  - intros [H ->]. exists (length a). rewrite app_nil_r. rewrite <- (spaces_eq a H). split; [reflexivity|].
    apply value_ends in Hv as [->|(V1 & _)]; [discriminate|]. intros K. apply (V1 _ K). left. reflexivity.
Qed.
Lemma lines_read ls : Forall line_ok ls -> exists rs, Forall2 line_raw ls rs /\ fields (lines_text ls) (combine (map ln_name ls) rs).
Proof.
  induction 1 as [|l ls H _ (rs & IH1 & IH2)].
  - exists []. split; constructor.
  - destruct (line_raw_exists l H) as (r & R1 & R2). exists (r :: rs). split; [constructor; assumption|].
    unfold lines_text. cbn [map concat combine]. rewrite <- app_assoc. constructor; assumption.
Qed.
Lemma names_combine ls rs : Forall2 line_raw ls rs -> map fst (combine (map ln_name ls) rs) = map ln_name ls.
Proof. induction 1; cbn; [reflexivity|]. f_equal. assumption. Qed.
Lemma combine_plain ls rs : Forall line_ok ls -> Forall2 line_raw ls rs ->
  (combine (map ln_name ls) rs = map line_field ls <-> Forall plain_line ls).
Proof.
  intros H F. induction F as [|l r ls rs R F IH]; [split; [constructor|reflexivity]|]. inversion H as [|? ? H1 H2]; subst.
  cbn [map combine]. split.
  - intros E. injection E as E1 E2. constructor; [|apply IH; assumption]. apply line_raw_plain; [assumption|]. rewrite <- E1. exact R.
  - intros P. inversion P as [|? ? P1 P2]; subst. f_equal; [|apply IH; assumption].
    unfold line_field. f_equal. apply line_raw_plain in P1; [|assumption]. exact (line_raw_unique _ _ _ R P1).
Qed.
Lemma distinct_fst a : forall b, map fst a = map fst b -> distinct_names a -> distinct_names b.
Proof.
  induction a as [|[n v] a IH]; intros [|[n' v'] b] E D; try discriminate; [exact I|]. cbn [map fst] in E. injection E as -> E.
  destruct D as [D1 D2]. split; [|exact (IH _ E D2)]. cbn [fst] in *. clear IH D2.
  revert b E. induction a as [|[m w] a IHa]; intros [|[m' w'] b] E; try discriminate; [constructor|]. cbn [map fst] in E. injection E as -> E.
  inversion D1; subst. constructor; [assumption|]. apply IHa; assumption.
Qed.
(** The header map is the list of fields the RFC means. *)
Lemma map_meant ls rs : Forall line_ok ls -> Forall2 line_raw ls rs ->
  (add_fields [] (combine (map ln_name ls) rs) = map line_field ls <-> Forall plain_line ls /\ distinct_names (map line_field ls)).
Proof.
  intros H F. split.
  - intros E. assert (D : distinct_names (map line_field ls)). { rewrite <- E. apply distinct_add. exact I. }
    split; [|exact D]. apply (combine_plain ls rs H F). rewrite <- E. symmetry. apply add_fields_nil.
    apply (distinct_fst (map line_field ls)); [|exact D]. rewrite names_combine by exact F. rewrite map_map. apply map_ext. reflexivity.
  - intros [P D]. apply (combine_plain ls rs H F) in P. rewrite P. apply add_fields_nil, D.
Qed.

(** ** Words *)
Lemma name_word n : name_ok n -> word n.
Proof.
  intros [H1 H2]. split; [exact H1|]. eapply Forall_impl; [|exact H2]. intros b [[K|K]|[K|K]].
  - unfold upper, vchar in *. lia.
  - unfold lower, vchar in *. lia.
  - unfold digit, vchar in *. lia.
  - cbn in K. unfold vchar. repeat (destruct K as [<-|K]; [lia|]). contradiction.
Qed.
Ltac charlist K := cbn in K; repeat (destruct K as [<-|K]; [lia|]); try contradiction.
Lemma hex_vchar b : hex_byte b -> vchar b /\ ~ In b (str ":@/?%").
Proof. intros [d [H|H]]; apply nth_error_In in H; unfold vchar; cbn in H |- *; repeat (destruct H as [<-|H]; [lia|]); contradiction. Qed.
Lemma unreserved_vchar b : unreserved b -> vchar b /\ ~ In b (str ":@/?%").
Proof. unfold unreserved, alpha, upper, lower, digit, vchar. intros [[K|K]|[K|K]]; [cbn; lia..|]. cbn in *. lia. Qed.
Lemma sub_delim_vchar b : sub_delim b -> vchar b /\ ~ In b (str ":@/?%").
Proof. unfold sub_delim, vchar. intros K. cbn in *. lia. Qed.
Lemma pchar_vchar b : pchar b -> vchar b /\ b <> 63 /\ b <> 47 /\ b <> 37.
Proof.
  intros [K|[K|K]].
  - apply unreserved_vchar in K as [K1 K2]. split; [exact K1|]. cbn in K2. lia.
  - apply sub_delim_vchar in K as [K1 K2]. split; [exact K1|]. cbn in K2. lia.
  - unfold vchar. cbn in K. lia.
Qed.
Lemma pct_all (P Q : N -> Prop) l : (forall b, P b -> Q b) -> Q 37 -> (forall b, hex_byte b -> Q b) -> pct_text P l -> Forall Q l.
Proof. intros H1 H2 H3. induction 1; constructor; auto. Qed.
Lemma abs_path_vchar p : abs_path p -> Forall vchar p /\ p <> [].
Proof.
  intros [q H]. split; [|discriminate]. constructor; [unfold vchar; lia|].
  eapply pct_all; [..|exact H]; cbn.
  - intros b [K| ->]; [apply pchar_vchar, K|unfold vchar; lia].
  - unfold vchar. lia.
  - intros b K. apply hex_vchar, K.
Qed.
Lemma query_vchar q : query_text q -> Forall vchar q.
Proof.
  intros [|r H]; constructor; [unfold vchar; lia|]. eapply pct_all; [..|exact H]; cbn.
  - intros b [K|K]; [apply pchar_vchar, K|unfold vchar; lia].
  - unfold vchar. lia.
  - intros b K. apply hex_vchar, K.
Qed.
Lemma reg_vchar h : reg_name h -> Forall part_char h.
Proof.
  intros H. eapply pct_all; [..|exact H]; cbv beta.
  - intros b [K|K]; [apply unreserved_vchar in K as [K1 K2]|apply sub_delim_vchar in K as [K1 K2]]; (split; [exact K1|]); cbn in *; lia.
  - split; [unfold vchar; lia|cbn; lia].
  - intros b K. apply hex_vchar in K as [K1 K2]. split; [exact K1|]. cbn in *. lia.
Qed.
Lemma host_vchar h : uri_host h -> Forall vchar h.
Proof.
  intros [H|[a H]].
  - eapply Forall_impl; [|exact (reg_vchar _ H)]. intros b K. apply K.
  - constructor; [unfold vchar; lia|]. apply Forall_app. split; [|constructor; [unfold vchar; lia|constructor]].
    eapply Forall_impl; [|exact H]. intros b [K|[K| ->]]; [apply unreserved_vchar, K|apply sub_delim_vchar, K|unfold vchar; lia].
Qed.
Lemma digits_vchar ds : Forall digit ds -> Forall vchar ds.
Proof. intros H. eapply Forall_impl; [|exact H]. unfold digit, vchar. intros; lia. Qed.
Lemma port_vchar po : port_opt po -> Forall vchar po.
Proof. intros [|ds H]; constructor; [unfold vchar; lia|apply digits_vchar, H]. Qed.
Lemma scheme_vchar s : scheme_name s -> Forall vchar s /\ s <> [].
Proof.
  intros [b r H1 H2]. split; [|discriminate]. constructor; [unfold alpha, upper, lower, vchar in *; lia|].
  eapply Forall_impl; [|exact H2]. unfold alpha, upper, lower, digit, vchar. intros c [K|[K|K]]; [lia..|]. cbn in K. lia.
Qed.
Ltac vlist := cbn; repeat (apply Forall_cons; [unfold digit, vchar in *; lia|]); apply Forall_nil.
Lemma target_word m t : rfc_target m t -> word t.
Proof.
  intros [p q Hp Hq|s h po p q Hs Hh Hpo Hp Hq|h ds _ Hh Hd|_].
  - apply abs_path_vchar in Hp as [P1 P2]. split; [intros K; apply app_eq_nil in K as [K _]; contradiction|].
    apply Forall_app. split; [exact P1|apply query_vchar, Hq].
  - apply scheme_vchar in Hs as [S1 S2]. split; [intros K; apply app_eq_nil in K as [K _]; contradiction|].
    apply Forall_app. split; [exact S1|]. apply Forall_app. split; [vlist|].
    apply Forall_app. split; [apply host_vchar, Hh|]. apply Forall_app. split; [apply port_vchar, Hpo|]. apply Forall_app.
    split; [|apply query_vchar, Hq]. destruct Hp as [->|Hp]; [constructor|apply abs_path_vchar, Hp].
  - split; [destruct h; discriminate|]. apply Forall_app. split; [apply host_vchar, Hh|]. constructor; [unfold vchar; lia|apply digits_vchar, Hd].
  - split; [discriminate|]. vlist.
Qed.
Lemma rfc_version_word v : rfc_version v -> word v.
Proof.
  intros [a b Ha Hb]. split; [discriminate|]. apply Forall_app. split; [vlist|].
  vlist.
Qed.

(** ** Requests *)
Lemma rfc_request_head m t v ls : rfc_request m t v ls -> exists rs, Forall2 line_raw ls rs /\
  request_head (rfc_request_text m t v ls) m t v (combine (map ln_name ls) rs).
Proof.
  intros (Hm & Ht & Hv & Hl). destruct (lines_read ls Hl) as (rs & R1 & R2). exists rs. split; [exact R1|].
  apply (request_head_intro [] m 0 t 0 v CRLF); [constructor|apply name_word, Hm|exact (target_word _ _ Ht)|apply rfc_version_word, Hv|constructor|exact R2].
Qed.
Lemma rfc_version_known v : rfc_version v -> forall k, In k known_versions -> version_str k = v -> v = str "HTTP/1.0" \/ v = str "HTTP/1.1".
Proof.
  intros [a b _ _] k Hk E. cbn in Hk. destruct Hk as [<-|[<-|[<-|[<-|[]]]]]; [left|right|exfalso..].
  - rewrite <- E. reflexivity.
  - rewrite <- E. reflexivity.
  - apply (f_equal (@length N)) in E. discriminate.
  - apply (f_equal (@length N)) in E. discriminate.
Qed.
Lemma known_named k : In k known_methods <-> exists s, In (k, s) method_names /\ method_str k = str s.
Proof.
  split.
  - intros H. cbn in H. repeat (destruct H as [<-|H]; [eexists; split; [cbn; eauto 12|reflexivity]|]). contradiction.
  - intros (s & H & _). apply (List.in_map fst) in H. exact H.
Qed.
Lemma known_named_str k s : In (k, s) method_names -> In k known_methods /\ method_str k = str s.
Proof. intros H. split; [exact (List.in_map fst _ _ H)|]. cbn in H. repeat (destruct H as [[= <- <-]|H]; [reflexivity|]). contradiction. Qed.

Lemma rfc_request_exact q m t v ls rest : bytes_ok (rfc_request_text m t v ls ++ rest) -> rfc_request m t v ls ->
  ((exists q', req_parse q (rfc_request_text m t v ls ++ rest) = (q', Ok (blen (rfc_request_text m t v ls))) /\
     method_str (q_method q') = m /\ version_str (q_version q') = v /\ q_header q' = map line_field ls) <->
   (exists k s u, In (k, s) method_names /\ m = str s /\ wire_url k t (map line_field ls) u) /\
   (v = str "HTTP/1.0" \/ v = str "HTTP/1.1") /\ Forall plain_line ls /\ distinct_names (map line_field ls)).
Proof.
  intros Hb R. destruct (rfc_request_head m t v ls R) as (rs & R1 & R2). destruct R as (Hm & Ht & Hv & Hl). split.
  - intros (q' & E & Em & Ev & Eh). pose proof E as E0. apply request_exact in E0; [|exact Hb].
    destruct E0 as (w & rest' & k & t' & k' & hs & u & _ & _ & Hk & Hk' & _ & _ & ->). cbn [q_method q_version q_header] in *. subst m v.
    rewrite req_parse_eq, (req_parse_head q _ k t k' _ rest R2 Hk Hk') in E.
    destruct (req_url_of k t (add_fields [] (combine (map ln_name ls) rs))) as [u'|e| |] eqn:Eu; cbn [try_ fst snd] in E; try discriminate.
    assert (Eh2 : add_fields [] (combine (map ln_name ls) rs) = map line_field ls).
    { rewrite <- Eh. exact (f_equal (fun x => q_header (fst x)) E). }
    apply (map_meant ls rs Hl R1) in Eh2 as Pd. split; [|split; [apply (rfc_version_known _ Hv _ Hk' eq_refl)|exact Pd]].
    rewrite Eh2 in Eu. apply wire_url_spec in Eu. apply known_named in Hk as (s & K1 & K2). exists k, s, u'. auto.
  - intros ((k & s & u & K1 & -> & K3) & V & Pd). apply (map_meant ls rs Hl R1) in Pd.
    destruct (known_named_str _ _ K1) as [K4 K5]. assert (exists k', In k' known_versions /\ v = version_str k') as (k' & V1 & ->).
    { destruct V as [-> | ->]; [exists V10|exists V11]; split; cbn; auto. }
    rewrite <- K5 in *. exists (mkReq k k' u (map line_field ls) false). split; [|auto].
    rewrite req_parse_eq, (req_parse_head q _ k t k' _ rest R2 K4 V1). rewrite Pd. apply wire_url_spec in K3. rewrite K3. cbn [try_ fst snd].
    do 2 f_equal. rewrite blen_app. lia.
Qed.

(** ** Targets *)
Lemma cut_at c (a b x y : bytes) : ~ In c a -> ~ In c b -> (x = [] \/ exists z, x = c :: z) -> (y = [] \/ exists z, y = c :: z) ->
  a ++ x = b ++ y -> a = b /\ x = y.
Proof.
  revert b. induction a as [|h a IH]; intros [|k b] Ha Hb Hx Hy E; cbn in E.
  - auto.
  - exfalso. subst x. destruct Hx as [Hx|[z Hx]]; [discriminate|]. injection Hx as -> _. apply Hb. left. reflexivity.
  - exfalso. subst y. destruct Hy as [Hy|[z Hy]]; [discriminate|]. injection Hy as -> _. apply Ha. left. reflexivity.
  - injection E as -> E. destruct (IH b) as [-> ->]; auto; intros K; [apply Ha|apply Hb]; right; exact K.
Qed.
Lemma pct_none (P : N -> Prop) c l : ~ P c -> c <> 37 -> ~ hex_byte c -> pct_text P l -> ~ In c l.
Proof.
  intros H1 H2 H3 H. assert (F : Forall (fun b => b <> c) l).
  { eapply pct_all; [..|exact H]; cbv beta; congruence. }
  intros K. rewrite Forall_forall in F. exact (F c K eq_refl).
Qed.
Lemma hex_not c : In c (str ":@/?") -> ~ hex_byte c.
Proof. intros H K. apply hex_vchar in K as [_ K]. apply K. cbn in *. lia. Qed.
Lemma path_no_mark p : abs_path p -> ~ In 63 p.
Proof.
  intros [q H] [K|K]; [discriminate|]. revert K. eapply pct_none; [..|exact H]; [|lia|apply hex_not; cbn; lia].
  intros [K|K]; [apply pchar_vchar in K; lia|lia].
Qed.
Lemma query_head q : query_text q -> q = [] \/ exists z, q = 63 :: z.
Proof. intros [|y H]; eauto. Qed.
(** Behind '/' without '?' and '@'. *)
Lemma path_chars p : abs_path p -> ~ In 64 p -> exists t, p = 47 :: t /\ Forall path_char t.
Proof.
  intros H N. pose proof (path_no_mark _ H) as M. pose proof (proj1 (abs_path_vchar _ H)) as V. destruct H as [t H]. exists t. split; [reflexivity|].
  inversion V; subst. rewrite Forall_forall in *. intros b K. split; [auto|]. split; intros ->; [apply M|apply N]; right; exact K.
Qed.
Lemma query_chars q : query_text q -> ~ In 64 q -> q = [] \/ exists y, q = 63 :: y /\ Forall query_char y.
Proof.
  intros H N. pose proof (query_vchar _ H) as V. destruct H as [|y H]; [left; reflexivity|right]. exists y. split; [reflexivity|].
  inversion V; subst. rewrite Forall_forall in *. intros b K. split; [auto|]. intros ->. apply N. right. exact K.
Qed.
Lemma path_part_no pa p : path_part pa p -> ~ In 63 pa /\ ~ In 64 pa.
Proof.
  intros [|t p' H _]; [split; intros []|]. rewrite Forall_forall in H. split; intros [K|K]; try discriminate; apply H in K; unfold path_char in K; lia.
Qed.
Lemma query_part_no qq q : query_part qq q -> ~ In 64 qq /\ (qq = [] \/ exists z, qq = 63 :: z).
Proof.
  intros [|t q' H _]; [split; [intros []|auto]|]. split; [|eauto]. rewrite Forall_forall in H. intros [K|K]; try discriminate. apply H in K. unfold query_char in K. lia.
Qed.
Lemma bytes_vchar l : Forall vchar l -> bytes_ok l.
Proof. intros H. eapply Forall_impl; [|exact H]. unfold vchar, byte_ok. intros; lia. Qed.

Lemma origin_url p q u : abs_path p -> query_text q ->
  (url_parse (p ++ q) = Ok u <-> exists s o, ~ In 64 (p ++ q) /\ text_of p s /\ query_meant q o /\ u = mkUrl ScNone s None None None (Some 0) o).
Proof.
  intros Hp Hq. pose proof (abs_path_vchar _ Hp) as [Vp Np]. pose proof (query_vchar _ Hq) as Vq.
  rewrite url_means_iff by (apply bytes_vchar, Forall_app; auto). split.
  - intros H. remember (p ++ q) as l eqn:E. destruct Hp as [p1 Hp1].
    assert (A : forall s x, legal_scheme s -> scheme_str s ++ x = (47 :: p1) ++ q -> False).
    { intros s x L K. destruct L as [| | | | |b s Hb _ _ _]; try discriminate. cbn in K. injection K as -> _. unfold alpha, upper, lower in Hb. lia. }
    destruct H as [pa s qq o Hpa Npa Hqq|s k us pw h d pp n pa s' qq o L|s k h us pp n t pw r d L|s k h us pp n t pw r s' y o L|s k h us pp n t s' y pw z o L];
      try (exfalso; exact (A _ _ L E)).
    destruct (path_part_no _ _ Hpa) as [P1 P2]. destruct (query_part_no _ _ Hqq) as [Q1 Q2].
    destruct (cut_at 63 pa (47 :: p1) qq q P1 (path_no_mark _ (ap_intro p1 Hp1)) Q2 (query_head _ Hq) E) as [-> ->].
    exists s, o. split; [rewrite in_app_iff; intuition|]. inversion Hpa; subst. split; [assumption|]. split; [|reflexivity].
    destruct Hqq as [|y o' _ Ho]; [reflexivity|]. exists o'. auto.
  - intros (s & o & N & Hs & Ho & ->). rewrite in_app_iff in N.
    destruct (path_chars p Hp ltac:(tauto)) as (t & -> & Ft).
    apply um_origin; [constructor; assumption|discriminate|].
    destruct (query_chars q Hq ltac:(tauto)) as [->|(y & -> & Fy)]; cbn in Ho.
    + subst o. constructor.
    + destruct Ho as (z & Hz & ->). constructor; assumption.
Qed.
(** The host that a Host field gives to a target without one. *)
Definition hosted (h : headers) (d : option bytes) (n : option N) : Prop :=
  (hm_get_host h = None /\ d = None /\ n = Some 0) \/
  (exists hst d' n', hm_get_host h = Some hst /\ host_parts hst d' n' /\ d = Some d' /\ n = Some n').
Lemma origin_target k p q h u : k <> MConnect -> abs_path p -> query_text q ->
  (wire_url k (p ++ q) h u <->
   ~ In 64 (p ++ q) /\ text_of p (u_path u) /\ query_meant q (u_query u) /\ u_user u = None /\ u_pass u = None /\
   hosted h (u_domain u) (u_port u) /\ scheme_hint h (u_scheme u)).
Proof.
  intros Hk Hp Hq. split.
  - intros [? ? ? _|u0 u1 u2 _ H1 H2 H3]; [contradiction|].
    apply origin_url in H1 as (s & o & N & Hs & Ho & ->); [|assumption..]. split; [exact N|].
    destruct H2 as [D|D1 D2|hst d n D1 D2 D3]; [contradiction D; reflexivity| |];
      (destruct H3 as [X|sc _ X]; [contradiction X; reflexivity|]); cbn; (split; [exact Hs|]); (split; [exact Ho|]); (split; [reflexivity|]); (split; [reflexivity|]); (split; [|exact X]).
    + left. auto.
    + right. exists hst, d, n. auto.
  - intros (N & Hs & Ho & U1 & U2 & Hh & Hsc). destruct u as [sc pa us pw dom po qu]. cbn [u_path u_query u_user u_pass u_domain u_port u_scheme] in *. subst us pw.
    assert (P : url_parse (p ++ q) = Ok (mkUrl ScNone pa None None None (Some 0) qu)).
    { apply origin_url; [assumption..|]. exists pa, qu. auto. }
    destruct Hh as [(H1 & -> & ->)|(hst & d & n & H1 & H2 & -> & ->)].
    + eapply wu_target; [exact Hk|exact P|apply hf_none; [reflexivity|exact H1]|]. apply (sf_hint h (mkUrl ScNone pa None None None (Some 0) qu)); [reflexivity|exact Hsc].
    + eapply wu_target; [exact Hk|exact P|eapply hf_host; [reflexivity|exact H1|exact H2]|]. apply (sf_hint h (mkUrl ScNone pa None None (Some d) (Some n) qu)); [reflexivity|exact Hsc].
Qed.
Lemma asterisk_target k h u : k <> MConnect -> ~ wire_url k (str "*") h u.
Proof.
  intros Hk [? ? ? _|u0 u1 u2 _ H1 H2 H3]; [contradiction|]. apply url_means_iff in H1; [|apply bytes_okb_ok; reflexivity].
  remember (str "*") as l eqn:E.
  assert (A : forall s x, legal_scheme s -> scheme_str s ++ x = str "*" -> False).
  { intros s x L K. destruct L as [| | | | |b s Hb _ _ _]; try discriminate. cbn in K. injection K as -> _. unfold alpha, upper, lower in Hb. lia. }
  destruct H1 as [pa s qq o Hpa Npa Hqq|s k' us pw h' d pp n pa s' qq o L|s k' h' us pp n t pw r d L|s k' h' us pp n t pw r s' y o L|s k' h' us pp n t s' y pw z o L];
      try (exfalso; exact (A _ _ L E)).
  destruct Hpa; [contradiction|discriminate].
Qed.
Lemma host_colons a b c d n : ~ host_parts (a ++ COLON :: b ++ COLON :: c) d n.
Proof.
  intros H. remember (a ++ COLON :: b ++ COLON :: c) as l eqn:E. destruct H as [d Hd|d p n Hd Hp _].
  - apply Hd. rewrite E. rewrite !in_app_iff. cbn. auto.
  - destruct (in_dec N.eq_dec COLON a) as [Ia|Ia].
    + apply in_split in Ia as (a1 & a2 & ->). revert Hd Hp E. clear. revert a1. intros a1.
      assert (G : forall a1 d p x, ~ In COLON d -> d ++ COLON :: p = a1 ++ COLON :: x -> In COLON x -> In COLON p).
      { clear. induction a1 as [|y a1 IH]; intros [|z d] p x Hd E I; cbn in E.
        - injection E as ->. exact I.
        - injection E as -> _. exfalso. apply Hd. left. reflexivity.
        - injection E as <- ->. apply in_app_iff. right. right. exact I.
        - injection E as -> E. eapply IH; [|exact E|exact I]. intros K. apply Hd. right. exact K. }
      intros Hd Hp E. apply Hp. apply (G a1 d p (a2 ++ COLON :: b ++ COLON :: c) Hd).
      * rewrite E, <- app_assoc. reflexivity.
      * rewrite in_app_iff. cbn. auto.
    + destruct (cut_at COLON d a (COLON :: p) (COLON :: b ++ COLON :: c) Hd Ia) as [-> K]; [eauto..|exact E|].
      injection K as ->. apply Hp. rewrite in_app_iff. cbn. auto.
Qed.
Lemma host_named h po d n : uri_host h -> port_opt po ->
  (host_parts (h ++ po) d n <-> ~ In COLON h /\ d = h /\
   ((po = [] /\ n = 80) \/ exists ds, po = COLON :: ds /\ ds <> [] /\ num_of ds < 65536 /\ n = num_of ds)).
Proof.
  intros Hh Hpo. split.
  - intros H. destruct (in_dec N.eq_dec COLON h) as [I|I].
    + exfalso. destruct Hpo as [|ds Hd].
      * rewrite app_nil_r in H. destruct Hh as [Hr|Hi].
        { apply reg_vchar in Hr. rewrite Forall_forall in Hr. apply Hr in I. destruct I as [_ I]. apply I. cbn. auto. }
        destruct Hi as [a Ha]. inversion H as [d0 Hd E1 E2|d0 p n0 Hd Hp Pt E E2]; [subst; contradiction|]. destruct Pt as (_ & ds & Nd & Fd & Ep & _). subst d. clear H.
        assert (exists p', p = p' ++ [93]) as [p' ->].
        { destruct p as [|b p].
          - change (d0 ++ [COLON] = (91 :: a) ++ [93]) in E. apply app_inj_tail in E as [_ E]. discriminate.
          - destruct (@exists_last _ (b :: p)) as (x & z & Ez); [discriminate|]. rewrite Ez in E |- *.
            change (91 :: a ++ [93]) with ((91 :: a) ++ [93]) in E. change (d0 ++ COLON :: x ++ [z]) with (d0 ++ (COLON :: x) ++ [z]) in E.
            rewrite app_assoc in E. apply app_inj_tail in E as [_ ->]. eauto. }
        rewrite Forall_forall in Fd. assert (J : In 93 ds).
        { destruct Ep as [<-|Ep]; [apply in_app_iff; right; left; reflexivity|].
          destruct p' as [|x p']; [discriminate|]. cbn in Ep. injection Ep as _ <-. apply in_app_iff. right. left. reflexivity. }
        apply Fd in J. unfold digit in J. lia.
      * apply in_split in I as (a & b & ->). rewrite <- app_assoc in H. exact (host_colons a b ds d n H).
    + split; [exact I|]. remember (h ++ po) as l eqn:E. destruct H as [d Hd|d p n Hd Hp (Hn & ds & Nd & Fd & Ep & ->)].
      * destruct Hpo as [|ds Hds]; [rewrite app_nil_r in E; auto|]. exfalso. apply Hd. rewrite E. apply in_app_iff. right. left. reflexivity.
      * destruct (cut_at COLON d h (COLON :: p) po Hd I) as [-> K]; [eauto| |exact E|].
        { destruct Hpo; eauto. }
        split; [reflexivity|]. right. destruct Hpo as [|es He]; [discriminate|]. injection K as ->. destruct Ep as [->| ->].
        -- exists ds. auto.
        -- exfalso. inversion He; subst. unfold digit in *. lia.
  - intros (I & -> & [(-> & ->)|(ds & -> & Nd & Hn & ->)]).
    + rewrite app_nil_r. constructor. exact I.
    + inversion Hpo as [|? Fd]; subst. constructor; [exact I| |].
      * intros K. rewrite Forall_forall in Fd. apply Fd in K. unfold digit, COLON in K. lia.
      * split; [exact Hn|]. exists ds. auto.
Qed.

(** ** The absolute form *)
Lemma pct_split c x z : c <> 37 -> ~ hex_byte c -> forall s, pct_form (x ++ c :: z) s ->
  exists s1 s2, s = s1 ++ c :: s2 /\ pct_form x s1 /\ pct_form z s2.
Proof.
  intros Hc Hh. induction x as [x IH] using (induction_ltof1 _ (@length N)). unfold ltof in IH. intros s H.
  destruct x as [|b x].
  - cbn in H. inversion H; subst; [|contradiction]. exists [], s0. split; [reflexivity|]. split; [constructor|assumption].
  - cbn [app] in H. inversion H as [|? ? s' Nb H1|h a k b' l s' X1 X2 H1]; subst.
    + destruct (IH x) with (s := s') as (s1 & s2 & -> & P1 & P2); [cbn; lia|assumption|]. exists (b :: s1), s2. split; [reflexivity|]. split; [constructor; assumption|assumption].
    + match goal with X : h :: k :: l = _ |- _ => rename X into E1 end. destruct x as [|h' x]; [|destruct x as [|k' x]]; cbn [app] in *.
      * injection E1 as <- _. contradiction Hh. exists a. exact X1.
      * injection E1 as -> <- _. contradiction Hh. exists b'. exact X2.
      * injection E1 as -> -> ->. destruct (IH x) with (s := s') as (s1 & s2 & -> & P1 & P2); [cbn; lia|assumption|].
        exists (16 * a + b' :: s1), s2. split; [reflexivity|]. split; [constructor; assumption|assumption].
Qed.
Lemma pct_form_unique l s s' : pct_form l s -> pct_form l s' -> s = s'.
Proof.
  intros H. revert s'. induction H as [|b l s Nb H IH|h a k b l s X1 X2 H IH]; intros s' H'; inversion H'; subst; try contradiction.
  - reflexivity.
  - f_equal. auto.
  - f_equal; [|auto]. match goal with A : hexv h ?u, B : hexv k ?v |- _ => apply hexv_spec in A; apply hexv_spec in B end.
    apply hexv_spec in X1. apply hexv_spec in X2. congruence.
Qed.
Lemma no_slash_cut (a y b w : bytes) : ~ In 47 a -> a ++ 63 :: y = b ++ 47 :: w -> exists b', y = b' ++ 47 :: w.
Proof.
  revert b. induction a as [|x a IH]; intros [|z b] H E; cbn in E.
  - discriminate.
  - injection E as _ ->. eauto.
  - injection E as -> _. exfalso. apply H. left. reflexivity.
  - injection E as _ E. apply (IH b); [|exact E]. intros K. apply H. right. exact K.
Qed.
Lemma digits_form ds : Forall digit ds -> text_of ds ds /\ Forall (fun b => part_char b \/ b = 63) ds /\ filter (fun b => negb (b =? 63)) ds = ds.
Proof.
  intros H. split; [|split].
  - split.
    + induction H; constructor; [unfold digit in *; lia|assumption].
    + apply utf8_valid_iff. induction H as [|b ds Hb _ IH]; [reflexivity|]. unfold digit in Hb. cbn. replace (b <? 128) with true by lia. exact IH.
  - eapply Forall_impl; [|exact H]. unfold digit, part_char, vchar. intros b K. left. split; [lia|]. cbn. lia.
  - induction H as [|b ds Hb _ IH]; [reflexivity|]. cbn [filter]. unfold digit in Hb. replace (negb (b =? 63)) with true by lia. f_equal. exact IH.
Qed.
Lemma host_part h : uri_host h -> ~ In 58 h -> Forall part_char h.
Proof.
  intros H N. pose proof H as H0. destruct H0 as [H0|H0]; [apply reg_vchar, H0|]. destruct H0 as [a Ha].
  assert (P : forall b, 33 <= b <= 126 -> b <> 58 -> b <> 64 -> b <> 47 -> b <> 63 -> part_char b). { intros. split; [assumption|]. cbn. lia. }
  constructor; [apply P; lia|]. apply Forall_app. split; [|constructor; [apply P; lia|constructor]].
  rewrite Forall_forall in *. intros b K. destruct (Ha b K) as [J|[J| ->]].
  - apply unreserved_vchar in J as [J1 J2]. cbn in J2. apply P; unfold vchar in J1; lia.
  - apply sub_delim_vchar in J as [J1 J2]. cbn in J2. apply P; unfold vchar in J1; lia.
  - exfalso. apply N. right. apply in_app_iff. left. exact K.
Qed.
Lemma host_no h : uri_host h -> ~ In 47 h /\ ~ In 63 h /\ ~ In 64 h.
Proof.
  intros [H|[a Ha]].
  - apply reg_vchar in H. rewrite Forall_forall in H. unfold part_char in H. repeat split; intros K; apply H in K as [_ K]; apply K; cbn; auto.
  - assert (A : forall b, In b a -> b <> 47 /\ b <> 63 /\ b <> 64).
    { intros b K. rewrite Forall_forall in Ha. destruct (Ha b K) as [J|[J| ->]]; [apply unreserved_vchar in J as [_ J]|apply sub_delim_vchar in J as [_ J]|lia]; cbn in J; lia. }
    repeat split; (intros [K|K]; [discriminate|]); apply in_app_iff in K as [K|[K|[]]]; try discriminate; apply A in K; lia.
Qed.
Lemma port_no po : port_opt po -> ~ In 47 po /\ ~ In 63 po /\ ~ In 64 po.
Proof.
  intros [|ds H]; [cbn; auto|]. rewrite Forall_forall in H. repeat split; (intros [K|K]; [discriminate|]); apply H in K; unfold digit in K; lia.
Qed.
Lemma span_cut (P : N -> Prop) (a b x y : bytes) : Forall P a -> Forall P b ->
  (x = [] \/ exists c z, x = c :: z /\ ~ P c) -> (y = [] \/ exists c z, y = c :: z /\ ~ P c) -> a ++ x = b ++ y -> a = b /\ x = y.
Proof.
  intros Ha. revert b. induction Ha as [|h a Hh Ha IH]; intros b Hb Hx Hy E; (destruct Hb as [|k b Hk Hb]; cbn in E).
  - auto.
  - exfalso. subst x. destruct Hx as [Hx|(c & z & Hx & N)]; [discriminate|]. injection Hx as -> _. contradiction.
  - exfalso. subst y. destruct Hy as [Hy|(c & z & Hy & N)]; [discriminate|]. injection Hy as -> _. contradiction.
  - injection E as -> E. destruct (IH b) as [-> ->]; auto.
Qed.
Lemma not_part c : c = 58 \/ c = 63 \/ c = 47 -> ~ part_char c.
Proof. intros H [_ K]. apply K. cbn. lia. Qed.
Lemma port_part_no s pp n : port_part s pp n -> ~ In 64 pp /\ (pp = [] \/ exists c z, pp = c :: z /\ ~ part_char c).
Proof.
  intros [|c t ds n' Hc Ht _ _]; [split; [intros []|auto]|]. split.
  - rewrite Forall_forall in Ht. intros [K|K]; [lia|]. apply Ht in K as [[_ K]|K]; [apply K; cbn; auto|discriminate].
  - right. exists c, t. split; [reflexivity|]. apply not_part. lia.
Qed.
Lemma tail_head pa p qq q : path_part pa p -> query_part qq q -> pa ++ qq = [] \/ exists c z, pa ++ qq = c :: z /\ ~ part_char c.
Proof.
  intros Hp Hq. destruct Hp as [|t p' _ _].
  - destruct Hq as [|t q' _ _]; [auto|]. right. exists 63, t. split; [reflexivity|apply not_part; lia].
  - right. exists 47, (t ++ qq). split; [reflexivity|apply not_part; lia].
Qed.

Lemma legal_vchar s : legal_scheme s -> Forall vchar (scheme_str s).
Proof.
  intros [| | | | |b t Hb Ht _ _]; try vlist. cbn. assert (K : forall c, scheme_char c -> vchar c).
  { intros c [K|[K|K]]; unfold vchar, alpha, upper, lower, digit in *; cbn in *; lia. }
  constructor; [apply K; left; exact Hb|]. eapply Forall_impl; [exact K|exact Ht].
Qed.
Lemma absolute_form s s0 h po p q u d n : legal_scheme s -> In (s, s0) default_ports \/ ((forall m, ~ In (s, m) default_ports) /\ s0 = 0) ->
  uri_host h -> port_opt po -> p = [] \/ abs_path p -> query_text q ->
  u_scheme u = s -> u_user u = None -> u_pass u = None -> u_domain u = Some d -> u_port u = Some n -> n < 65536 ->
  text_of h d -> port_meant s0 po n -> path_meant p (u_path u) -> query_meant q (u_query u) ->
  (url_parse (scheme_str s ++ str "://" ++ h ++ po ++ p ++ q) = Ok u <->
   ~ In 58 h /\ po <> [58] /\ ~ In 64 (p ++ q) /\ (p = [] -> q = [])).
Proof.
  intros L Def Hh Hpo Hp Hq U1 U2 U3 U4 U5 Hn Hd Hport Hpath Hquery.
  rewrite url_means_iff.
  2:{ apply bytes_vchar. apply Forall_app. split; [apply legal_vchar, L|]. apply Forall_app. split; [vlist|].
      apply Forall_app. split; [apply host_vchar, Hh|]. apply Forall_app. split; [apply port_vchar, Hpo|]. apply Forall_app. split; [|apply query_vchar, Hq].
      destruct Hp as [->|Hp]; [constructor|apply abs_path_vchar, Hp]. }
  destruct u as [sc pa us pw dom pt qu]. cbn [u_path u_query u_user u_pass u_domain u_port u_scheme] in *. subst sc us pw dom pt. split.
  - intros H. remember (scheme_str s ++ str "://" ++ h ++ po ++ p ++ q) as l eqn:E.
    inversion H as [a1 p1 q1 o1 Hpa Npa Hqq E1 E2|s2 k us pw h2 d2 pp n2 pa2 p2 qq q2 L2 Huser Hh2 Hd2 Hpp Hpa Hqq Hempty E1 E2|
                    s2 k h2 us pp n2 t pw r d2|s2 k h2 us pp n2 t pw r p2 y q2|s2 k h2 us pp n2 t p2 y pw z q2].
    + subst s2 p2 us pw d2 n2 q2. inversion Huser; subst k. rewrite E in E1. apply app_inv_head in E1. apply app_inv_head in E1. cbn [app] in E1.
      destruct (port_part_no _ _ _ Hpp) as [Ppp1 Ppp2]. destruct (path_part_no _ _ Hpa) as [Ppa1 Ppa2]. destruct (query_part_no _ _ Hqq) as [Pqq1 Pqq2].
      destruct (host_no h Hh) as (Hn1 & Hn2 & Hn3). destruct (port_no po Hpo) as (On1 & On2 & On3).
      assert (NoAt : ~ In 64 (p ++ q)).
      { intros K. assert (K2 : In 64 (h ++ po ++ p ++ q)) by (rewrite !in_app_iff in *; tauto). rewrite <- E1 in K2. rewrite !in_app_iff in K2.
        destruct K2 as [K2|[K2|[K2|K2]]]; try contradiction. rewrite Forall_forall in Hh2. apply Hh2 in K2 as [_ K2]. apply K2. cbn. auto. }
      assert (X2 : pp ++ pa2 ++ qq = [] \/ exists c z, pp ++ pa2 ++ qq = c :: z /\ ~ part_char c).
      { destruct Ppp2 as [->|(c & z & -> & Nc)]; [cbn; apply (tail_head _ _ _ _ Hpa Hqq)|]. right. exists c, (z ++ pa2 ++ qq). auto. }
      assert (NoColon : ~ In 58 h).
      { intros K. destruct (in_split _ _ K) as (h1 & h3 & Eh).
        assert (exists ha hb, h = ha ++ 58 :: hb /\ ~ In 58 ha) as (ha & hb & Eh2 & Na).
        { clear - K. induction h as [|x h IH]; [contradiction|]. destruct (N.eq_dec x 58) as [->|Nx]; [exists [], h; auto|].
          destruct IH as (ha & hb & -> & Na); [destruct K; [congruence|assumption]|]. exists (x :: ha), hb. split; [reflexivity|]. cbn. intuition congruence. }
        assert (Fa : Forall part_char ha).
        { assert (V : Forall vchar ha) by (pose proof (host_vchar _ Hh) as V; rewrite Eh2 in V; apply Forall_app in V; apply V).
          rewrite Forall_forall in *. intros b B. split; [auto|]. assert (Ib : In b h) by (rewrite Eh2; apply in_app_iff; auto).
          cbn. intros [F|[F|[F|[F|[]]]]]; subst b; contradiction. }
        destruct (span_cut part_char h2 ha (pp ++ pa2 ++ qq) (58 :: hb ++ po ++ p ++ q) Hh2 Fa X2) as [-> _].
        { right. exists 58, (hb ++ po ++ p ++ q). split; [reflexivity|apply not_part; lia]. }
        { rewrite E1, Eh2, <- app_assoc. reflexivity. }
        destruct Hd as [Hd _]. destruct Hd2 as [Hd2 _]. rewrite Eh2 in Hd. apply pct_split in Hd as (s1 & s2 & -> & P1 & _); [|lia|apply hex_not; cbn; auto].
        pose proof (pct_form_unique _ _ _ P1 Hd2) as F. apply (f_equal (@length N)) in F. rewrite app_length in F. cbn in F. lia. }
      destruct (span_cut part_char h2 h (pp ++ pa2 ++ qq) (po ++ p ++ q) Hh2 (host_part h Hh NoColon) X2) as [-> E3].
      { destruct Hpo as [|ds Fds]; [|right; exists 58, (ds ++ p ++ q); split; [reflexivity|apply not_part; lia]].
        destruct Hp as [->|[p' Hp']]; [|right; exists 47, (p' ++ q); split; [reflexivity|apply not_part; lia]].
        destruct (query_head q Hq) as [->|[z ->]]; [auto|right; exists 63, z; split; [reflexivity|apply not_part; lia]]. }
      { exact E1. }
      assert (Empty : p = [] -> q = []).
      { intros ->. destruct (query_head q Hq) as [->|[y ->]]; [reflexivity|exfalso]. cbn in Hquery. destruct Hquery as (w & Hw & Eq). rewrite Eq in Hqq.
        inversion Hqq as [|z w' Fz Hz E4 E5]; subst qq. subst w'. destruct Hpa as [|r pa' Fr Hr]; [specialize (Hempty eq_refl); discriminate|].
        destruct (no_slash_cut po y pp (r ++ 63 :: z) On1) as [b' ->]. { cbn [app] in E3. rewrite E3. reflexivity. }
        destruct Hw as [Hw _]. destruct Hz as [Hz _].
        change (b' ++ 47 :: r ++ 63 :: z) with (b' ++ (47 :: r) ++ 63 :: z) in Hw. rewrite app_assoc in Hw.
        apply pct_split in Hw as (s1 & s2 & -> & _ & P2); [|lia|apply hex_not; cbn; auto].
        pose proof (pct_form_unique _ _ _ P2 Hz) as F. apply (f_equal (@length N)) in F. rewrite app_length in F. cbn in F. lia. }
      split; [exact NoColon|]. split; [|split; [exact NoAt|exact Empty]].
      intros ->. destruct Hp as [->|Hp].
      * rewrite Empty in E3 by reflexivity. destruct Hpp as [m Hm|c t ds m Hc Ht Hds Hm].
        -- cbn in E3. destruct Hpa as [|r pa' Fr Hr]; [|discriminate]. rewrite Hempty in E3 by reflexivity. discriminate.
        -- cbn in E3. injection E3 as -> E3. apply app_eq_nil in E3 as [-> _]. cbn in Hds. destruct Hds as [Hds _]. inversion Hds; subst ds.
           destruct Hm as (_ & es & Ne & _ & [Ee|Ee] & _); congruence.
      * destruct Hp as [p' Hp']. destruct Hpp as [m Hm|c t ds m Hc Ht Hds Hm].
        -- cbn in E3. destruct Hpa as [|r pa' Fr Hr]; [|discriminate]. rewrite Hempty in E3 by reflexivity. discriminate.
        -- cbn in E3. injection E3 as -> E3. destruct t as [|x t].
           ++ cbn in Hds. destruct Hds as [Hds _]. inversion Hds; subst ds. destruct Hm as (_ & es & Ne & _ & [Ee|Ee] & _); congruence.
           ++ cbn in E3. injection E3 as -> _. inversion Ht as [|? ? [Hx|Hx] _]; subst; [|discriminate]. revert Hx. apply not_part. lia.
  - intros (C1 & C2 & C3 & C4). rewrite in_app_iff in C3.
    apply (um_absolute s [] None None h d po n p pa q qu); [exact L|constructor|apply host_part; assumption|exact Hd|..|exact C4].
    + destruct Hpo as [|ds Fds].
      * constructor. cbn in Hport. subst n. exact Def.
      * destruct ds as [|x ds]; [contradiction|]. cbn in Hport. destruct (digits_form _ Fds) as (D1 & D2 & D3).
        eapply (pp_some s 58 (x :: ds) (x :: ds)); [auto|exact D2|rewrite D3; exact D1|]. split; [exact Hn|]. exists (x :: ds). split; [discriminate|]. auto.
    + destruct Hp as [->|Hp]; [change (pa = str "/") in Hpath; subst pa; constructor|]. destruct (path_chars p Hp) as (t & -> & Ft); [tauto|].
      constructor; [exact Ft|]. unfold path_meant in Hpath. rewrite blen_cons in Hpath. replace (1 + blen t =? 0) with false in Hpath by lia. exact Hpath.
    + destruct (query_chars q Hq) as [->|(y & -> & Fy)]; [tauto|cbn in Hquery; subst qu; constructor|]. cbn in Hquery. destruct Hquery as (z & Hz & ->). constructor; assumption.
Qed.
Lemma absolute_url s s0 h po p q u d n : (s = ScHttp /\ s0 = 80) \/ (s = ScHttps /\ s0 = 443) ->
  uri_host h -> port_opt po -> p = [] \/ abs_path p -> query_text q ->
  u_scheme u = s -> u_user u = None -> u_pass u = None -> u_domain u = Some d -> u_port u = Some n -> n < 65536 ->
  text_of h d -> port_meant s0 po n -> path_meant p (u_path u) -> query_meant q (u_query u) ->
  (url_parse (scheme_str s ++ str "://" ++ h ++ po ++ p ++ q) = Ok u <->
   ~ In 58 h /\ po <> [58] /\ ~ In 64 (p ++ q) /\ (p = [] -> q = [])).
Proof.
  intros Hs. apply absolute_form.
  - destruct Hs as [[-> _]|[-> _]]; constructor.
  - left. destruct Hs as [[-> ->]|[-> ->]]; cbn; auto.
Qed.
Lemma absolute_target k hs s s0 h po p q u d n : k <> MConnect -> (s = ScHttp /\ s0 = 80) \/ (s = ScHttps /\ s0 = 443) ->
  uri_host h -> port_opt po -> p = [] \/ abs_path p -> query_text q ->
  u_scheme u = s -> u_user u = None -> u_pass u = None -> u_domain u = Some d -> u_port u = Some n -> n < 65536 ->
  text_of h d -> port_meant s0 po n -> path_meant p (u_path u) -> query_meant q (u_query u) ->
  (wire_url k (scheme_str s ++ str "://" ++ h ++ po ++ p ++ q) hs u <->
   ~ In 58 h /\ po <> [58] /\ ~ In 64 (p ++ q) /\ (p = [] -> q = [])).
Proof.
  intros Hk Hs Hh Hpo Hp Hq U1 U2 U3 U4 U5 Hn Hd Hport Hpath Hquery.
  rewrite <- (absolute_url s s0 h po p q u d n) by assumption. split.
  - intros W. destruct W as [? ? ? _|u0 u1 u2 _ H1 H2 H3]; [contradiction|]. enough (D : u_domain u0 <> None /\ u_scheme u0 <> ScNone).
    { destruct D as [D1 D2]. destruct H2 as [_|D _|? ? ? D _ _]; [|contradiction..]. destruct H3 as [_|? D _]; [exact H1|contradiction]. }
    assert (Us : u_user u0 = None).
    { destruct H2; destruct H3; exact U2. }
    apply url_means_iff in H1.
    2:{ apply bytes_vchar. apply Forall_app. split; [destruct Hs as [[-> _]|[-> _]]; vlist|]. apply Forall_app. split; [vlist|].
        apply Forall_app. split; [apply host_vchar, Hh|]. apply Forall_app. split; [apply port_vchar, Hpo|]. apply Forall_app. split; [|apply query_vchar, Hq].
        destruct Hp as [->|Hp]; [constructor|apply abs_path_vchar, Hp]. }
    clear H2 H3. remember (scheme_str s ++ str "://" ++ h ++ po ++ p ++ q) as l eqn:E.
    destruct H1 as [pa s' qq o Hpa Npa Hqq|s' k' us pw h' d' pp n' pa s'' qq o L|s' k' h' us pp n' t pw r d' L|s' k' h' us pp n' t pw r s'' y o L|s' k' h' us pp n' t s'' y pw z o L];
      cbn [u_user] in Us; try discriminate.
    + exfalso. destruct Hpa; [contradiction|]. destruct Hs as [[-> _]|[-> _]]; discriminate.
    + cbn. split; [discriminate|]. destruct L; discriminate.
  - intros H. apply (wu_target k _ hs u u u Hk H).
    + apply hf_own. rewrite U4. discriminate.
    + apply sf_own. rewrite U1. destruct Hs as [[-> _]|[-> _]]; discriminate.
Qed.

(** ** Refusals *)
Lemma rfc_unknown_method q m t v ls rest : bytes_ok (rfc_request_text m t v ls ++ rest) -> rfc_request m t v ls ->
  (forall k s, In (k, s) method_names -> m <> str s) ->
  exists q', req_parse q (rfc_request_text m t v ls ++ rest) = (q', Err (EHttp MethodErr)).
Proof.
  intros Hb (Hm & _) N. eexists. apply request_bad_iff; [exact Hb|]. apply name_word in Hm. pose proof (word_first _ Hm) as (b & m' & -> & Vb).
  unfold rfc_request_text. rewrite <- app_assoc. cbn [app].
  apply (rb_method q [] b); [constructor|unfold vchar, CR, LF in *; lia..|]. apply (nb_unknown _ _ (b :: m') SP).
  - exact Hm.
  - unfold vchar, SP. lia.
  - intros (k & Hk & E). apply known_named in Hk as (s & K1 & K2). apply (N k s K1). congruence.
Qed.
Lemma rfc_unknown_version q m t v ls rest k s : bytes_ok (rfc_request_text m t v ls ++ rest) -> rfc_request m t v ls ->
  In (k, s) method_names -> m = str s -> v <> str "HTTP/1.0" -> v <> str "HTTP/1.1" ->
  exists q', req_parse q (rfc_request_text m t v ls ++ rest) = (q', Err (EHttp VersionErr)).
Proof.
  intros Hb (Hm & Ht & Hv & _) K1 -> N0 N1. destruct (known_named_str _ _ K1) as [K2 K3]. rewrite <- K3 in *. eexists. apply request_bad_iff; [exact Hb|].
  unfold rfc_request_text. napp. cbn [app].
  apply (rb_version q [] k 0 t (SP :: v ++ CRLF ++ lines_text ls ++ rest) (v ++ CRLF ++ lines_text ls ++ rest)); [constructor|exact K2|exact (target_word _ _ Ht)|..].
  - exists SP, (v ++ CRLF ++ lines_text ls ++ rest). split; [reflexivity|unfold vchar, SP; lia].
  - exists 1%nat. split; [reflexivity|]. destruct (word_first _ (rfc_version_word _ Hv)) as (b & v' & -> & V). cbn. unfold vchar, SP in *. injection 1. lia.
  - apply (nb_unknown _ _ v CR).
    + apply rfc_version_word, Hv.
    + unfold vchar, CR. lia.
    + intros (k' & Hk & E). destruct (rfc_version_known v Hv k' Hk (eq_sym E)); contradiction.
Qed.
(** In all other cases every field is read, with its raw value, unless the target has no URL. *)
Lemma rfc_request_read q m t v ls rest k s k' : rfc_request m t v ls -> In (k, s) method_names -> m = str s -> In k' known_versions -> v = version_str k' ->
  exists rs, Forall2 line_raw ls rs /\
    (forall u, wire_url k t (add_fields [] (combine (map ln_name ls) rs)) u ->
       req_parse q (rfc_request_text m t v ls ++ rest) = (mkReq k k' u (add_fields [] (combine (map ln_name ls) rs)) false, Ok (blen (rfc_request_text m t v ls)))) /\
    ((forall u, ~ wire_url k t (add_fields [] (combine (map ln_name ls) rs)) u) ->
       forall q' n, req_parse q (rfc_request_text m t v ls ++ rest) <> (q', Ok n)).
Proof.
  intros R K1 -> V ->. destruct (known_named_str _ _ K1) as [K2 K3]. rewrite <- K3 in *. destruct (rfc_request_head _ _ _ _ R) as (rs & R1 & R2). exists rs. split; [exact R1|].
  rewrite req_parse_eq, (req_parse_head q _ k t k' _ rest R2 K2 V). split.
  - intros u Hu. apply wire_url_spec in Hu. rewrite Hu. cbn [try_ fst snd]. do 2 f_equal. rewrite blen_app. lia.
  - intros N q' n. destruct (req_url_of k t (add_fields [] (combine (map ln_name ls) rs))) as [u|e| |] eqn:E; cbn [try_ fst snd]; try discriminate.
    apply wire_url_spec in E. contradiction (N u E).
Qed.

(** ** Responses *)
Lemma texty_not_eol r : Forall texty r -> Forall (fun b => b <> CR /\ b <> LF) r.
Proof. intros H. eapply Forall_impl; [|exact H]. unfold texty, field_vchar, blank, vchar, SP, TAB, CR, LF. intros; lia. Qed.
Lemma app_cut (a b x y : bytes) : length a = length b -> a ++ x = b ++ y -> a = b.
Proof.
  revert b. induction a as [|h a IH]; intros [|k b] L E; try discriminate; [reflexivity|]. cbn in *. injection E as -> E. f_equal. apply IH; [lia|exact E].
Qed.
Lemma rfc_response_exact p v c r ls rest : bytes_ok (rfc_response_text v c r ls ++ rest) -> rfc_response v c r ls ->
  ((exists p', resp_parse p (rfc_response_text v c r ls ++ rest) = (p', Ok (blen (rfc_response_text v c r ls))) /\
     version_str (p_version p') = v /\ three_digits (p_status p') = c /\ p_header p' = map line_field ls) <->
   (v = str "HTTP/1.0" \/ v = str "HTTP/1.1") /\ hd_error c <> Some 48 /\ (exists i x, r = spaces i ++ x /\ reason_ok x) /\
   Forall plain_line ls /\ distinct_names (map line_field ls)).
Proof.
  intros Hb (Hv & Hc1 & Hc2 & Hr & Hl). destruct (lines_read ls Hl) as (rs & R1 & R2). split.
  - intros (p' & E & Ev & Ec & Eh). apply response_exact in E; [|exact Hb].
    destruct E as (w & rest' & k & c' & hs & Ew & En & Hk & Hc' & Hh & ->). cbn [p_version p_status p_header] in *.
    assert (rfc_response_text v c r ls = w) as E.
    { apply (app_cut _ _ rest rest'); [|exact Ew]. unfold blen in En. lia. }
    rewrite status_str_three in Hh by exact Hc'. rewrite Ec, Ev in Hh. split; [exact (rfc_version_known v Hv k Hk Ev)|].
    split. { subst c. cbn. intros X. injection X as X. assert (c' / 100 = 0) by lia. apply N.div_small_iff in H; lia. }
    assert (Ex : exists i x, r = spaces i ++ x /\ reason_ok x).
    { inversion Hh as [bl v0 i c0 j x e fs hs0 Hbl Wv Wc Hx He Hfs E1]; subst v0 c0 hs0. rewrite <- E in E1. unfold rfc_response_text in E1.
      destruct (word_first _ (rfc_version_word _ Hv)) as (vb & v1 & Evb & Vvb).
      destruct Hbl as [|bl Hbl|bl Hbl]; [|rewrite Evb in E1; cbn in E1; injection E1 as E1 _; unfold vchar, CR, LF in *; lia..].
      cbn [app] in E1. apply app_inv_head in E1. cbn [spaces repeat app] in E1. injection E1 as E1.
      destruct (word_first _ Wc) as (cb & c1 & Ecb & Vcb).
      destruct i as [|i]; [|rewrite Ecb in E1; cbn in E1; injection E1 as E1 _; unfold vchar, SP in *; lia].
      cbn [spaces repeat app] in E1. apply app_inv_head in E1. injection E1 as E1.
      exists j, x. split; [|exact Hx]. symmetry.
      apply (span_cut (fun b => b <> CR /\ b <> LF) (spaces j ++ x) r (e ++ fs) (CRLF ++ lines_text ls)).
      - apply Forall_app. split.
        + eapply Forall_impl; [|exact (spaces_all j)]. intros b <-. unfold SP, CR, LF. lia.
        + destruct Hx as (_ & Hx & _). eapply Forall_impl; [|exact Hx]. unfold CR, LF. intros; lia.
      - apply texty_not_eol, Hr.
      - right. destruct He as [->| ->]; eexists _, _; (split; [reflexivity|]); unfold CR, LF; lia.
      - right. eexists _, _. split; [reflexivity|]. unfold CR, LF. lia.
      - rewrite <- app_assoc. exact E1. }
    split; [exact Ex|]. destruct Ex as (i & x & Ex & Hx).
    assert (Hh2 : response_head (rfc_response_text v c r ls) (version_str k) (status_str c') (combine (map ln_name ls) rs)).
    { rewrite status_str_three by exact Hc'. rewrite Ec, Ev. rewrite Ex. unfold rfc_response_text.
      replace (v ++ SP :: c ++ SP :: (spaces i ++ x) ++ CRLF ++ lines_text ls) with ([] ++ v ++ spaces 1 ++ c ++ spaces (S i) ++ x ++ CRLF ++ lines_text ls).
      - constructor; [constructor|apply rfc_version_word, Hv| |exact Hx|auto|exact R2]. split; [destruct c; discriminate|apply digits_vchar, Hc2].
      - cbn [spaces repeat app]. rewrite <- !app_assoc. reflexivity. }
    assert (F : resp_parse_buffer p (rfc_response_text v c r ls ++ rest) = resp_parse_buffer p (w ++ rest)) by (rewrite E; reflexivity).
    rewrite (resp_parse_head p _ k c' _ rest Hh2 Hk Hc') in F. rewrite E in Hh2.
    assert (Hh3 : response_head w (version_str k) (status_str c') hs) by (rewrite status_str_three by exact Hc'; rewrite Ec, Ev; exact Hh).
    rewrite (resp_parse_head p w k c' hs rest Hh3 Hk Hc') in F. apply (f_equal (fun x => p_header (fst x))) in F. cbn [fst p_header] in F.
    rewrite Eh in F. exact (proj1 (map_meant ls rs Hl R1) F).
  - intros (V & C & (i & x & Ex & Hx) & Pd). apply (map_meant ls rs Hl R1) in Pd.
    assert (exists k', In k' known_versions /\ v = version_str k') as (k' & V1 & ->).
    { destruct V as [-> | ->]; [exists V10|exists V11]; split; cbn; auto. }
    assert (exists c', 100 <= c' <= 999 /\ c = three_digits c') as (c' & Hc' & ->).
    { destruct c as [|c1 [|c2 [|c3 [|]]]]; try discriminate. cbn in C. inversion Hc2 as [|? ? D1 T1]; subst. inversion T1 as [|? ? D2 T2]; subst. inversion T2 as [|? ? D3 _]; subst.
      unfold digit in *. assert (c1 <> 48) by congruence.
      exists (100 * (c1 - 48) + 10 * (c2 - 48) + (c3 - 48)). split; [lia|]. unfold three_digits. f_equal; [|f_equal; [|f_equal]]; lia. }
    exists (mkResp c' k' (map line_field ls) false). split; [|auto].
    assert (Hh2 : response_head (rfc_response_text (version_str k') (three_digits c') r ls) (version_str k') (status_str c') (combine (map ln_name ls) rs)).
    { rewrite status_str_three by exact Hc'. rewrite Ex. unfold rfc_response_text.
      replace (version_str k' ++ SP :: three_digits c' ++ SP :: (spaces i ++ x) ++ CRLF ++ lines_text ls)
        with ([] ++ version_str k' ++ spaces 1 ++ three_digits c' ++ spaces (S i) ++ x ++ CRLF ++ lines_text ls).
      - constructor; [constructor|apply rfc_version_word, Hv| |exact Hx|auto|exact R2]. split; [discriminate|apply digits_vchar, Hc2].
      - cbn [spaces repeat app]. rewrite <- !app_assoc. reflexivity. }
    rewrite resp_parse_eq, (resp_parse_head p _ k' c' _ rest Hh2 V1 Hc'). rewrite Pd. cbn [fst snd]. do 2 f_equal. rewrite blen_app. lia.
Qed.
