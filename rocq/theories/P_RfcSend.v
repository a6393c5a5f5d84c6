(** Proofs about what is written, compared with RFC 9112 (C117). *)
From Coq Require Import Ascii String NArith ZArith Lia Bool List ZifyBool ZifyNat ZifyN.
From Verif Require Import Base S_Utf8 P_Base M_Std M_Helper M_Header M_Url M_Http1 S_Hex S_Http1Api P_Std P_Helper P_Header P_Http1 P_Msg
  P_Chunk S_Map P_Map S_Url P_Url P_UrlForm S_Build S_Reason S_Rfc9112 P_Rfc9112 S_RfcBody S_RfcMessage P_RfcMessage S_RfcReply P_RfcReply S_Rfc3986 M_Build S_WriteAll P_WriteAll S_RfcSend S_Http1.
Import ListNotations.
Local Open Scope N_scope.

(** ** Targets *)
Lemma pct_shorter l s : pct_form l s -> (length s <= length l)%nat.
Proof. induction 1; cbn [length] in *; lia. Qed.
Lemma pct_equal l s : pct_form l s -> length s = length l -> s = l /\ ~ In 37 l.
Proof.
  induction 1 as [|b l s Hb H IH|h x k y l s Hx Hy H IH]; cbn [length]; intros L; [auto| |apply pct_shorter in H; lia].
  destruct IH as [-> IH]; [lia|]. split; [reflexivity|]. intros [K|K]; auto.
Qed.
Lemma meant_shorter p s : path_meant p s -> (length s <= Nat.max 1 (length p))%nat.
Proof.
  unfold path_meant. destruct (blen p =? 0); [intros ->; apply (Nat.le_max_l 1)|]. intros [H _]. apply pct_shorter in H. lia.
Qed.
Lemma means_target m u t : target_means m u t -> rfc_target m t.
Proof.
  intros [p s _ P Q _ _|r _ (T & _ & H & O & P & Q & _) U F _|h ds d M H D _ _ _ _ _ _|M _ _].
  - apply rt_origin; assumption.
  - unfold uri_text. rewrite U, F, app_nil_r. cbn [app]. apply rt_absolute; assumption.
  - apply rt_authority; assumption.
  - apply rt_asterisk, M.
Qed.
Lemma means_longer m u t : target_means m u t -> (length (u_path u) <= length t)%nat.
Proof.
  intros [p s _ P Q Mp _|r _ (T & _ & _) U F (_ & _ & _ & _ & Mp & _)|h ds d M H D N _ _ _ K _|M K _].
  - apply meant_shorter in Mp. destruct P as [p P]. rewrite app_length in *. cbn [length] in *. lia.
  - apply meant_shorter in Mp. unfold uri_text. rewrite !app_length. cbn [length]. destruct T; cbn [length]. lia.
  - rewrite app_length. cbn [length]. destruct K as [-> | ->]; [change (length (str "/")) with 1%nat; lia|cbn; lia].
  - rewrite K. lia.
Qed.
Lemma first_blank (p t x y : bytes) : p ++ SP :: x = t ++ SP :: y -> ~ In SP t -> (length p <= length t)%nat -> p = t /\ x = y.
Proof.
  intros E N L. apply app_eq_app in E as (r & [[E1 E2]|[E1 E2]]).
  - subst p. rewrite app_length in L. destruct r as [|b r]; [|cbn in L; lia]. rewrite app_nil_r. injection E2 as ->. auto.
  - subst t. destruct r as [|b r].
    + rewrite app_nil_r. injection E2 as ->. auto.
    + injection E2 as <- _. destruct N. apply in_app_iff. right. left. reflexivity.
Qed.
Lemma word_blank t : word t -> ~ In SP t.
Proof. intros [_ F] K. rewrite Forall_forall in F. apply F in K. unfold vchar, SP in K. lia. Qed.
Lemma means_itself m u : target_means m u (u_path u) -> path_fine m u.
Proof.
  intros K. inversion K as [p s M P Q Mp Mq E|r M T U F (_ & _ & _ & _ & Mp & _) E|h ds d M H D N _ _ _ Z Y E|M Z Y E].
  - unfold path_meant in Mp. destruct P as [p P]. replace (blen (47 :: p) =? 0) with false in Mp by (unfold blen; cbn [length]; lia).
    destruct Mp as [Mp _]. pose proof (pct_shorter _ _ Mp) as L. rewrite app_length in L. destruct s as [|b s]; [|cbn in L; lia].
    rewrite app_nil_r in *. apply pct_equal in Mp as [_ Mp]; [|reflexivity].
    split; [exact M|]. split; [exact Mq|]. left. rewrite <- E. split; [reflexivity|]. constructor; [auto|].
    assert (I : ~ In 37 p) by (intros X; apply Mp; right; exact X). clear - P I. induction P as [|b l Hb H IH|h k l]; [constructor| |destruct I; left; reflexivity].
    constructor; [exact Hb|]. apply IH. intros X. apply I. right. exact X.
  - apply meant_shorter in Mp. unfold uri_text in Mp. rewrite !app_length in Mp. change (length (str "://")) with 3%nat in Mp. lia.
  - exfalso. assert (L : (length (h ++ 58%N :: ds) <= 1)%nat) by (destruct Z as [-> | ->]; [apply le_n|cbn; lia]). rewrite app_length in L. cbn [length] in L.
    destruct ds; [congruence|]. cbn in L. lia.
  - split; [rewrite M; discriminate|]. split; [exact Y|]. right. split; [exact M|symmetry; exact E].
Qed.
Lemma plain_form l : ~ In 37 l -> pct_form l l.
Proof. exact (pct_form_plain l). Qed.
Lemma fine_means m u : path_fine m u -> Forall (fun b => b < 128) (u_path u) /\ target_means m u (u_path u).
Proof.
  intros (M & Q & [[H F]|[O P]]).
  - assert (V : Forall (fun b => vchar b /\ b <> 63 /\ b <> 37) (u_path u)).
    { eapply Forall_impl; [|exact F]. intros b [X| ->]; [apply pchar_vchar in X; tauto|unfold vchar; lia]. }
    assert (A : Forall (fun b => b < 128) (u_path u)) by (eapply Forall_impl; [|exact V]; intros b [X _]; unfold vchar in X; lia).
    split; [exact A|]. destruct (u_path u) as [|b p] eqn:E; [discriminate H|]. injection H as ->.
    rewrite <- (app_nil_r (47 :: p)). apply tm_origin; [exact M| |constructor| |rewrite Q; reflexivity].
    + constructor. apply Forall_inv_tail in F. clear - F. induction F; constructor; assumption.
    + rewrite E. unfold path_meant. replace (blen (47 :: p) =? 0) with false by (unfold blen; cbn [length]; lia).
      split; [|apply utf8_valid_iff, utf8_valid_ascii, A]. apply pct_form_plain. intros I. rewrite Forall_forall in V. apply V in I. tauto.
  - rewrite P. split; [change (str "*") with [42]; constructor; [lia|constructor]|]. apply tm_asterisk; assumption.
Qed.

(** ** Lines *)
Lemma value_cr v : rfc_value v -> ~ In CR v.
Proof. intros V. apply value_texty, texty_ok in V. tauto. Qed.
Lemma blanks_cr v : Forall blank v -> ~ In CR v.
Proof. intros V. apply blanks_texty, texty_ok in V. tauto. Qed.
Lemma lines_same ls x y : Forall line_ok ls -> fields_text (map line_field ls) ++ x = lines_text ls ++ y -> x = y.
Proof.
  unfold fields_text, lines_text. rewrite <- !app_assoc. intros F. induction F as [|l ls (_ & L & V & T & _) F IH]; cbn [map concat]; [intros E; exact (app_inv_head CRLF _ _ E)|].
  unfold field_text, line_text, line_field at 1 2; cbn [fst snd]. rewrite <- !app_assoc. intros E. apply app_inv_head in E. cbn [app] in E. injection E as E.
  assert (Cr : forall z, CRLF ++ z = CR :: LF :: z) by reflexivity. rewrite <- !app_assoc in E. rewrite !Cr in E.
  apply IH. assert (K : (SP :: ln_value l) ++ CR :: LF :: (concat (map field_text (map line_field ls)) ++ CRLF ++ x) = (ln_lead l ++ ln_value l ++ ln_trail l) ++ CR :: LF :: (concat (map line_text ls) ++ CRLF ++ y)).
  { rewrite <- !app_assoc. exact E. }
  apply (cut_at CR) in K as [_ K]; [injection K as K; exact K| | |right; eauto|right; eauto].
  - intros [X|X]; [discriminate X|]. exact (value_cr _ V X).
  - rewrite !in_app_iff. intros [X|[X|X]]; [exact (blanks_cr _ L X)|exact (value_cr _ V X)|exact (blanks_cr _ T X)].
Qed.
(** The lines that are written. *)
Definition lines_of (fs : list (bytes * bytes)) : list line := map (fun nv => mkLine (fst nv) [SP] (snd nv) []) fs.
Lemma lines_of_ok fs : fields_fine fs -> Forall line_ok (lines_of fs) /\ map line_field (lines_of fs) = fs /\ lines_text (lines_of fs) = fields_text fs.
Proof.
  intros F. unfold lines_text, fields_text. split; [|split].
  - induction F as [|nv fs [N V] F IH]; cbn [lines_of map]; constructor; [|exact IH]. split; [exact N|]. split; [constructor; [left; reflexivity|constructor]|]. split; [exact V|]. split; [constructor|reflexivity].
  - clear F. induction fs as [|[n v] fs IH]; [reflexivity|]. cbn. f_equal. exact IH.
  - clear F. f_equal. f_equal. unfold lines_of. rewrite map_map. apply map_ext. intros [n v]. reflexivity.
Qed.
Lemma fields_fine_lines ls : Forall line_ok ls -> fields_fine (map line_field ls).
Proof. intros F. apply Forall_map. eapply Forall_impl; [|exact F]. intros l (N & _ & V & _). auto. Qed.
Lemma http1_iff v : v <> VNone -> (rfc_version (version_str v) <-> http1 v).
Proof.
  intros N. split.
  - intros H. assert (L : length (version_str v) = 8%nat) by (destruct H; reflexivity). destruct v; try discriminate L; try congruence; [left|right]; reflexivity.
  - intros [-> | ->]; [apply (rv_intro 49 48)|apply (rv_intro 49 49)]; unfold digit; lia.
Qed.

(** ** Requests *)
Lemma request_exact q body w : req_http1_data q body = Ok w -> (request_said q body w <-> request_fine q body).
Proof.
  intros E. unfold req_http1_data in E. destruct (req_encode_header q) as [hd|e| |] eqn:H; try discriminate E. cbn [bind] in E. injection E as <-.
  apply request_all in H. inversion H as [| |NM NV EH]. clear H. subst hd. unfold request_said, request_fine.
  set (m := method_str (q_method q)). set (u := q_url q). set (fs := q_header q).
  split.
  - intros (t & ls & x & (Nm & _ & Vv & L) & Fr & E & T & Ef & Eb & Ho).
    assert (W : ~ In SP t) by (eapply word_blank, target_word, means_target, T).
    unfold request_text, rfc_request_text in E. rewrite <- !app_assoc in E. apply app_inv_head in E. cbn [app] in E. injection E as E.
    rewrite <- ?app_assoc in E. cbn [app] in E. rewrite <- ?app_assoc in E.
    apply first_blank in E as [Et E]; [|exact W|exact (means_longer _ _ _ T)].
    apply app_inv_head in E. cbn [app] in E. injection E as E. rewrite <- Ef in E. apply lines_same in E; [|exact L].
    rewrite <- Et in T. pose proof (means_itself _ _ T) as PF. rewrite Ef in Fr.
    split; [exact Nm|]. split; [apply http1_iff; assumption|]. split; [exact PF|]. split; [rewrite <- Ef; apply fields_fine_lines, L|].
    split; [|intros V; rewrite <- Ef; apply Ho; unfold m; rewrite V; reflexivity].
    destruct Fr as [v c Te Fc Cc _|v b Te Cl D|Te Cl]; cbn [body_meant body_wire] in *.
    + exfalso. pose proof (chunked_longer c) as K. rewrite Eb, <- E in K. lia.
    + subst b. split; [exact Te|]. rewrite Cl. exact D.
    + split; [exact Te|]. rewrite Cl. symmetry. exact Eb.
  - intros (Nm & Vv & PF & FF & (Te & Cl) & Ho). destruct (lines_of_ok fs FF) as (LO & LF & LT). destruct (fine_means _ _ PF) as [_ T].
    exists (u_path u), (lines_of fs). rewrite LF.
    assert (X : exists x, rfc_framed fs x /\ body_wire x = body /\ body_meant x = body).
    { destruct (cl_of fs) as [v|] eqn:C.
      - exists (BSized body). split; [eapply rf_length; eassumption|split; reflexivity].
      - subst body. exists BNone. split; [apply rf_none; assumption|split; reflexivity]. }
    destruct X as (x & X1 & X2 & X3). exists x. split.
    { split; [exact Nm|]. split; [exact (means_target _ _ _ T)|]. split; [apply http1_iff; assumption|exact LO]. }
    split; [exact X1|]. split.
    { unfold request_text, rfc_request_text. rewrite LT, X2, <- !app_assoc. cbn [app]. rewrite <- !app_assoc. cbn [app]. rewrite <- ?app_assoc. reflexivity. }
    split; [exact T|]. split; [reflexivity|]. split; [exact X3|]. intros V. apply Ho. destruct (q_version q); try discriminate V. reflexivity.
Qed.

(** ** Responses *)
Lemma phrase_texty c s : phrase c s -> Forall texty s.
Proof.
  assert (B : forall t, forallb (fun b => (b =? 9) || (b =? 32) || ((33 <=? b) && (b <=? 126))) t = true -> Forall texty t).
  { intros t H. apply Forall_forall. intros b I. rewrite forallb_forall in H. apply H in I. unfold texty, field_vchar, vchar, blank, SP, TAB. lia. }
  intros [[_ ->]|[_ (t & I & ->)]]; apply B; [reflexivity|].
  assert (A : forallb (fun x => forallb (fun b => (b =? 9) || (b =? 32) || ((33 <=? b) && (b <=? 126))) (str (snd x))) iana_reasons = true) by (vm_compute; reflexivity).
  rewrite forallb_forall in A. exact (A _ I).
Qed.
Lemma bodiless_dec k code : {bodiless k code} + {~ bodiless k code}.
Proof.
  assert (D : {k = MHead} + {k <> MHead}) by (destruct k; (left; reflexivity) || (right; discriminate)).
  assert (C : {k = MConnect} + {k <> MConnect}) by (destruct k; (left; reflexivity) || (right; discriminate)).
  unfold bodiless. destruct D as [D|D]; [left; auto|].
  destruct ((100 <=? code) && (code <? 200) || (code =? 204) || (code =? 304)) eqn:A; [left; lia|].
  destruct C as [C|C]; [|right; intros K; intuition lia]. destruct ((200 <=? code) && (code <? 300)) eqn:B; [left; right; right; right; right; split; [exact C|lia]|right; intros K; intuition lia].
Qed.
Lemma response_exact k p body w : 100 <= p_status p <= 999 -> resp_httpdata p body = Ok w -> (response_said k p body w <-> response_fine k p body).
Proof.
  intros R E. unfold resp_httpdata in E. destruct (resp_encode_header p) as [hd|e| |] eqn:H; try discriminate E. cbn [bind] in E. injection E as <-.
  apply response_all in H; [|exact R]. inversion H as [| |s NV PH EH]. clear H. subst hd. unfold response_said, response_fine.
  rewrite (status_str_three _ R). set (fs := p_header p). apply phrase_texty in PH.
  split.
  - intros (r & ls & x & (Vv & _ & _ & Rr & L) & Fr & E & Ef & Eb).
    unfold response_text, rfc_response_text in E. rewrite <- !app_assoc in E. apply app_inv_head in E. cbn [app] in E. injection E as E.
    rewrite <- ?app_assoc in E. cbn [app] in E.
    apply (cut_at CR) in E as [_ E]; [|intros X; apply texty_ok in PH as [_ PH]; exact (PH X)|intros X; apply texty_ok in Rr as [_ Rr]; exact (Rr X)|right; eauto|right; eauto].
    injection E as E. rewrite <- Ef in E. apply lines_same in E; [|exact L]. rewrite Ef in Fr.
    split; [apply http1_iff; assumption|]. split; [rewrite <- Ef; apply fields_fine_lines, L|].
    destruct Fr as [Bl|v c Bl Te Fc Cc _|v b Bl Te Fc|v b Bl Te Cl D|b Bl Te Cl]; cbn [reply_meant reply_wire] in *.
    + split; [auto|]. intros K. contradiction.
    + exfalso. pose proof (chunked_longer c) as K. rewrite Eb, <- E in K. lia.
    + split; [intros K; contradiction|]. intros _. split; [intros v' K; congruence|congruence].
    + split; [intros K; contradiction|]. intros _. split; [congruence|]. intros _ v' K. subst b. congruence.
    + split; [intros K; contradiction|]. intros _. split; congruence.
  - intros (Vv & FF & B1 & B2). destruct (lines_of_ok fs FF) as (LO & LF & LT).
    exists s, (lines_of fs). rewrite LF.
    assert (X : exists x, reply_framed k (p_status p) fs x /\ reply_wire x = body /\ reply_meant x = body).
    { destruct (bodiless_dec k (p_status p)) as [Bl|Bl].
      - exists RNone. rewrite (B1 Bl). split; [apply pf_none, Bl|split; reflexivity].
      - destruct (B2 Bl) as [T C]. destruct (te_of fs) as [v|] eqn:Te.
        + exists (RClose body). split; [eapply pf_coded; eauto|split; reflexivity].
        + destruct (cl_of fs) as [v|] eqn:Cl; [exists (RSized body); split; [eapply pf_length; eauto|split; reflexivity]|].
          exists (RClose body). split; [apply pf_close; assumption|split; reflexivity]. }
    destruct X as (x & X1 & X2 & X3). exists x. split.
    { split; [apply http1_iff; assumption|]. split; [reflexivity|]. split; [|split; [exact PH|exact LO]].
      unfold three_digits. repeat (apply Forall_cons; [unfold digit; lia|]). apply Forall_nil. }
    split; [exact X1|]. split; [|split; [reflexivity|exact X3]].
    unfold response_text, rfc_response_text. rewrite LT, X2, <- !app_assoc. cbn [app]. rewrite <- !app_assoc. cbn [app]. rewrite <- ?app_assoc. reflexivity.
Qed.

(** ** Chunks *)
Lemma chunks_exact ds : (exists c, chunked_ok c /\ chunked_text c = concat (map encode_chunk_data ds) ++ encode_chunk_data [] /\ chunked_data c = ds) <-> Forall (fun d => d <> []) ds.
Proof.
  split.
  - intros (c & (C & _) & _ & <-). apply Forall_map. eapply Forall_impl; [|exact C]. intros k (_ & _ & _ & K). exact K.
  - intros F. exists (mkChunked (map (fun d => mkChunk (hex_print (blen d)) [] d) ds) 0 [] []). split; [|split].
    + split; [|split; [left; reflexivity|constructor]]. apply Forall_map. eapply Forall_impl; [|exact F]. intros d D. destruct (hex_print_num (blen d)) as [H1 H2].
      split; [exact H2|]. split; [exact H1|]. split; [left; reflexivity|exact D].
    + unfold chunked_text. cbn [cd_chunks cd_zeros cd_ext cd_trailer]. f_equal. rewrite map_map. reflexivity.
    + unfold chunked_data. cbn [cd_chunks]. rewrite map_map. apply map_id.
Qed.

(** ** Built requests *)
Definition built (m : method) (u : url) (d : bytes) (n : N) : request :=
  mkReq m V11 u [(str "Host", d ++ 58 :: dec_print n); (str "User-Agent", str "wenmeng")] true.
Lemma built_runs m t u d n : In m known_methods -> url_parse t = Ok u -> u_domain u = Some d -> u_port u = Some n ->
  req_build [RbMethod (method_str m); RbUrl t] = Ok (built m u d n) /\ req_build [RbMethodVal m; RbUrlVal u] = Ok (built m u d n).
Proof.
  intros M E D P. unfold req_build, req_builder, req_builder_from. cbn [fold_left req_op_apply bind]. rewrite E. cbn [bind].
  replace (method_of_str (method_str m)) with (Ok m) by (cbn in M; intuition subst; reflexivity). cbn [bind].
  unfold rb_set_url, url_connect. rewrite D, P. split; reflexivity.
Qed.
Lemma own_last (d h x y : bytes) : ~ In 58 x -> ~ In 58 y -> d ++ 58 :: x = h ++ 58 :: y -> d = h /\ x = y.
Proof.
  intros X Y E. apply (f_equal (@rev N)) in E. rewrite !rev_app_distr in E. cbn [rev] in E. rewrite <- !app_assoc in E. cbn [app] in E.
  apply (cut_at 58) in E as [E1 E2]; [| | |right; eauto|right; eauto].
  - apply (f_equal (@rev N)) in E1. rewrite !rev_involutive in E1. injection E2 as E2. apply (f_equal (@rev N)) in E2. rewrite !rev_involutive in E2. auto.
  - rewrite <- in_rev. exact X.
  - rewrite <- in_rev. exact Y.
Qed.
Lemma no_colon ds : Forall digit ds -> ~ In 58 ds.
Proof. intros F I. rewrite Forall_forall in F. apply F in I. unfold digit in I. lia. Qed.
Lemma host_value_fine d n : uri_host d -> rfc_value (d ++ 58 :: dec_print n).
Proof.
  intros H. destruct (dec_print_decimal n) as (D1 & D2 & _). apply host_vchar in H. apply digits_vchar in D2.
  assert (V : Forall vchar (d ++ 58 :: dec_print n)) by (apply Forall_app; split; [exact H|constructor; [unfold vchar; lia|exact D2]]).
  destruct (d ++ 58 :: dec_print n) as [|b l] eqn:E; [left; reflexivity|]. right. destruct (exists_last (l := l)) as (w & c & ->).
  { intros ->. destruct d as [|x d]; [injection E as _ E; contradiction|]. injection E as _ E. destruct d; discriminate E. }
  right. exists b, w, c. split; [reflexivity|]. pose proof (Forall_inv V) as V1. apply Forall_inv_tail, Forall_app in V as [V2 V3]. apply Forall_inv in V3.
  split; [left; exact V1|]. split; [left; exact V3|]. eapply Forall_impl; [|exact V2]. intros x X. left. left. exact X.
Qed.
Lemma built_exact m t u d n : In m known_methods -> url_parse t = Ok u -> u_domain u = Some d -> u_port u = Some n ->
  exists w, req_http1_data (built m u d n) [] = Ok w /\ (request_said (built m u d n) [] w <-> host_fine d /\ path_fine (method_str m) u).
Proof.
  intros M E D P.
  assert (W : exists w, req_http1_data (built m u d n) [] = Ok w).
  { unfold req_http1_data, req_encode_header, built. cbn [q_method q_version q_url q_header]. cbn in M. intuition subst; cbn [method_encode version_encode bind]; eauto. }
  destruct W as (w & W). exists w. split; [exact W|]. rewrite (request_exact _ _ _ W). unfold request_fine, built. cbn [q_method q_version q_url q_header].
  assert (Hf : host_fields [(str "Host", d ++ 58 :: dec_print n); (str "User-Agent", str "wenmeng")] = [d ++ 58 :: dec_print n]) by reflexivity.
  destruct (dec_print_decimal n) as (D1 & D2 & D3).
  split.
  - intros (_ & _ & PF & _ & _ & H). split; [|exact PF]. destruct (H eq_refl) as (h & po & K & Hh & Hp & T). rewrite Hf in K. injection K as K.
    destruct (T d D) as [[T1 T2] _]. destruct Hp as [|ds Hp].
    + exfalso. rewrite app_nil_r in K. destruct Hh as [Hh|Hh].
      * apply reg_vchar in Hh. rewrite <- K in Hh. apply Forall_app in Hh as [_ Hh]. apply Forall_inv in Hh. destruct Hh as [_ Hh]. apply Hh. left. reflexivity.
      * destruct (exists_last D1) as (x & c & Ex). rewrite Ex in K, D2. apply Forall_app in D2 as [_ D2]. apply Forall_inv in D2.
        inversion Hh as [a _ Eh]. rewrite <- Eh in K. assert (K2 : (d ++ 58 :: x) ++ [c] = (91 :: a) ++ [93]) by (rewrite <- app_assoc; exact K).
        apply app_inj_tail in K2 as [_ K2]. subst c. unfold digit in D2. lia.
    + apply own_last in K as [-> _]; [|apply no_colon, D2|apply no_colon, Hp]. split; [exact Hh|]. apply pct_equal in T1; [tauto|reflexivity].
  - intros [[Hh Hn] PF]. split. { cbn in M. intuition subst; apply name_okb_ok; reflexivity. } split; [right; reflexivity|]. split; [exact PF|]. split.
    { constructor; [split; [apply name_okb_ok; reflexivity|apply host_value_fine, Hh]|constructor; [split; [apply name_okb_ok; reflexivity|]|constructor]].
      right. right. exists 119, (str "enmen"), 103. split; [reflexivity|]. split; [left; unfold vchar; lia|]. split; [left; unfold vchar; lia|].
      change (str "enmen") with [101; 110; 109; 101; 110]. repeat (apply Forall_cons; [left; left; unfold vchar; lia|]). apply Forall_nil. }
    split; [split; reflexivity|]. intros _. exists d, (58 :: dec_print n). rewrite Hf. split; [reflexivity|]. split; [exact Hh|]. split; [constructor; exact D2|].
    intros d' E'. rewrite D in E'. injection E' as <-. split.
    + split; [apply pct_form_plain, Hn|]. apply utf8_valid_iff, utf8_valid_ascii. apply host_vchar in Hh. eapply Forall_impl; [|exact Hh]. intros b X. unfold vchar in X. lia.
    + intros n' n0 P' _. rewrite P in P'. injection P' as <-. unfold port_meant. destruct (dec_print n); [congruence|]. exact D3.
Qed.
