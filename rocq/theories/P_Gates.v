(** Proofs for C132. *)
From Coq Require Import Ascii String NArith ZArith Lia Bool List Permutation ZifyBool ZifyNat ZifyN.
From Verif Require Import Base S_Utf8 P_Base M_Std M_Helper M_Header M_Url M_Http1 S_Hex S_Http1Api P_Std P_Helper P_Header P_Http1 P_Msg
  S_Map P_Map S_Url P_Url P_UrlForm S_Build S_Rfc9112 P_Rfc9112 S_RfcBody S_RfcMessage P_RfcMessage S_RfcReply P_RfcReply S_Rfc3986 P_Rfc3986 M_Build P_Build2 P_Build3 S_WriteAll P_WriteAll
  S_Stream P_Stream S_Via P_Via S_RfcSend P_RfcSend S_RfcShow P_RfcShow M_Hpack S_Hpack P_Huffman M_Frame M_H2 S_Rfc9113 P_Rfc9113 S_RfcMeans P_RfcMeans S_RfcFrames S_RfcAsk P_RfcAsk S_RfcRelay P_RfcRelay S_RfcVia P_RfcVia S_FrameAll P_HpackTable S_Gates S_Http1.
Import ListNotations.
Local Open Scope N_scope.

(** ** Names *)
Lemma lower_name_ok n : name_ok n -> lower_token (fold_name n).
Proof.
  intros [N T]. split; [destruct n; [congruence|discriminate]|]. unfold fold_name. rewrite Forall_map. eapply Forall_impl; [|exact T]. intros b B. unfold fold_byte.
  destruct ((65 <=? b) && (b <=? 90)) eqn:E; [unfold tchar, alpha, upper, lower, digit; lia|split; [exact B|unfold upper; lia]].
Qed.
Lemma name_bytes n : name_ok n -> bytes_ok n.
Proof. intros [_ T]. eapply Forall_impl; [|exact T]. intros b B. apply tchar_not in B. unfold byte_ok. lia. Qed.
Lemma token_name n : lower_token n -> name_ok n.
Proof. intros [N T]. split; [exact N|]. eapply Forall_impl; [|exact T]. cbn. tauto. Qed.
Lemma fold_back_byte x y : 33 <= x <= 126 -> 33 <= y <= 126 -> eq_byte_ic (fold_byte x) (fold_byte y) = true -> eq_byte_ic x y = true.
Proof.
  intros X Y. unfold eq_byte_ic, fold_byte. cbv zeta. intros H. destruct (x =? y) eqn:E; [reflexivity|].
  destruct ((65 <=? x) && (x <=? 90)) eqn:EX; destruct ((65 <=? y) && (y <=? 90)) eqn:EY.
  - destruct (x + 32 =? y + 32) eqn:E2; lia.
  - destruct (x + 32 =? y) eqn:E2; lia.
  - destruct (x =? y + 32) eqn:E2; lia.
  - rewrite E in H. exact H.
Qed.
Lemma fold_back a : forall b, Forall tchar a -> Forall tchar b -> name_eq (fold_name a) (fold_name b) = true -> name_eq a b = true.
Proof.
  unfold name_eq. induction a as [|x a IH]; intros [|y b] A B H; try discriminate H; [reflexivity|]. cbn [fold_name map eq_bytes_ic] in *. apply andb_true_iff in H as [H1 H2].
  apply Forall_cons_iff in A as [A1 A2]. apply Forall_cons_iff in B as [B1 B2]. apply tchar_not in A1, B1. rewrite (fold_back_byte x y) by (lia || exact H1). exact (IH b A2 B2 H2).
Qed.
Lemma letter_byte x c : 33 <= x <= 126 -> 97 <= c <= 122 -> eq_byte_ic x c = true -> fold_byte x = c.
Proof. intros X C. unfold eq_byte_ic, fold_byte. cbv zeta. destruct (x =? c) eqn:E; intros H; destruct ((65 <=? x) && (x <=? 90)) eqn:EX; lia. Qed.
Lemma letters_true k : Forall (fun c => 97 <= c <= 122) k -> forall n, Forall tchar n -> name_eq n k = true -> fold_name n = k.
Proof.
  unfold name_eq. induction 1 as [|c k C _ IH]; intros [|x n] T H; try discriminate H; [reflexivity|]. cbn [eq_bytes_ic] in H. apply andb_true_iff in H as [H1 H2].
  apply Forall_cons_iff in T as [T1 T2]. apply tchar_not in T1. unfold fold_name in *. cbn [map]. rewrite (letter_byte x c) by (lia || assumption). f_equal. apply IH; assumption.
Qed.
Lemma host_true n : name_ok n -> name_eq n (str "host") = true -> fold_name n = str "host".
Proof. change (str "host") with [104; 111; 115; 116]. intros [_ T]. apply letters_true; [|exact T]. repeat (apply Forall_cons; [lia|]). apply Forall_nil. Qed.
Lemma lower_pair f : lower_field f = (fold_name (fst f), snd f).
Proof. reflexivity. Qed.

(** ** Fields *)
Lemma ready_h2 h : ready_fields h -> Forall h2_field (map lower_field h).
Proof.
  intros (F & V & _ & _ & C). rewrite Forall_map in C |- *. unfold fields_ok in F. rewrite Forall_forall in *. intros f I. destruct (F f I) as [F1 _]. destruct (C f I) as [C1 C2].
  split; [apply lower_name_ok, F1|]. split; [exact (V f I)|]. auto.
Qed.
Lemma lower_distinct h : fields_ok h -> distinct_names h -> distinct_names (map lower_field h).
Proof.
  induction h as [|f h IH]; intros F D; [exact I|]. apply Forall_cons_iff in F as [[[_ F1] _] F2]. destruct D as [D1 D2]. cbn [map distinct_names]. split; [|apply IH; assumption].
  rewrite Forall_map. rewrite Forall_forall in D1 |- *. intros g G. specialize (D1 g G). unfold fields_ok in F2. rewrite Forall_forall in F2. destruct (F2 g G) as [[_ G1] _].
  rewrite !lower_pair. cbn [fst]. destruct (name_eq (fold_name (fst f)) (fold_name (fst g))) eqn:E; [|reflexivity]. apply fold_back in E; [|assumption..]. congruence.
Qed.
Lemma others_distinct (fs : headers) : distinct_names fs -> distinct_names (others fs).
Proof.
  induction fs as [|f fs IH]; intros D; [exact I|]. destruct D as [D1 D2]. unfold others. cbn [filter]. destruct (negb (is_host f)); [|apply IH, D2]. split; [|apply IH, D2].
  rewrite Forall_forall in *. intros g G. apply filter_In in G as [G _]. auto.
Qed.
Lemma get_lower (h : headers) k : fields_ok h -> Forall (fun f => name_eq (fst f) k = true -> fold_name (fst f) = k) h -> lower_token k -> k <> str "host" ->
  hm_get (others (map lower_field h)) k = hm_get h k.
Proof.
  intros F T L NH. induction h as [|[n v] h IH]; [reflexivity|]. apply Forall_cons_iff in F as [[[_ F1] _] F2]. apply Forall_cons_iff in T as [T1 T2]. cbn [fst] in *. specialize (IH F2 T2).
  unfold others in *. cbn [map filter]. rewrite lower_pair. cbn [fst snd]. unfold is_host at 1. cbn [fst hm_get]. destruct (name_eq n k) eqn:E.
  - rewrite (T1 eq_refl). destruct (beq k (str "host")) eqn:B; [apply beq_eq in B; congruence|]. cbn [negb hm_get]. rewrite name_eq_refl. reflexivity.
  - assert (X : name_eq (fold_name n) k = false).
    { destruct (name_eq (fold_name n) k) eqn:K; [|reflexivity]. rewrite <- (lower_fold k L) in K. apply fold_back in K; [congruence|exact F1|]. apply token_name in L. apply L. }
    destruct (negb (beq (fold_name n) (str "host"))); [cbn [hm_get]; rewrite X|]; exact IH.
Qed.
Lemma get_lower_all (h : headers) k : fields_ok h -> Forall (fun f => name_eq (fst f) k = true -> fold_name (fst f) = k) h -> lower_token k -> hm_get (map lower_field h) k = hm_get h k.
Proof.
  intros F T L. induction h as [|[n v] h IH]; [reflexivity|]. apply Forall_cons_iff in F as [[[_ F1] _] F2]. apply Forall_cons_iff in T as [T1 T2]. cbn [fst] in *. specialize (IH F2 T2).
  cbn [map]. rewrite lower_pair. cbn [fst snd hm_get]. destruct (name_eq n k) eqn:E.
  - rewrite (T1 eq_refl), name_eq_refl. reflexivity.
  - destruct (name_eq (fold_name n) k) eqn:K; [|exact IH]. rewrite <- (lower_fold k L) in K. apply fold_back in K; [congruence|exact F1|]. apply token_name in L. apply L.
Qed.
Lemma get_host_field (h : headers) d : fields_ok h -> Forall (same_host d) (map lower_field h) -> In (str "host") (map fst (map lower_field h)) -> hm_get h (str "host") = Some d.
Proof.
  induction h as [|[n v] h IH]; intros F S I; [destruct I|]. apply Forall_cons_iff in F as [[F1 _] F2]. cbn [map] in S, I. apply Forall_cons_iff in S as [S1 S2]. rewrite lower_pair in S1, I. cbn [fst snd hm_get] in *.
  destruct (name_eq n (str "host")) eqn:E; [f_equal; apply S1, host_true; assumption|]. apply IH; [exact F2|exact S2|]. destruct I as [I|I]; [|exact I]. exfalso.
  assert (X : name_eq n (str "host") = true); [|congruence]. apply fold_name_eq; [apply name_bytes, F1|change (str "host") with [104; 111; 115; 116]; repeat (apply Forall_cons; [unfold byte_ok; lia|]); apply Forall_nil|exact I].
Qed.
Lemma framed_sized h b : framed h (Sized b) -> hm_get h (str "transfer-encoding") = None /\ hm_is_chunked h = false.
Proof. intros F. assert (E : hm_get h (str "transfer-encoding") = None) by (inversion F; assumption). split; [exact E|]. unfold hm_is_chunked. rewrite E. reflexivity. Qed.
Lemma framed_get h h' b : hm_get h' (str "transfer-encoding") = hm_get h (str "transfer-encoding") -> hm_get h' (str "content-length") = hm_get h (str "content-length") -> framed h (Sized b) -> framed h' (Sized b).
Proof. intros E1 E2 F. inversion F; subst; [apply fr_none; congruence|eapply fr_length; try eassumption; congruence]. Qed.

(** ** Over HTTP/1 *)
Lemma get_none h n : Forall (fun f : bytes * bytes => name_eq (fst f) n = false) h -> hm_get h n = None.
Proof. induction 1 as [|[a v] h E _ IH]; [reflexivity|]. cbn [fst hm_get] in *. rewrite E. exact IH. Qed.
Lemma ready_plain q d : ready_target q d -> plain_path (u_path (q_url q)).
Proof.
  intros (_ & _ & _ & _ & _ & H & F & _). split; [exact H|]. eapply Forall_impl; [|exact F]. intros b [[X| ->] N]; [apply pchar_vchar in X; tauto|unfold vchar; lia].
Qed.
Lemma ready_url q d : ready_target q d -> fields_ok (q_header q) -> Forall (fun f => forall n, In n (map str [":method"; ":authority"; ":scheme"; ":path"]%string) -> name_eq n (fst f) = false) (q_header q) ->
  wire_url (q_method q) (u_path (q_url q)) (q_header q) (q_url q).
Proof.
  intros T F C. pose proof (ready_plain _ _ T) as P. destruct T as (_ & NC & _ & _ & U & _ & _ & DN & HP & N58 & SH & IH).
  assert (A : Forall (fun b => b < 128) d) by (destruct HP as [UH _]; apply vchar_ascii, host_vchar, UH).
  set (p := u_path (q_url q)) in *. clearbody p. rewrite U.
  apply (wu_target _ _ _ (mkUrl ScNone p None None None (Some 0) None) (with_host (mkUrl ScNone p None None None (Some 0) None) d 80)).
  - exact NC.
  - apply url_parse_plain, P.
  - apply (hf_host _ _ d); [reflexivity| |apply hp_plain, N58]. unfold hm_get_host. rewrite (get_host_field _ d F SH IH). f_equal. apply utf8_lossy_valid, utf8_valid_ascii, A.
  - apply (sf_hint _ (with_host (mkUrl ScNone p None None None (Some 0) None) d 80)); [reflexivity|]. apply sh_none. apply get_none.
    unfold fields_ok in F. rewrite Forall_forall in C, F |- *. intros f I. rewrite name_eq_sym; [apply C; [exact I|cbn; auto 6]|apply name_bytes, F, I|]. unfold bytes_ok. vm_compute (str _). repeat (apply Forall_cons; [unfold byte_ok; lia|]); apply Forall_nil.
Qed.
Lemma over_http1 x d : request_ready x d -> pass_request OverHttp1 x = Ok x.
Proof.
  destruct x as [q b]. intros (T & (F & V & DN & NT & C) & CF & FR). cbn [fst snd] in *. pose proof (ready_url q d T F CF) as WU. pose proof (ready_plain _ _ T) as PP.
  destruct (framed_sized _ _ FR) as [_ NC]. unfold pass_request, S_Via.request_again, form_again. cbn [fst snd]. rewrite NC.
  assert (OK : request_ok (q, Sized b)).
  { destruct T as (M & _ & VV & _). split; [exact M|]. cbn [fst snd]. split; [rewrite VV; vm_compute; auto|]. split; [apply plain_path_word, PP|]. split; [eexists; exact WU|]. auto. }
  destruct (over_requests_ok [(q, Sized b)]) as (got & -> & S); [constructor; [exact OK|constructor]|]. inversion S as [|? g ? ? G S']; subst. inversion S'; subst. cbn [bind one]. f_equal.
  apply (same_request_fun (q, Sized b)); [exact G|]. destruct T as (_ & _ & _ & P0 & _). unfold same_request. cbn [fst snd body_content]. auto 10.
Qed.

(** ** Over HTTP/2 *)
Lemma partial_kept L fh fs q : read_request L fh fs = Ok q -> q_partial q = false.
Proof.
  unfold read_request, read_with. destruct (hdr_collect L 0 (headers_new fh []) fs) as [h [ |e| | ]] eqn:E; try discriminate.
  unfold headers_into_request. cbv zeta. destruct (parts_build_url (hf_parts h)) as [u|e| | ]; try discriminate.
  cbn [bind]. intros H. injection H as <-. destruct (pt_method (hf_parts h)), (url_connect u); reflexivity.
Qed.
Lemma url_eta u : u = mkUrl (u_scheme u) (u_path u) (u_user u) (u_pass u) (u_domain u) (u_port u) (u_query u).
Proof. destruct u. reflexivity. Qed.
Lemma req_eta q : q = mkReq (q_method q) (q_version q) (q_url q) (q_header q) (q_partial q).
Proof. destruct q. reflexivity. Qed.
Lemma method_read L fh r fs q : h2_request_ok r -> h2_request_list r fs -> read_request L fh fs = Ok q -> exists m, method_value (hr_method r) m /\ q_method q = m.
Proof.
  destruct r as [m s h po p qq hs]. unfold h2_request_ok, h2_request_list, hr_authority.
  cbn [hr_method hr_scheme hr_host hr_port hr_path hr_query hr_fields].
  intros (Hm & Nc & S & Nh & H & O & P & Q & F & SH) (ps & Pm & ->) R. pose proof (fields_lower _ F) as Lo.
  pose proof (authority_ascii _ _ H O) as Aa. pose proof (target_ascii _ _ P Q) as Ap. unfold read_request in R. apply read_ok in R as (T & hs' & pt & Hl & E).
  apply (list_request ps hs m s (h ++ po) (p ++ qq)) in Hl as (mm & M & -> & ->); [|assumption..]. exists mm. split; [exact M|].
  destruct (into_built _ _ _ E) as (u & B). apply (built _ u mm q B eq_refl) in E. apply E.
Qed.
Lemma method_value_fun v m m' : method_value v m -> method_value v m' -> m = m'.
Proof.
  intros (s & I & ->) (s' & I' & E). cbn in I, I'.
  repeat (destruct I as [I|I]; [injection I as <- <-; repeat (destruct I' as [I'|I']; [injection I' as <- <-; (reflexivity || discriminate E)|]); destruct I'|]). destruct I.
Qed.
Definition stands (q : request) (d : bytes) : h2_request := mkH2Request (method_str (q_method q)) ScHttp d [] (u_path (q_url q)) [] (map lower_field (q_header q)).
Lemma fields_stand q d : ready_target q d -> ready_fields (q_header q) ->
  Forall (fun f => forall n, In n (map str [":method"; ":authority"; ":scheme"; ":path"]%string) -> name_eq n (fst f) = false) (q_header q) ->
  request_fields q = four (method_str (q_method q)) (str "http") d (u_path (q_url q)) ++ map lower_field (q_header q) /\ h2_request_ok (stands q d) /\ h2_request_list (stands q d) (request_fields q).
Proof.
  intros T R C. pose proof T as (M & NC & _ & _ & U & H47 & P & DN & HP & N58 & SH & IH). pose proof R as (F & V & DI & _).
  assert (P' : Forall (fun b => pchar b \/ b = 47) (u_path (q_url q))) by (eapply Forall_impl; [|exact P]; cbn; tauto). destruct (plain_itself _ H47 P') as [A1 A2].
  assert (E : request_fields q = four (method_str (q_method q)) (str "http") d (u_path (q_url q)) ++ map lower_field (q_header q)).
  { unfold request_fields. rewrite (behind_made (q_method q) (q_url q) None (q_header q) d); [rewrite U; reflexivity|rewrite U; discriminate|rewrite U; reflexivity|destruct (u_path (q_url q)); discriminate|exact C|exact DI]. }
  split; [exact E|]. split.
  - unfold h2_request_ok, stands, hr_authority. cbn [hr_method hr_scheme hr_host hr_port hr_path hr_query hr_fields]. rewrite app_nil_r.
    split; [|split; [|split; [cbn; auto|split; [exact DN|split; [apply HP|split; [constructor|split; [exact A1|split; [constructor|split; [apply ready_h2, R|exact SH]]]]]]]]].
    + cbn in M. repeat (destruct M as [<-|M]; [split; [discriminate|]; vm_compute (method_str _); repeat (apply Forall_cons; [unfold tchar, alpha, upper; lia|]); apply Forall_nil|]). destruct M.
    + cbn in M. repeat (destruct M as [K|M]; [try congruence; rewrite <- K; discriminate|]). destruct M.
  - rewrite E. apply (four_list (method_str (q_method q)) ScHttp d).
Qed.
Definition passed_on (x : request * bytes) (d : bytes) : request * bytes :=
  (mkReq (q_method (fst x)) V11 (q_url (fst x)) (host_first d (q_header (fst x))) false, snd x).
Lemma over_http2 L fh x d : request_ready x d -> total_size (request_fields (fst x)) <= L -> pass_request (OverHttp2 L fh) x = Ok (passed_on x d).
Proof.
  destruct x as [q b]. intros (T & R & CF & FR) Z. cbn [fst snd] in *. destruct (fields_stand q d T R CF) as (E & OK & LI).
  pose proof T as (M & NC & _ & _ & U & H47 & P & DN & HP & N58 & SH & IH). pose proof R as (F & V & DI & _).
  assert (P' : Forall (fun b => pchar b \/ b = 47) (u_path (q_url q))) by (eapply Forall_impl; [|exact P]; cbn; tauto). destruct (plain_itself _ H47 P') as [A1 A2].
  assert (MV : method_value (method_str (q_method q)) (q_method q)).
  { cbn in M. repeat (destruct M as [K|M]; [rewrite <- K; eexists; split; [cbn; auto 12|reflexivity]|]). destruct M. }
  assert (RD : request_readable L (stands q d) (request_fields q)).
  { unfold request_readable, stands. cbn [hr_method hr_scheme hr_host hr_port hr_path hr_query hr_fields]. split; [exact Z|]. split; [destruct MV as (s & I & ->); eauto|]. split.
    - split; [exists d; apply host_ascii, HP|]. split; [eexists; exact A2|]. split; [intros y; discriminate|]. split; [exact N58|]. split; [left; reflexivity|]. rewrite app_nil_r. intros I.
      rewrite Forall_forall in P. apply (P _ I). reflexivity.
    - apply others_distinct, lower_distinct; assumption. }
  apply (P_RfcMeans.request_exact L fh _ _ OK LI) in RD as (q' & RQ & MS & d' & n & (U1 & U2 & U3 & U4 & U5 & U6 & _ & U8 & U9 & U10) & HD).
  unfold pass_request. cbn [fst snd]. rewrite RQ. cbn [bind]. unfold passed_on. cbn [fst snd]. f_equal. f_equal.
  destruct (method_read _ _ _ _ _ OK LI RQ) as (m & M1 & M2). unfold stands in *. cbn [hr_method hr_scheme hr_host hr_port hr_path hr_query hr_fields] in *.
  rewrite (req_eta q'). f_equal.
  - rewrite M2. exact (method_value_fun _ _ _ M1 MV).
  - exact (version_kept _ _ _ _ RQ).
  - rewrite (url_eta (q_url q')), U1, U2, U3, U4, U6. rewrite U. cbn [u_path]. cbn in U8, U10. rewrite U10, U8.
    rewrite (text_same _ _ _ U5 (host_ascii _ HP)). rewrite (meant_path_same _ _ _ U9 (proj2 (abs_meant _ _ A1) (conj A1 A2))). reflexivity.
  - rewrite HD. unfold host_first, host_value. rewrite (proj2 (host_there _) IH). unfold hr_authority. cbn [hr_host hr_port]. rewrite app_nil_r. reflexivity.
  - exact (partial_kept _ _ _ _ RQ).
Qed.

(** *** What arrives can be sent on *)
Lemma split_others (fs : headers) d : lower_names fs -> distinct_names fs -> Forall (same_host d) fs -> In (str "host") (map fst fs) -> exists a b, fs = a ++ (str "host", d) :: b /\ others fs = a ++ b.
Proof.
  intros L D S I. apply in_map_iff in I as ([n v] & E & I). cbn [fst] in E. subst n. rewrite Forall_forall in S. pose proof (S _ I eq_refl) as K. cbn [snd] in K. subst v. clear S.
  apply in_split in I as (a & b & ->). exists a, b. split; [reflexivity|]. unfold others. rewrite filter_app. cbn [filter]. change (negb (is_host (str "host", d))) with false. cbn match.
  assert (X : forall l : headers, Forall (fun f => name_eq (fst f) (str "host") = false \/ name_eq (str "host") (fst f) = false) l -> filter (fun f => negb (is_host f)) l = l).
  { clear. induction 1 as [|f l H _ IH]; [reflexivity|]. cbn [filter]. unfold is_host at 1. destruct (beq (fst f) (str "host")) eqn:B; [|cbn [negb]; rewrite IH; reflexivity].
    apply beq_eq in B. rewrite B, name_eq_refl in H. destruct H; discriminate. }
  rewrite !X; [reflexivity| |].
  - clear - D. revert D. induction a as [|f a IH]; cbn [app distinct_names]; intros [D1 D2]; [eapply Forall_impl; [|exact D1]; cbn; auto|apply IH, D2].
  - clear - D. revert D. induction a as [|f a IH]; cbn [app distinct_names]; intros D; [constructor|]. destruct D as [D1 D2]. constructor; [|apply IH, D2]. left.
    apply Forall_app in D1 as [_ D1]. exact (Forall_inv D1).
Qed.
Lemma passed_ready x d : request_ready x d -> request_ready (passed_on x d) d /\ total_size (request_fields (fst (passed_on x d))) = total_size (request_fields (fst x)).
Proof.
  destruct x as [q b]. intros (T & R & CF & FR). cbn [fst snd] in *. destruct (fields_stand q d T R CF) as (E & OK & LI).
  pose proof T as (M & NC & _ & _ & U & H47 & P & DN & HP & N58 & SH & IH). pose proof R as (F & V & DI & NT & C). pose proof (ready_h2 _ R) as F2. pose proof (fields_lower _ F2) as LO.
  pose proof (lower_distinct _ F DI) as DL. destruct (split_others _ d LO DL SH IH) as (a & z & SP & OT).
  assert (HV : In (str "host", d) (map lower_field (q_header q))) by (rewrite SP; apply in_elt).
  apply in_map_iff in HV as ([n v] & HE & HI). rewrite lower_pair in HE. cbn [fst snd] in HE. injection HE as HE1 HE2. subst v.
  assert (SUB : forall f, In f (others (map lower_field (q_header q))) -> exists g, In g (q_header q) /\ f = lower_field g).
  { intros f I. apply filter_In in I as [I _]. apply in_map_iff in I as (g & <- & I). eauto. }
  assert (LH : map lower_field (host_first d (q_header q)) = (str "host", d) :: others (map lower_field (q_header q))).
  { unfold host_first. cbn [map]. f_equal. apply lower_kept, others_lower, LO. }
  assert (FO : fields_ok (host_first d (q_header q))).
  { unfold fields_ok in F. rewrite Forall_forall in F. apply Forall_cons.
    - split; [split; [discriminate|]|exact (proj2 (F _ HI))]. cbn [fst]. vm_compute (str _). repeat (apply Forall_cons; [unfold tchar, alpha, upper, lower; lia|]). apply Forall_nil.
    - apply Forall_forall. intros f I. destruct (SUB f I) as (g & G & ->). destruct (F g G) as [G1 G2]. split; [apply token_name, lower_name_ok, G1|exact G2]. }
  assert (ND : distinct_names (host_first d (q_header q))) by (apply host_front; [exact LO|apply others_distinct, DL]).
  assert (CF' : Forall (fun f => forall n, In n (map str [":method"; ":authority"; ":scheme"; ":path"]%string) -> name_eq n (fst f) = false) (host_first d (q_header q))).
  { apply Forall_cons.
    - intros c CC. cbn [fst]. eapply (colon_free (str "Host") 72); [reflexivity|unfold tchar, alpha, upper; lia|lia|]. cbn in *. intuition.
    - eapply Forall_impl; [|exact (others_lower _ LO)]. intros f TK c CC. apply (lower_colon_free _ TK). cbn in *. intuition. }
  assert (T' : ready_target (fst (passed_on (q, b) d)) d).
  { unfold ready_target, passed_on. cbn [fst snd q_method q_version q_url q_header q_partial]. rewrite LH. split; [exact M|]. split; [exact NC|]. split; [reflexivity|]. split; [reflexivity|].
    split; [exact U|]. split; [exact H47|]. split; [exact P|]. split; [exact DN|]. split; [exact HP|]. split; [exact N58|]. split; [|left; reflexivity].
    apply Forall_cons; [intros _; reflexivity|]. apply Forall_forall. intros f I K. apply filter_In in I as [_ I]. unfold is_host in I. rewrite K in I. discriminate I. }
  assert (R' : ready_fields (host_first d (q_header q))).
  { split; [exact FO|]. split; [|split; [exact ND|split]].
    - rewrite Forall_forall in V. apply Forall_cons; [exact (V _ HI)|]. apply Forall_forall. intros f I. destruct (SUB f I) as (g & G & ->). exact (V _ G).
    - unfold names_true in *. rewrite Forall_forall in NT. apply Forall_cons.
      + intros k K H. exfalso. cbn in K. destruct K as [<-|[<-|[]]]; discriminate H.
      + apply Forall_forall. intros f I k K H. destruct (SUB f I) as (g & G & ->). rewrite lower_pair in *. cbn [fst] in *. unfold fields_ok in F. rewrite Forall_forall in F. destruct (F g G) as [[G0 G1] _].
        assert (LK : lower_token k). { cbn in K. destruct K as [<-|[<-|[]]]; (split; [discriminate|]); vm_compute (str _); repeat (apply Forall_cons; [split; [unfold tchar, alpha, lower; cbn; lia|unfold upper; lia]|]); apply Forall_nil. }
        rewrite (lower_fold _ (lower_name_ok _ (conj G0 G1))). apply NT; [exact G|exact K|]. rewrite <- (lower_fold k LK) in H. apply fold_back in H; [exact H|exact G1|]. apply token_name in LK. apply LK.
    - rewrite LH. rewrite Forall_forall in C. apply Forall_cons; [apply C; rewrite SP; apply in_elt|]. apply Forall_forall. intros f I. apply C. apply filter_In in I. apply I. }
  assert (FR' : framed (host_first d (q_header q)) (Sized b)).
  { unfold names_true in NT. revert FR. apply framed_get; unfold host_first; cbn [hm_get].
    - change (name_eq (str "Host") (str "transfer-encoding")) with false. cbn match. apply get_lower; [exact F| | |discriminate].
      + eapply Forall_impl; [|exact NT]. intros f K. apply K. cbn. auto.
      + split; [discriminate|]. vm_compute (str _). repeat (apply Forall_cons; [split; [unfold tchar, alpha, lower; cbn; lia|unfold upper; lia]|]). apply Forall_nil.
    - change (name_eq (str "Host") (str "content-length")) with false. cbn match. apply get_lower; [exact F| | |discriminate].
      + eapply Forall_impl; [|exact NT]. intros f K. apply K. cbn. auto.
      + split; [discriminate|]. vm_compute (str _). repeat (apply Forall_cons; [split; [unfold tchar, alpha, lower; cbn; lia|unfold upper; lia]|]). apply Forall_nil. }
  split; [exact (conj T' (conj R' (conj CF' FR')))|].
  destruct (fields_stand _ d T' R' CF') as (E' & _ & _). rewrite E', E. unfold passed_on at 3. cbn [fst snd q_method q_version q_url q_header q_partial]. unfold passed_on. cbn [fst snd q_method q_url q_header].
  rewrite !total_size_app. rewrite LH. f_equal. rewrite OT, SP. change ((str "host", d) :: a ++ z) with ([(str "host", d)] ++ a ++ z). rewrite !total_size_app. change ((str "host", d) :: z) with ([(str "host", d)] ++ z). rewrite total_size_app. lia.
Qed.
(** ** Any row of gateways *)
Definition arrived (gs : list gate) (x : request * bytes) (d : bytes) : request * bytes := if existsb is_http2 gs then passed_on x d else x.
Lemma passed_twice x d : request_ready x d -> passed_on (passed_on x d) d = passed_on x d.
Proof.
  destruct x as [q b]. intros (_ & R & _). unfold passed_on. cbn [fst snd q_method q_version q_url q_header q_partial]. f_equal. f_equal.
  change (host_first d (host_first d (q_header q))) with ((str "Host", d) :: others ((str "host", d) :: map lower_field (others (map lower_field (q_header q))))).
  unfold host_first. f_equal. change (others ((str "host", d) :: map lower_field (others (map lower_field (q_header q))))) with (others (map lower_field (others (map lower_field (q_header q))))).
  rewrite (lower_kept (others (map lower_field (q_header q)))); [apply others_idem|]. apply others_lower, fields_lower, ready_h2, R.
Qed.
Lemma pass_row gs : forall x d, request_ready x d -> Forall (limit_fits (total_size (request_fields (fst x)))) gs -> pass_all pass_request gs x = Ok (arrived gs x d).
Proof.
  induction gs as [|g gs IH]; intros x d R F; [reflexivity|]. apply Forall_cons_iff in F as [F1 F2]. cbn [pass_all]. destruct g as [|L fh].
  - rewrite (over_http1 x d R). cbn [bind]. rewrite (IH x d R F2). reflexivity.
  - rewrite (over_http2 L fh x d R F1). cbn [bind]. destruct (passed_ready x d R) as [R' Z]. rewrite (IH _ d R') by (rewrite Z; exact F2). f_equal. unfold arrived. cbn [existsb is_http2 orb].
    destruct (existsb is_http2 gs); [apply passed_twice, R|reflexivity].
Qed.

(** ** Responses *)
Lemma response_http1 x : response_ready x -> pass_response OverHttp1 x = Ok x.
Proof.
  destruct x as [p b]. intros (V & P0 & CR & CD & (F & VV & DN & NT & C) & CF & FR). cbn [fst snd] in *. destruct (framed_sized _ _ FR) as [_ NC].
  unfold pass_response, S_Via.response_again, form_again. cbn [fst snd]. rewrite NC.
  assert (OK : response_ok (p, Sized b)). { split; [cbn [fst]; rewrite V; vm_compute; auto|]. cbn [fst snd]. auto. }
  destruct (over_responses_ok [(p, Sized b)]) as (got & -> & S); [constructor; [exact OK|constructor]|]. inversion S as [|? g ? ? G S']; subst. inversion S'; subst. cbn [bind one]. f_equal.
  apply (same_response_fun (p, Sized b)); [exact G|]. split; [|reflexivity]. destruct p as [c0 v0 h0 b0]. cbn [fst p_status p_version p_header p_partial] in *. subst. reflexivity.
Qed.
Definition answered (x : response * bytes) : response * bytes := (mkResp (p_status (fst x)) V11 (map lower_field (p_header (fst x))) false, snd x).
Lemma response_kept L fh fs p : read_response L fh fs = Ok p -> p_version p = V11 /\ p_partial p = false.
Proof.
  unfold read_response, read_with. destruct (hdr_collect L 0 (headers_new fh []) fs) as [h [ |e| | ]] eqn:E; try discriminate. intros H. injection H as <-.
  unfold headers_into_response. cbv zeta. destruct (pt_method (hf_parts h)), (pt_status (hf_parts h)); split; reflexivity.
Qed.
Lemma response_made p : ready_fields (p_header p) -> Forall (fun f => name_eq (str ":status") (fst f) = false) (p_header p) -> 100 <= p_status p <= 999 ->
  response_list (p_status p) (map lower_field (p_header p)) (response_fields p).
Proof.
  intros R F C. pose proof R as (_ & _ & D & _). assert (X : answers (p_status p) (p_header p) (response_fields p)); [|apply X].
  apply response_exactly; [exact C|]. split; [apply ready_h2, R|]. split; assumption.
Qed.
Lemma response_http2 L fh x : response_ready x -> total_size (response_fields (fst x)) <= L -> pass_response (OverHttp2 L fh) x = Ok (answered x).
Proof.
  destruct x as [p b]. intros (V & P0 & CR & CD & R & CF & FR) Z. cbn [fst snd] in *. pose proof (response_made p R CF CD) as LI. pose proof R as (F & _ & DN & _).
  destruct (proj2 (P_RfcMeans.response_exact L fh (p_status p) _ _ (ready_h2 _ R) ltac:(lia) LI)) as (p' & RP & PS & PH).
  { split; [exact Z|]. split; [lia|apply lower_distinct; assumption]. }
  unfold pass_response. cbn [fst snd]. rewrite RP. cbn [bind]. unfold answered. cbn [fst snd]. f_equal. f_equal. destruct (response_kept _ _ _ _ RP) as [V1 V2].
  destruct p' as [c1 v1 h1 b1]. cbn [p_status p_version p_header p_partial] in *. subst. reflexivity.
Qed.
Lemma answered_ready x : response_ready x -> response_ready (answered x) /\ response_fields (fst (answered x)) = response_fields (fst x) /\ answered (answered x) = answered x.
Proof.
  destruct x as [p b]. intros (V & P0 & CR & CD & R & CF & FR). cbn [fst snd] in *. pose proof R as (F & VV & DN & NT & C). pose proof (ready_h2 _ R) as F2. pose proof (fields_lower _ F2) as LO.
  assert (KE : map lower_field (map lower_field (p_header p)) = map lower_field (p_header p)) by (apply lower_kept, LO).
  assert (R' : ready_fields (map lower_field (p_header p))).
  { split; [|split; [|split; [apply lower_distinct; assumption|split; [|rewrite KE; exact C]]]].
    - unfold fields_ok in *. rewrite Forall_map. eapply Forall_impl; [|exact F]. intros f [G1 G2]. split; [apply token_name, lower_name_ok, G1|exact G2].
    - rewrite Forall_map. exact VV.
    - unfold names_true in *. rewrite Forall_map. unfold fields_ok in F. rewrite Forall_forall in NT, F |- *. intros g G k K H. rewrite lower_pair in *. cbn [fst] in *. destruct (F g G) as [[G0 G1] _].
      assert (LK : lower_token k). { cbn in K. destruct K as [<-|[<-|[]]]; (split; [discriminate|]); vm_compute (str _); repeat (apply Forall_cons; [split; [unfold tchar, alpha, lower; cbn; lia|unfold upper; lia]|]); apply Forall_nil. }
      rewrite (lower_fold _ (lower_name_ok _ (conj G0 G1))). apply NT; [exact G|exact K|]. rewrite <- (lower_fold k LK) in H. apply fold_back in H; [exact H|exact G1|]. apply token_name in LK. apply LK. }
  assert (CF' : Forall (fun f => name_eq (str ":status") (fst f) = false) (map lower_field (p_header p))).
  { eapply Forall_impl; [|exact LO]. intros f K. apply lower_colon_free; [exact K|cbn; auto 6]. }
  split; [|split].
  - unfold response_ready, answered. cbn [fst snd p_status p_version p_header p_partial]. split; [reflexivity|]. split; [reflexivity|]. split; [exact CR|]. split; [exact CD|]. split; [exact R'|]. split; [exact CF'|].
    unfold names_true in NT. revert FR. apply framed_get; apply get_lower_all; try exact F.
    + eapply Forall_impl; [|exact NT]. intros f K. apply K. cbn. auto.
    + split; [discriminate|]. vm_compute (str _). repeat (apply Forall_cons; [split; [unfold tchar, alpha, lower; cbn; lia|unfold upper; lia]|]). apply Forall_nil.
    + eapply Forall_impl; [|exact NT]. intros f K. apply K. cbn. auto.
    + split; [discriminate|]. vm_compute (str _). repeat (apply Forall_cons; [split; [unfold tchar, alpha, lower; cbn; lia|unfold upper; lia]|]). apply Forall_nil.
  - pose proof (response_made p R CF CD) as E1. pose proof (response_made (mkResp (p_status p) V11 (map lower_field (p_header p)) false) R' CF' CD) as E2. unfold response_list in E1, E2.
    unfold answered. cbn [fst snd p_status p_header] in *. rewrite E1, E2, KE. reflexivity.
  - unfold answered. cbn [fst snd p_status p_header]. rewrite KE. reflexivity.
Qed.
Lemma pass_answers gs : forall x, response_ready x -> Forall (limit_fits (total_size (response_fields (fst x)))) gs ->
  pass_all pass_response gs x = Ok (if existsb is_http2 gs then answered x else x).
Proof.
  induction gs as [|g gs IH]; intros x R F; [reflexivity|]. apply Forall_cons_iff in F as [F1 F2]. cbn [pass_all]. destruct g as [|L fh].
  - rewrite (response_http1 x R). cbn [bind]. rewrite (IH x R F2). reflexivity.
  - rewrite (response_http2 L fh x R F1). cbn [bind]. destruct (answered_ready x R) as (R' & Z & AA). rewrite (IH _ R') by (rewrite Z; exact F2). cbn [existsb is_http2 orb]. rewrite AA. destruct (existsb is_http2 gs); reflexivity.
Qed.
