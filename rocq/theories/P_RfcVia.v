(** Lemmas for C123. *)
From Coq Require Import Ascii String NArith ZArith Lia Bool List Permutation ZifyBool ZifyNat ZifyN.
From Verif Require Import Base S_Utf8 P_Base M_Std M_Helper M_Header M_Url M_Http1 S_Hex S_Http1Api P_Std P_Helper P_Header P_Http1 P_Msg
  S_Map P_Map S_Url P_Url P_UrlForm S_Build S_Rfc9112 P_Rfc9112 S_RfcBody S_RfcMessage P_RfcMessage S_RfcReply P_RfcReply S_Rfc3986 P_Rfc3986 M_Build P_Build2 P_Build3 S_WriteAll P_WriteAll
  S_Stream P_Stream S_RfcSend P_RfcSend S_RfcShow P_RfcShow M_Hpack S_Hpack P_Huffman M_Frame M_H2 S_Rfc9113 P_Rfc9113 S_RfcMeans P_RfcMeans S_RfcFrames S_RfcAsk P_RfcAsk S_RfcRelay P_RfcRelay S_RfcVia S_Http1.
Import ListNotations.
Local Open Scope N_scope.

(** *** The pseudo header fields *)
Lemma four_or_short m u pr : (exists s d, (u_scheme u <> ScNone -> s = u_scheme u) /\ u_domain u = Some d /\ u_path u <> [] /\ parts_encode_header (parts_request m u pr) [] = four (method_str m) (scheme_str s) d (u_path u)) \/
  (length (parts_encode_header (parts_request m u pr) []) < 4)%nat.
Proof.
  unfold parts_request, parts_encode_header. cbn [pt_method pt_scheme pt_authority pt_path pt_status option_map].
  destruct (scheme_eqb (u_scheme u) ScNone) eqn:E.
  - destruct pr as [s|]; destruct (u_domain u) as [d|]; destruct (u_path u) as [|b p]; try (right; apply (proj1 (Nat.ltb_lt _ _)); reflexivity). left. exists s, d.
    split; [intros K; exfalso; apply K, P_Build3.scheme_eqb_eq, E|]. split; [reflexivity|]. split; [discriminate|reflexivity].
  - destruct (u_domain u) as [d|]; destruct (u_path u) as [|b p]; try (right; apply (proj1 (Nat.ltb_lt _ _)); reflexivity). left. exists (u_scheme u), d.
    split; [auto|]. split; [reflexivity|]. split; [discriminate|reflexivity].
Qed.
Lemma behind_four m u pr (fs : headers) r : h2_request_list r (map lower_field (request_behind m u pr fs)) -> length (hr_fields r) = length fs ->
  exists s d, (u_scheme u <> ScNone -> s = u_scheme u) /\ u_domain u = Some d /\ u_path u <> [] /\ distinct_names (four (method_str m) (scheme_str s) d (u_path u) ++ fs) /\
    hr_method r = method_str m /\ scheme_str (hr_scheme r) = scheme_str s /\ hr_authority r = d /\ hr_path r ++ hr_query r = u_path u /\ hr_fields r = map lower_field fs.
Proof.
  intros (ps & PP & E) LF. assert (LE : length ps = 4%nat) by (rewrite (Permutation_length PP); reflexivity).
  assert (LL := f_equal (@length hfield) E). rewrite map_length, app_length, LE, LF in LL. unfold request_behind in *.
  destruct (four_or_short m u pr) as [(s & d & S & D & P & F)|K].
  - unfold headers in *. rewrite F in *. exists s, d. split; [exact S|]. split; [exact D|]. split; [exact P|].
    assert (DD : distinct_names (four (method_str m) (scheme_str s) d (u_path u) ++ fs)) by (apply behind_iff; [apply four_distinct|exact LL]).
    split; [exact DD|]. rewrite behind_app in E by (exact DD || apply four_distinct). rewrite map_app, four_lower in E.
    apply app_inj_length in E as [E1 E2]; [|rewrite LE; reflexivity]. rewrite <- E1 in PP. apply four_values in PP as (A & B & C & G). auto 6.
  - pose proof (insert_all_short fs (parts_encode_header (parts_request m u pr) [])). unfold headers, hfield in *. lia.
Qed.
Lemma behind_made m u pr (fs : headers) d : u_scheme u <> ScNone -> u_domain u = Some d -> u_path u <> [] ->
  Forall (fun f => forall n, In n (map str [":method"; ":authority"; ":scheme"; ":path"]%string) -> name_eq n (fst f) = false) fs -> distinct_names fs ->
  map lower_field (request_behind m u pr fs) = four (method_str m) (scheme_str (u_scheme u)) d (u_path u) ++ map lower_field fs.
Proof.
  intros S D P F DN. unfold request_behind. unfold headers in *. rewrite (four_made m u pr d S D P). rewrite behind_app; [apply map_app| |apply four_distinct].
  cbn [four app distinct_names fst]. repeat match goal with |- _ /\ _ => split end; try exact DN; repeat (apply Forall_cons; [vm_compute; reflexivity|]).
  all: eapply Forall_impl; [|exact F]; intros f K; apply K; cbn; auto 6.
Qed.
Lemma four_free m s a p (fs : headers) : distinct_names (four m s a p ++ fs) ->
  Forall (fun f => forall n, In n (map str [":method"; ":authority"; ":scheme"; ":path"]%string) -> name_eq n (fst f) = false) fs.
Proof.
  intros D. cbn [four app distinct_names fst] in D. destruct D as (D1 & D2 & D3 & D4 & _).
  apply Forall_inv_tail, Forall_inv_tail, Forall_inv_tail in D1. apply Forall_inv_tail, Forall_inv_tail in D2. apply Forall_inv_tail in D3.
  rewrite Forall_forall in *. intros f I n K. cbn in K. destruct K as [<-|[<-|[<-|[<-|[]]]]]; auto.
Qed.

(** *** The fields of HTTP/1 *)
Lemma lower_is_fold n : map S_Huffman.lower_ascii n = fold_name n.
Proof. reflexivity. Qed.
Lemma sent_fields ls : Forall line_ok ls -> Forall (fun f => ~ In (fst f) connection_names /\ (fst f = str "te" -> snd f = str "trailers")) (map lower_field (map line_field ls)) ->
  Forall h2_field (map lower_field (map line_field ls)).
Proof.
  intros L F. apply fields_fine_lines in L. unfold fields_fine in L. generalize dependent (map line_field ls). clear ls. intros fs L F. rewrite Forall_map in F |- *. rewrite Forall_forall in *. intros f I. specialize (F f I). specialize (L f I). destruct f as [n v].
  unfold lower_field in *. cbn [fst snd] in *. destruct F as [F1 F2]. destruct L as [[N T] V]. split; [|auto]. cbn [fst]. split; [destruct n; [congruence|discriminate]|].
  rewrite Forall_map. eapply Forall_impl; [|exact T]. intros b B. unfold S_Huffman.lower_ascii. destruct ((65 <=? b) && (b <=? 90)) eqn:E.
  - unfold tchar, alpha, upper, lower, digit. lia.
  - split; [exact B|]. unfold upper. lia.
Qed.
Lemma host_same fs h : host_fields fs = [h] -> Forall (same_host h) (map lower_field fs).
Proof.
  intros E. apply Forall_map, Forall_forall. intros [n v] I K. unfold lower_field in *. cbn [fst snd] in *.
  assert (X : In v (host_fields fs)). { unfold host_fields. apply in_map_iff. exists (n, v). split; [reflexivity|]. apply filter_In. split; [exact I|]. cbn [fst]. change (fold_name n) with (map S_Huffman.lower_ascii n). rewrite K. reflexivity. }
  rewrite E in X. destruct X as [X|[]]. auto.
Qed.
Lemma token_host n : name_ok n -> name_eq n (str "host") = beq (fold_name n) (str "host").
Proof.
  intros [_ T]. change (str "host") with [104; 111; 115; 116]. unfold name_eq, fold_name.
  assert (K : forall b c, tchar b -> In c [104; 111; 115; 116] -> eq_byte_ic b c = (fold_byte b =? c)).
  { intros b c B C. apply tchar_not in B. unfold eq_byte_ic, fold_byte. assert (c <= 116) by (cbn in C; lia). assert (104 <= c) by (cbn in C; lia). cbv zeta.
    destruct (N.lt_ge_cases b c) as [X|X].
    - rewrite (N.mod_small (b + 256 - c)) by lia. destruct (b =? c) eqn:BC; destruct ((65 <=? b) && (b <=? 90)) eqn:E; lia.
    - replace (b + 256 - c) with (b - c + 1 * 256) by lia. rewrite N.mod_add by lia. rewrite N.mod_small by lia. destruct (b =? c) eqn:BC; destruct ((65 <=? b) && (b <=? 90)) eqn:E; lia. }
  assert (G : forall l, (forall c, In c l -> In c [104; 111; 115; 116]) -> forall n, Forall tchar n -> eq_bytes_ic n l = beq (map fold_byte n) l).
  { clear n T. intros l. induction l as [|c l IH]; intros C n T; destruct T as [|b n B T]; try reflexivity.
    cbn [eq_bytes_ic map beq]. rewrite (K b c B) by (apply C; left; reflexivity). rewrite IH; [reflexivity| |exact T]. intros x X. apply C. right. exact X. }
  apply G; auto.
Qed.
Lemma get_host_said (fs : headers) v : Forall (fun nv => name_ok (fst nv)) fs -> host_fields fs = [v] -> hm_get_host fs = Some (utf8_lossy v).
Proof.
  intros F E. assert (G : hm_get fs (str "host") = Some v); [|unfold hm_get_host; rewrite G; reflexivity].
  unfold host_fields in E. induction F as [|[n x] fs N _ IH]; [discriminate E|]. cbn [hm_get filter fst] in *. rewrite (token_host n N).
  destruct (beq (fold_name n) (str "host")) eqn:B; [|apply IH, E]. cbn [map snd] in E. injection E as -> _. reflexivity.
Qed.
Lemma no_scheme (fs : headers) : Forall (fun nv => bytes_ok (fst nv)) fs ->
  Forall (fun f => forall n, In n (map str [":method"; ":authority"; ":scheme"; ":path"]%string) -> name_eq n (fst f) = false) fs -> hm_get fs (str ":scheme") = None.
Proof.
  intros B F. induction F as [|[n x] fs N _ IH]; [reflexivity|]. cbn [hm_get fst] in *. rewrite name_eq_sym; [|exact (Forall_inv B)|apply bytes_okb_ok; reflexivity].
  rewrite N by (cbn; auto). apply IH, (Forall_inv_tail B).
Qed.
Lemma ascii_said v : Forall (fun b => b < 128) v -> utf8_lossy v = v.
Proof. intros A. apply utf8_lossy_valid, utf8_valid_ascii, A. Qed.
Lemma token_bytes ls : Forall line_ok ls -> Forall (fun nv => name_ok (fst nv)) (map line_field ls) /\ Forall (fun nv => bytes_ok (fst nv)) (map line_field ls).
Proof.
  intros L. apply fields_fine_lines in L. unfold fields_fine in L. split; (eapply Forall_impl; [|exact L]); intros [n v] [[N T] _]; [split; assumption|].
  cbn [fst] in *. eapply Forall_impl; [|exact T]. intros b B. apply tchar_not in B. unfold byte_ok. lia.
Qed.
Lemma path_again p (x y z : bytes) : path_meant p z -> abs_path x -> query_text y -> same_path p x -> x ++ y = z -> y = [] /\ path_plain p.
Proof.
  intros TP A Q (w & W1 & W2) E. rewrite (meant_path_same _ _ _ W1 TP) in W2. apply abs_meant in W2 as [_ W2]; [|exact A]. rewrite <- E in W2.
  destruct (itself_plain _ _ A Q W2) as [-> F]. split; [reflexivity|]. exists z. split; [exact TP|]. rewrite <- E, app_nil_r. exact F.
Qed.
Lemma query_again s y : y = [] -> same_query s y -> s = [].
Proof. intros -> (o & O1 & O2). cbn in O2. subst o. destruct s as [|b s]; [reflexivity|]. destruct O1 as (z & _ & K). discriminate. Qed.
Lemma fields_again (fs : headers) k s d p : Forall h2_field (map lower_field fs) -> distinct_names (four k s d p ++ fs) -> fields_passable fs.
Proof. intros F D. split; [|eapply four_free, D]. eapply Forall_impl; [|exact F]. intros f (_ & _ & A & B). auto. Qed.
Lemma four_list k sc d p hs : h2_request_list (mkH2Request k sc d [] p [] hs) (four k (scheme_str sc) d p ++ hs).
Proof.
  unfold h2_request_list, hr_authority. cbn [hr_method hr_scheme hr_host hr_port hr_path hr_query hr_fields]. rewrite !app_nil_r.
  exists (four k (scheme_str sc) d p). split; [apply four_perm|reflexivity].
Qed.
Lemma origin_asked pr m p s rest : bytes_ok (message_text m ++ rest) -> message_ok m -> message_readable m -> rm_target m = p ++ s -> abs_path p -> query_text s ->
  rm_method m <> str "CONNECT" ->
  exists q, read_message parse_request q_header (message_text m ++ rest) = Ok (q, body_meant (rm_body m), rest) /\
    (asked m (for_origin m p s) (map lower_field (request_behind (q_method q) (q_url q) pr (q_header q))) <->
     s = [] /\ path_plain p /\ fields_passable (rm_fields m) /\ exists h, host_fields (rm_fields m) = [h] /\ h <> [] /\ uri_host h).
Proof.
  intros Hb OK RD ET P S NC. destruct (message_got m rest Hb OK RD) as (k & st & k' & u & K1 & K2 & K3 & V0 & V & WU & RM).
  assert (KC : k <> MConnect) by (intros ->; apply NC; rewrite <- K3; reflexivity).
  rewrite ET in WU. apply (origin_target k p s _ u KC P S) in WU as (N64 & TP & TQ & _ & _ & HO & SH). unfold hosted in HO.
  exists (mkReq k k' u (rm_fields m) false). split; [exact RM|]. cbn [q_method q_url q_header].
  pose proof (text_head _ _ P TP) as HD. assert (TP' : path_meant p (u_path u)) by (apply abs_meant; auto).
  destruct OK as ((NM & RT & _ & LO) & _). destruct (token_bytes _ LO) as [TN TB]. fold (rm_fields m) in TN, TB. destruct RD as [(_ & _ & _ & DN) _]. split.
  - intros (r & RO & RL & RM' & RF & (SP & SQ & HF)). assert (LR : length (hr_fields r) = length (rm_fields m)) by (rewrite RF; apply map_length).
    destruct (behind_four _ _ _ _ _ RL LR) as (sc & d & _ & D & _ & DD & _ & _ & AU & PQ & _).
    destruct RO as (_ & _ & _ & HN & UH & PO & AP & QT & F2 & _). rewrite RF in F2.
    destruct (path_again _ _ _ _ TP' AP QT SP PQ) as [HQ PP].
    split; [exact (query_again _ _ HQ SQ)|]. split; [exact PP|]. split; [eapply fields_again; eassumption|].
    exists (hr_host r). rewrite HF. split; [|split; assumption]. rewrite (get_host_said _ _ TN HF) in HO.
    destruct HO as [(K & _)|(hst & d' & n' & E1 & E2 & E3 & _)]; [discriminate K|]. rewrite D in E3. injection E3 as <-.
    unfold hr_authority in *. assert (N58 : ~ In 58 d) by (destruct E2; assumption). destruct PO as [|ds DS]; [rewrite app_nil_r; reflexivity|].
    exfalso. apply N58. rewrite <- AU. apply in_or_app. right. left. reflexivity.
  - intros (-> & PP & (F1 & F2) & (h & HF & HN & UH)). destruct PP as (x & X1 & XF). apply abs_meant in X1 as [_ X1]; [|exact P]. rewrite (text_same _ _ _ X1 TP) in XF.
    destruct (plain_itself _ HD XF) as [A1 A2].
    pose proof (authority_ascii _ _ UH po_none) as HA. rewrite app_nil_r in HA. rewrite (get_host_said _ _ TN HF), (ascii_said _ HA) in HO.
    destruct HO as [(K & _)|(hst & d' & n' & E1 & E2 & E3 & _)]; [discriminate K|]. injection E1 as <-.
    assert (d' = h) as ->. { rewrite <- (app_nil_r h) in E2. apply (host_named h [] d' n' UH po_none) in E2 as (_ & E2 & _). exact E2. }
    assert (SC : u_scheme u = ScHttp). { pose proof (no_scheme _ TB F2) as G. destruct SH as [_|v sc G' _|v G' _]; [reflexivity|congruence..]. }
    exists (mkH2Request (method_str k) ScHttp h [] (u_path u) [] (map lower_field (rm_fields m))). split; [|split; [|split; [exact K3|split; [reflexivity|]]]].
    + unfold h2_request_ok, hr_authority. cbn [hr_method hr_scheme hr_host hr_port hr_path hr_query hr_fields]. rewrite app_nil_r.
      split; [rewrite K3; exact NM|]. split; [rewrite K3; exact NC|]. split; [cbn; auto|]. split; [exact HN|]. split; [exact UH|]. split; [constructor|]. split; [exact A1|]. split; [constructor|].
      split; [apply sent_fields; assumption|apply host_same, HF].
    + rewrite (behind_made k u pr (rm_fields m) h); [rewrite SC; apply four_list|rewrite SC; discriminate|exact E3|destruct (u_path u); discriminate|exact F2|exact DN].
    + unfold for_origin, hr_authority. cbn [hr_method hr_scheme hr_host hr_port hr_path hr_query hr_fields]. rewrite app_nil_r. split; [|split; [exists None; split; reflexivity|exact HF]].
      exists (u_path u). split; [exact TP'|]. apply abs_meant; auto.
Qed.
Lemma known_scheme t sc : S_Rfc3986.scheme_meant t sc -> (In (map lower_byte t) known_schemes -> In t known_schemes) -> forall s, In s [ScHttp; ScHttps] -> scheme_str sc = scheme_str s -> sc = s /\ t = scheme_str s.
Proof.
  intros [M1 M2] K s S E. rewrite E in M1.
  assert (L : map lower_byte (scheme_str s) = scheme_str s) by (cbn in S; destruct S as [<-|[<-|[]]]; reflexivity). rewrite L in M1.
  assert (I : In (map lower_byte t) known_schemes) by (rewrite <- M1; cbn in S; destruct S as [<-|[<-|[]]]; cbn; auto).
  specialize (M2 I). specialize (K I). split.
  - cbn in S. destruct S as [<-|[<-|[]]]; destruct sc; try discriminate E; try reflexivity; exfalso; exact (M2 _ eq_refl).
  - assert (Z : map lower_byte t = t). { unfold known_schemes in K. cbn in K. repeat (destruct K as [<-|K]; [reflexivity|]). destruct K. }
    rewrite Z in M1. symmetry. exact M1.
Qed.
Lemma absolute_asked pr m r rest : bytes_ok (message_text m ++ rest) -> message_ok m -> message_readable m -> rm_target m = uri_text r -> uri_ok r -> ui_user r = [] -> ui_frag r = [] ->
  uri_readable r -> rm_method m <> str "CONNECT" ->
  exists q, read_message parse_request q_header (message_text m ++ rest) = Ok (q, body_meant (rm_body m), rest) /\
    (asked m (for_uri r) (map lower_field (request_behind (q_method q) (q_url q) pr (q_header q))) <->
     (exists s, In s [ScHttp; ScHttps] /\ ui_scheme r = scheme_str s /\ port_meant (scheme_port s) (ui_port r) (scheme_port s)) /\
     (exists d, text_of (ui_host r) d /\ d <> [] /\ host_plain d /\ Forall (same_host d) (map lower_field (rm_fields m))) /\
     ui_query r = [] /\ path_plain (ui_path r) /\ fields_passable (rm_fields m)).
Proof.
  intros Hb OK RD ET RO RU RF RR NC. destruct (message_got m rest Hb OK RD) as (k & st & k' & u & K1 & K2 & K3 & V0 & V & WU & RM).
  assert (KC : k <> MConnect) by (intros ->; apply NC; rewrite <- K3; reflexivity).
  rewrite ET in WU. pose proof RR as (_ & KS & _). apply (uri_exact r RO RF) in RR as (u' & UP & UM).
  assert (NS : u_scheme u' <> ScNone).
  { intros X. destruct UM as [[SM _] _]. apply name_length in SM. rewrite X in SM. destruct RO as (T & _). destruct T. discriminate. }
  assert (u = u') as ->.
  { destruct WU as [? ? ? _|u0 u1 u2 _ H1 H2 H3]; [contradiction|]. rewrite UP in H1. injection H1 as <-. destruct UM as (SM & _ & (d & _ & D) & _).
    destruct H2 as [_|D1 _|hst d' n D1 _ _]; [|congruence..]. destruct H3 as [_|sc X _]; [reflexivity|]. contradiction. }
  exists (mkReq k k' u' (rm_fields m) false). split; [exact RM|]. cbn [q_method q_url q_header].
  destruct UM as (SM & _ & (d & TD & UD) & (n0 & n & OP & PM & _ & _) & TP & TQ).
  assert (HD : hd_error (u_path u') = Some 47).
  { unfold path_meant in TP. destruct (blen (ui_path r) =? 0) eqn:Z; [rewrite TP; reflexivity|]. destruct RO as (_ & _ & _ & _ & [P|P] & _); [rewrite P in Z; discriminate|]. exact (text_head _ _ P TP). }
  destruct OK as ((NM & RT & _ & LO) & _). destruct RD as [(_ & _ & _ & DN) _]. split.
  - intros (r' & RO' & RL & RM' & RF' & (SM' & (d' & T1 & T2) & (n' & N1 & N2) & SP & SQ)). assert (LR : length (hr_fields r') = length (rm_fields m)) by (rewrite RF'; apply map_length).
    destruct (behind_four _ _ _ _ _ RL LR) as (sc & d2 & SC & D & _ & DD & _ & SS & AU & PQ & _). rewrite UD in D. injection D as <-. specialize (SC NS). subst sc.
    destruct RO' as (_ & _ & IS & HN & UH & PO & AP & QT & F2 & HS). rewrite RF' in F2, HS.
    destruct (path_again _ _ _ _ TP AP QT SP PQ) as [HQ PP]. rewrite (text_same _ _ _ T1 TD) in T2. clear d' T1.
    unfold hr_authority in *. destruct (text_itself _ _ _ T2 AU) as (E1 & E2 & E3). rewrite E1 in *. rewrite app_nil_r in HS. rewrite E2 in *. cbn in N2. subst n'.
    destruct (known_scheme _ _ SM KS _ IS (eq_sym SS)) as [_ ST].
    split; [exists (hr_scheme r'); auto|]. split; [exists d; split; [exact TD|]; split; [exact HN|]; split; [split; assumption|exact HS]|].
    split; [exact (query_again _ _ HQ SQ)|]. split; [exact PP|]. eapply fields_again; eassumption.
  - intros ((s & IS & ES & PD) & (d' & TD' & HN & HP & HS) & Q & (x & X1 & XF) & (F1 & F2)). rewrite (text_same _ _ _ TD' TD) in *. rewrite (meant_path_same _ _ _ X1 TP) in XF.
    destruct (plain_itself _ HD XF) as [A1 A2].
    assert (US : u_scheme u' = s).
    { apply (known_scheme _ _ SM KS s IS). destruct SM as [SM1 SM2]. rewrite ES in SM1, SM2.
      assert (I : In (map lower_byte (scheme_str s)) known_schemes) by (cbn in IS; destruct IS as [<-|[<-|[]]]; cbn; auto). specialize (SM2 I).
      clear - SM1 SM2 IS. cbn in IS. destruct IS as [<-|[<-|[]]]; destruct (u_scheme u'); try discriminate SM1; try reflexivity; exfalso; exact (SM2 _ eq_refl). }
    exists (mkH2Request (method_str k) s d [] (u_path u') [] (map lower_field (rm_fields m))). split; [|split; [|split; [exact K3|split; [reflexivity|]]]].
    + unfold h2_request_ok, hr_authority. cbn [hr_method hr_scheme hr_host hr_port hr_path hr_query hr_fields]. rewrite app_nil_r.
      split; [rewrite K3; exact NM|]. split; [rewrite K3; exact NC|]. split; [exact IS|]. split; [exact HN|]. split; [apply HP|]. split; [constructor|]. split; [exact A1|]. split; [constructor|].
      split; [apply sent_fields; assumption|exact HS].
    + rewrite (behind_made k u' pr (rm_fields m) d); [rewrite US; apply four_list|exact NS|exact UD|destruct (u_path u'); discriminate|exact F2|exact DN].
    + unfold for_uri. cbn [hr_method hr_scheme hr_host hr_port hr_path hr_query hr_fields]. split; [rewrite <- US; exact SM|]. split; [exists d; split; [exact TD|apply host_ascii, HP]|].
      split; [exists (scheme_port s); split; [exact PD|reflexivity]|]. split; [|rewrite Q; exists None; split; reflexivity].
      exists (u_path u'). split; [exact TP|]. apply abs_meant; auto.
Qed.

(** *** From HTTP/2 *)
Lemma colon_free n x : hd_error n = Some x -> tchar x -> x <> 90 -> forall c, In c (map str [":method"; ":authority"; ":scheme"; ":path"; ":status"]%string) -> name_eq c n = false.
Proof.
  intros H T N c C. destruct n as [|y n]; [discriminate H|]. injection H as ->. apply tchar_not in T.
  assert (E : exists c', c = 58 :: c') by (cbn in C; destruct C as [<-|[<-|[<-|[<-|[<-|[]]]]]]; eexists; reflexivity). destruct E as (c' & ->).
  unfold name_eq. cbn [eq_bytes_ic]. replace (eq_byte_ic 58 x) with false; [reflexivity|]. unfold eq_byte_ic. cbv zeta.
  replace (58 =? x) with false by lia. destruct (N.lt_ge_cases 58 x) as [X|X].
  - rewrite N.mod_small by lia. lia.
  - replace (58 + 256 - x) with (58 - x + 1 * 256) by lia. rewrite N.mod_add by lia. rewrite N.mod_small by lia. lia.
Qed.
Lemma lower_colon_free n : lower_token n -> forall c, In c (map str [":method"; ":authority"; ":scheme"; ":path"; ":status"]%string) -> name_eq c n = false.
Proof.
  intros [N F]. destruct n as [|x n]; [congruence|]. apply Forall_inv in F as [T U]. eapply colon_free; [reflexivity|exact T|]. intros ->. apply U. unfold upper. lia.
Qed.
Lemma lower_kept (fs : headers) : lower_names fs -> map lower_field fs = fs.
Proof.
  induction 1 as [|[n v] fs L _ IH]; [reflexivity|]. cbn [map]. rewrite IH. f_equal. unfold lower_field. cbn [fst snd] in *. rewrite lower_is_fold, (lower_fold n L). reflexivity.
Qed.
Lemma others_lower fs : lower_names fs -> lower_names (others fs).
Proof. intros L. unfold others, lower_names in *. rewrite Forall_forall in *. intros f I. apply filter_In in I as [I _]. auto. Qed.
Lemma others_idem fs : others (others fs) = others fs.
Proof.
  unfold others. induction fs as [|f fs IH]; [reflexivity|]. cbn [filter]. destruct (negb (is_host f)) eqn:E; [cbn [filter]; rewrite E, IH; reflexivity|exact IH].
Qed.
Lemma host_front (fs : headers) x : lower_names fs -> distinct_names (others fs) -> distinct_names ((str "Host", x) :: others fs).
Proof.
  intros L D. split; [|exact D]. apply others_lower in L as L'. apply Forall_forall. intros f I. cbn [fst]. unfold lower_names in L'. rewrite Forall_forall in L'. rewrite Host_eq by (apply L', I).
  apply filter_In in I as [_ I]. unfold is_host in I. destruct (beq (fst f) (str "host")); [discriminate|reflexivity].
Qed.
Lemma request_again L fh pr r fs : h2_request_ok r -> h2_request_list r fs -> request_readable L r fs ->
  exists q, read_request L fh fs = Ok q /\ request_meant r q /\
    (asked_again r (map lower_field (request_behind (q_method q) (q_url q) pr (q_header q))) <->
     In (str "host") (map fst (hr_fields r)) /\ hr_port r = [] /\ ~ In 37 (hr_host r) /\ hr_query r = [] /\ path_plain (hr_path r)).
Proof.
  intros OK LI RD. pose proof RD as (_ & _ & _ & DN). apply (P_RfcMeans.request_exact L fh r fs OK LI) in RD as (q & RQ & MN).
  exists q. split; [exact RQ|]. split; [exact MN|].
  pose proof OK as (NM & NC & SC & HN & UH & PO & AP & QT & F2 & SH).
  pose proof MN as (MS & d & n & (US & UU & UW & UD & TD & UP & N16 & PM & PP & QM) & HD).
  pose proof (fields_lower _ F2) as LO. pose proof PP as PP'. apply abs_meant in PP as [_ PP]; [|exact AP]. pose proof (text_head _ _ AP PP) as H47.
  assert (NS : u_scheme (q_url q) <> ScNone) by (rewrite US; cbn in SC; destruct SC as [<-|[<-|[]]]; discriminate).
  assert (E : map lower_field (request_behind (q_method q) (q_url q) pr (q_header q)) =
    four (hr_method r) (scheme_str (hr_scheme r)) d (u_path (q_url q)) ++ (str "host", host_value (hr_authority r) d n (hr_fields r)) :: others (hr_fields r)).
  { rewrite (behind_made (q_method q) (q_url q) pr (q_header q) d NS UD).
    - rewrite MS, US, HD. f_equal. cbn [map]. f_equal. apply lower_kept, others_lower, LO.
    - destruct (u_path (q_url q)); discriminate.
    - rewrite HD. apply Forall_cons.
      + intros c C. cbn [fst]. eapply (colon_free (str "Host") 72); [reflexivity|unfold tchar, alpha, upper; lia|lia|]. cbn in *. intuition.
      + eapply Forall_impl; [|exact (others_lower _ LO)]. intros f T c C. apply (lower_colon_free _ T). cbn in *. intuition.
    - rewrite HD. apply host_front; assumption. }
  rewrite E. clear E. set (hv := host_value (hr_authority r) d n (hr_fields r)). split.
  - intros (r' & RO' & (ps & P1 & P2) & M' & S' & (d' & T1 & T2) & _ & SP & SQ & OT).
    assert (LE : length ps = 4%nat) by (rewrite (Permutation_length P1); reflexivity).
    apply app_inj_length in P2 as [P2 P3]; [|rewrite LE; reflexivity]. rewrite <- P2 in P1. apply four_values in P1 as (_ & _ & AU & PQ).
    destruct RO' as (_ & _ & _ & HN' & UH' & PO' & AP' & QT' & F2' & SH'). destruct (path_again _ _ _ _ PP' AP' QT' SP (eq_sym PQ)) as [HQ PL].
    rewrite <- P3 in SH'. apply Forall_inv in SH'. specialize (SH' eq_refl). cbn [snd] in SH'. rewrite <- AU in SH'. unfold hv, host_value in SH'.
    destruct (existsb is_host (hr_fields r)) eqn:EH.
    + unfold hr_authority in SH'. destruct (text_itself _ _ _ TD SH') as (E1 & E2 & E3). split; [apply host_there, EH|]. split; [exact E1|]. split; [rewrite E2; exact E3|].
      split; [exact (query_again _ _ HQ SQ)|exact PL].
    + exfalso. apply (f_equal (@length N)) in SH'. rewrite app_length in SH'. cbn [length] in SH'. lia.
  - intros (HI & EP & N37 & EQ & (x & X1 & XF)). rewrite (meant_path_same _ _ _ X1 PP') in XF. destruct (plain_itself _ H47 XF) as [A1 A2].
    assert (ED : hr_host r = d). { apply (text_same (hr_host r)); [apply host_ascii; split; assumption|exact TD]. }
    assert (EV : hv = d). { unfold hv, host_value. apply host_there in HI. rewrite HI. unfold hr_authority. rewrite EP, app_nil_r. exact ED. }
    exists (mkH2Request (hr_method r) (hr_scheme r) d [] (u_path (q_url q)) [] ((str "host", hv) :: others (hr_fields r))).
    split; [|split; [apply four_list|]].
    + unfold h2_request_ok, hr_authority. cbn [hr_method hr_scheme hr_host hr_port hr_path hr_query hr_fields]. rewrite app_nil_r, <- ED.
      split; [exact NM|]. split; [exact NC|]. split; [exact SC|]. split; [exact HN|]. split; [exact UH|]. split; [constructor|]. split; [exact A1|]. split; [constructor|].
      assert (FO : forall f, In f (others (hr_fields r)) -> In f (hr_fields r)) by (intros f I; apply filter_In in I; apply I). rewrite Forall_forall in F2, SH. split.
      * apply Forall_cons; [|apply Forall_forall; intros f I; apply F2, FO, I]. assert (HF := HI). apply in_map_iff in HF as ([a v] & HF1 & HF2). cbn [fst] in HF1. subst a.
        specialize (F2 _ HF2). specialize (SH _ HF2 eq_refl). cbn [snd] in SH. unfold hr_authority in SH. rewrite EP, app_nil_r, ED in SH. rewrite EV, <- SH. exact F2.
      * apply Forall_cons; [intros _; cbn [snd]; rewrite EV; symmetry; exact ED|]. apply Forall_forall. intros f I K. apply filter_In in I as [_ I]. unfold is_host in I. rewrite K in I. discriminate I.
    + cbn [hr_method hr_scheme hr_host hr_port hr_path hr_query hr_fields]. split; [reflexivity|]. split; [reflexivity|]. split; [exists d; split; [exact TD|rewrite <- ED; apply host_ascii; split; assumption]|].
      split; [exists (scheme_port (hr_scheme r)); rewrite EP; split; reflexivity|]. split; [exists (u_path (q_url q)); split; [exact PP'|apply abs_meant; auto]|].
      split; [rewrite EQ; exists None; split; reflexivity|]. cbn [others filter is_host fst]. change (negb (beq (str "host") (str "host"))) with false. apply others_idem.
Qed.
(** *** Responses *)
Lemma reply_answers m rest : bytes_ok (reply_text m ++ rest) -> reply_ok m -> follows (rr_body m) rest -> answer_readable m ->
  exists p, read_reply (rr_to m) (reply_text m ++ rest) = Ok (p, reply_meant (rr_body m), rest) /\
    (answers (num_of (rr_code m)) (rr_fields m) (map lower_field (response_behind (p_status p) (p_header p))) <->
     Forall (fun f => ~ In (fst f) connection_names /\ (fst f = str "te" -> snd f = str "trailers")) (map lower_field (rr_fields m)) /\
     Forall (fun f => name_eq (str ":status") (fst f) = false) (rr_fields m)).
Proof.
  intros Hb OK FO RD. pose proof RD as (V & H48 & _ & _ & DN & _). apply (answer_exact m rest Hb OK FO) in RD as (p & RR & AV & AC & AH).
  pose proof OK as ((_ & L3 & DG & _ & LO) & _). rewrite <- AC in L3, DG, H48. pose proof (code_range _ L3 DG H48) as R.
  assert (CN : num_of (rr_code m) = p_status p) by (rewrite <- AC; apply P_Build2.three_digits_num, R).
  exists p. split; [exact RR|]. rewrite CN, AH, (response_exactly _ _ R). split.
  - intros [F D]. split; [eapply Forall_impl; [|exact F]; intros f (_ & _ & A & B); auto|]. apply D.
  - intros [F D]. split; [apply sent_fields; assumption|]. split; assumption.
Qed.
Lemma response_answers L fh code hs fs : Forall h2_field hs -> code < 1000 -> response_list code hs fs -> total_size fs <= L -> 100 <= code -> distinct_names hs ->
  exists p, read_response L fh fs = Ok p /\ answers code hs (map lower_field (response_behind (p_status p) (p_header p))).
Proof.
  intros F2 C LI T R D. destruct (proj2 (P_RfcMeans.response_exact L fh code hs fs F2 C LI) (conj T (conj R D))) as (p & RP & PS & PH).
  exists p. split; [exact RP|]. rewrite PS, PH. apply response_exactly; [lia|]. pose proof (fields_lower _ F2) as LO. rewrite (lower_kept _ LO). split; [exact F2|]. split; [|exact D].
  eapply Forall_impl; [|exact LO]. intros f K. apply lower_colon_free; [exact K|cbn; auto 6].
Qed.

(** *** What is sent although it must not be *)
Definition pseudo_names : list bytes := map str [":method"; ":authority"; ":scheme"; ":path"; ":status"]%string.
Lemma parts_names p : Forall (fun g : hfield => In (fst g) pseudo_names) (parts_encode_header p []).
Proof.
  destruct p as [m s a pa st]. unfold parts_encode_header. cbn [pt_method pt_scheme pt_authority pt_path pt_status].
  destruct m, s, a, pa, st; cbn [hm_insert]; apply Forall_forall; intros g I; vm_compute in I; repeat (destruct I as [<-|I]; [cbn; auto 6|]); destruct I.
Qed.
Lemma insert_names h n v x : In x (map fst (hm_insert h n v)) -> In x (map fst h) \/ x = n.
Proof.
  induction h as [|[a b] h IH]; cbn [hm_insert map fst]; [intros [<-|[]]; auto|]. destruct (name_eq a n); cbn [map fst In]; [tauto|]. intros [<-|K]; [auto|]. destruct (IH K); auto.
Qed.
Lemma insert_kept h n v x : In x (map fst h) -> In x (map fst (hm_insert h n v)).
Proof. induction h as [|[a b] h IH]; [intros []|]. cbn [hm_insert map fst]. destruct (name_eq a n); cbn [map fst In]; tauto. Qed.
Lemma insert_new h n v : Forall (fun g => name_eq g n = false) (map fst h) -> In n (map fst (hm_insert h n v)).
Proof. induction h as [|[a b] h IH]; cbn [hm_insert map fst]; intros F; [left; reflexivity|]. apply Forall_inv in F as F1. rewrite F1. right. apply IH. apply (Forall_inv_tail F). Qed.
Lemma insert_all_names (fs : headers) x : forall h, In x (map fst h) -> In x (map fst (hm_insert_all h fs)).
Proof. induction fs as [|f fs IH]; intros h I; [exact I|]. rewrite insert_all_cons. apply IH, insert_kept, I. Qed.
Lemma insert_all_new (fs : headers) x : forall h, Forall (fun g => name_eq g x = false) (map fst h) -> distinct_names fs -> In x (map fst fs) -> In x (map fst (hm_insert_all h fs)).
Proof.
  induction fs as [|f fs IH]; intros h F D I; [destruct I|]. rewrite insert_all_cons. destruct D as [D1 D2]. cbn [map In] in I. destruct I as [<-|I].
  - apply insert_all_names, insert_new, F.
  - apply IH; [|exact D2|exact I]. apply Forall_forall. intros g G. apply insert_names in G as [G| ->]; [rewrite Forall_forall in F; auto|].
    rewrite Forall_forall in D1. apply in_map_iff in I as (f' & <- & I). apply D1, I.
Qed.
Lemma connection_head n : In (fold_name n) connection_names -> forall c, In c pseudo_names -> name_eq c n = false.
Proof.
  intros C. destruct n as [|b n]; [cbn in C; intuition discriminate|]. apply (colon_free (b :: n) b eq_refl).
  - assert (H : In (S_Huffman.lower_ascii b) [99; 112; 107; 116; 117]).
    { unfold connection_names in C. cbn [map In] in C. change (fold_name (b :: n)) with (S_Huffman.lower_ascii b :: fold_name n) in C.
      repeat (destruct C as [C|C]; [injection C as C _; rewrite <- C; cbn; auto 6|]). destruct C. }
    unfold S_Huffman.lower_ascii in H. destruct ((65 <=? b) && (b <=? 90)) eqn:E; cbn in H; unfold tchar, alpha, upper, lower; lia.
  - intros ->. cbn in C. intuition discriminate.
Qed.
Lemma connection_sent p (fs : headers) n v : distinct_names fs -> In (n, v) fs -> In (fold_name n) connection_names ->
  exists v', In (fold_name n, v') (map lower_field (hm_insert_all (parts_encode_header p []) fs)).
Proof.
  intros D I C. assert (K : In n (map fst (hm_insert_all (parts_encode_header p []) fs))).
  { apply insert_all_new; [|exact D|apply in_map_iff; exists (n, v); auto]. rewrite Forall_map. eapply Forall_impl; [|apply parts_names]. intros g G. apply connection_head; assumption. }
  apply in_map_iff in K as ([a v'] & E & K). cbn [fst] in E. subst a. exists v'. exact (List.in_map lower_field _ _ K).
Qed.
Lemma lower_in (fs : headers) n v : In (n, v) fs -> In (fold_name n, v) (map lower_field fs).
Proof. exact (List.in_map lower_field fs (n, v)). Qed.
Lemma host_fields_in (fs : headers) v : In v (host_fields fs) -> In (str "host", v) (map lower_field fs).
Proof.
  unfold host_fields. intros I. apply in_map_iff in I as ([n w] & E & I). cbn [snd] in E. subst w. apply filter_In in I as [I K]. cbn [fst] in K. apply beq_eq in K. apply lower_in in I. rewrite K in I. exact I.
Qed.
Lemma origin_port pr m p s h rest : bytes_ok (message_text m ++ rest) -> message_ok m -> message_readable m -> rm_target m = p ++ s -> abs_path p -> query_text s ->
  rm_method m <> str "CONNECT" -> fields_passable (rm_fields m) -> host_fields (rm_fields m) = [h] -> In 58 h ->
  exists q, read_message parse_request q_header (message_text m ++ rest) = Ok (q, body_meant (rm_body m), rest) /\
    malformed (map lower_field (request_behind (q_method q) (q_url q) pr (q_header q))).
Proof.
  intros Hb OK RD ET P S NC [_ F2] HF H58. destruct (message_got m rest Hb OK RD) as (k & st & k' & u & K1 & K2 & K3 & V0 & V & WU & RM).
  assert (KC : k <> MConnect) by (intros ->; apply NC; rewrite <- K3; reflexivity).
  rewrite ET in WU. apply (origin_target k p s _ u KC P S) in WU as (N64 & TP & TQ & _ & _ & HO & SH). unfold hosted in HO.
  exists (mkReq k k' u (rm_fields m) false). split; [exact RM|]. cbn [q_method q_url q_header]. pose proof (text_head _ _ P TP) as HD.
  destruct OK as ((NM & RT & _ & LO) & _). destruct (token_bytes _ LO) as [TN TB]. fold (rm_fields m) in TN, TB. destruct RD as [(_ & _ & _ & DN) _].
  rewrite (get_host_said _ _ TN HF) in HO. destruct HO as [(K & _)|(hst & d' & n' & E1 & E2 & E3 & _)]; [discriminate K|].
  assert (N58 : ~ In 58 d') by (destruct E2; assumption).
  assert (SC : u_scheme u = ScHttp). { pose proof (no_scheme _ TB F2) as G. destruct SH as [_|v sc G' _|v G' _]; [reflexivity|congruence..]. }
  rewrite (behind_made k u pr (rm_fields m) d'); [|rewrite SC; discriminate|exact E3|destruct (u_path u); discriminate|exact F2|exact DN].
  apply (mf_hosts _ d' h).
  - apply in_or_app. left. right. left. reflexivity.
  - apply in_or_app. right. apply host_fields_in. rewrite HF. left. reflexivity.
  - intros <-. exact (N58 H58).
Qed.
Lemma connection_malformed pr m n v rest : bytes_ok (message_text m ++ rest) -> message_ok m -> message_readable m -> In (n, v) (rm_fields m) -> In (fold_name n) connection_names ->
  exists q, read_message parse_request q_header (message_text m ++ rest) = Ok (q, body_meant (rm_body m), rest) /\
    malformed (map lower_field (request_behind (q_method q) (q_url q) pr (q_header q))).
Proof.
  intros Hb OK RD I C. destruct (message_got m rest Hb OK RD) as (k & st & k' & u & _ & _ & _ & _ & _ & _ & RM).
  exists (mkReq k k' u (rm_fields m) false). split; [exact RM|]. cbn [q_method q_url q_header]. destruct RD as [(_ & _ & _ & DN) _].
  destruct (connection_sent (parts_request k u pr) _ n v DN I C) as (v' & K). exact (mf_connection _ _ v' K C).
Qed.
Lemma hostless_malformed L fh pr r fs : h2_request_ok r -> h2_request_list r fs -> request_readable L r fs -> ~ In (str "host") (map fst (hr_fields r)) ->
  exists q, read_request L fh fs = Ok q /\ request_meant r q /\ malformed (map lower_field (request_behind (q_method q) (q_url q) pr (q_header q))).
Proof.
  intros OK LI RD NH. pose proof RD as (_ & _ & _ & DN). apply (P_RfcMeans.request_exact L fh r fs OK LI) in RD as (q & RQ & MN).
  exists q. split; [exact RQ|]. split; [exact MN|].
  pose proof OK as (NM & NC & SC & HN & UH & PO & AP & QT & F2 & SH).
  pose proof MN as (MS & d & n & (US & UU & UW & UD & TD & UP & N16 & PM & PP & QM) & HD).
  pose proof (fields_lower _ F2) as LO. pose proof PP as PP'. apply abs_meant in PP as [_ PP]; [|exact AP]. pose proof (text_head _ _ AP PP) as H47.
  assert (NS : u_scheme (q_url q) <> ScNone) by (rewrite US; cbn in SC; destruct SC as [<-|[<-|[]]]; discriminate).
  rewrite (behind_made (q_method q) (q_url q) pr (q_header q) d NS UD).
  - rewrite HD. apply (mf_hosts _ d (host_value (hr_authority r) d n (hr_fields r))).
    + apply in_or_app. left. right. left. reflexivity.
    + apply in_or_app. right. left. reflexivity.
    + unfold host_value. destruct (existsb is_host (hr_fields r)) eqn:EH; [exfalso; apply NH, host_there, EH|].
      intros E. apply (f_equal (@length N)) in E. rewrite app_length in E. cbn [length] in E. lia.
  - destruct (u_path (q_url q)); discriminate.
  - rewrite HD. apply Forall_cons.
    + intros c C. cbn [fst]. eapply (colon_free (str "Host") 72); [reflexivity|unfold tchar, alpha, upper; lia|lia|]. cbn in *. intuition.
    + eapply Forall_impl; [|exact (others_lower _ LO)]. intros f T c C. apply (lower_colon_free _ T). cbn in *. intuition.
  - rewrite HD. apply host_front; assumption.
Qed.
Lemma connection_reply m n v rest : bytes_ok (reply_text m ++ rest) -> reply_ok m -> follows (rr_body m) rest -> answer_readable m -> In (n, v) (rr_fields m) -> In (fold_name n) connection_names ->
  exists p v', read_reply (rr_to m) (reply_text m ++ rest) = Ok (p, reply_meant (rr_body m), rest) /\ In (fold_name n, v') (map lower_field (response_behind (p_status p) (p_header p))).
Proof.
  intros Hb OK FO RD I C. pose proof RD as (V & H48 & _ & _ & DN & _). apply (answer_exact m rest Hb OK FO) in RD as (p & RR & AV & AC & AH). exists p. rewrite AH.
  destruct (connection_sent (parts_response (p_status p)) _ n v DN I C) as (v' & K). exists v'. split; [exact RR|exact K].
Qed.
